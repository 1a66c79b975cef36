(** Display of an interface status against the derived text. *)
From Coq Require Import List NArith ZArith Bool String.
From Verif Require Import Base Deku Utils Types Physical Link Network Session Data Query
  Interface File Operation Action Command Frames Display Debug SpecDisplay.
Import ListNotations.
Open Scope string_scope.

Lemma show_N_Z n : show_Z (Z.of_N n) = show_N n.
Proof. destruct n; reflexivity. Qed.
Lemma app_assoc_s (a b c : string) : (a ++ b) ++ c = a ++ (b ++ c).
Proof. induction a; cbn; congruence. Qed.
Lemma concat_cons (s x y : string) l : concat s (x :: y :: l) = x ++ s ++ concat s (y :: l).
Proof. reflexivity. Qed.
Lemma concat_one (s x : string) : concat s [x] = x.
Proof. reflexivity. Qed.
Lemma status_text {E : Env} plain s : status_shown plain s (show_interface_status (derived plain) s).
Proof.
  destruct s as [| |d|l]; [reflexivity|reflexivity| |reflexivity].
  unfold status_shown. exists "Dash7InterfaceStatus". eexists. eexists.
  split; [reflexivity|]. unfold number_for. cbn [map fst snd]. unfold d_n, d_bool. 
  cbn [String.eqb Ascii.eqb Bool.eqb show_dv map]. rewrite !concat_cons, concat_one, !show_N_Z.
  split; [rewrite <- !app_assoc_s; reflexivity|].
  unfold show_interface_status, show_dash7_status, show_bool. cbn [derived dbg_channel dbg_addressee].
  rewrite ?app_assoc_s.
  set (c := show_dv plain (d_channel (ds_channel d))). set (a := show_dv plain (d_addressee (ds_addressee d))).
  reflexivity.
Qed.
