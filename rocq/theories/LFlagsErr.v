(** The two bits in front of an opcode and the errors. *)
From Coq Require Import List NArith ZArith Bool Lia.
From Verif Require Import Base Deku Utils Types Physical Link Network Session Data Query
  Interface File Operation Action Command WellFormed SpecLayout SpecApi SpecDecode SpecAction SpecLive SpecErr SpecFlags
  LAction LLayout LCommandApi LDecodeLoop LDecodeCmd LLiveLoop LErrTop LFlags.
Import ListNotations.
Open Scope N_scope.

Lemma only_flags_sym op x x' : only_flags op x x' -> only_flags op x' x.
Proof. intros (A & B & C). split; [exact A|]. split; [exact B|]. intros H. symmetry. exact (C H). Qed.
Lemma stuck_flags {E : Env} op x y x' y' t : only_flags op x x' -> stuck op (first x y op :: t) -> stuck op (first x' y' op :: t).
Proof.
  intros (A & B & _) [(H & _)|[(H & b & l1 & o & l2 & n & u & v & q & Q & K)|(_ & H & _)]]; [contradiction| |contradiction].
  right. left. split; [exact H|]. injection Q as <- <-. exists (first x' y' op), t, o, l2, n, u, v, q. split; [reflexivity|exact K].
Qed.
Lemma same_kind e e' : (e = EIncomplete <-> e' = EIncomplete) -> (e = EInvalidParam <-> e' = EInvalidParam) ->
  (e = ETooMuchData <-> e' = ETooMuchData) ->
  e = ETooMuchData \/ e = EIncomplete \/ e = EInvalidParam \/ e = EParse ->
  e' = ETooMuchData \/ e' = EIncomplete \/ e' = EInvalidParam \/ e' = EParse -> e = e'.
Proof. intros (A1 & A2) (B1 & B2) (C1 & C2) [-> |[-> |[-> | ->]]] [-> |[-> |[-> | ->]]]; try reflexivity; intuition discriminate. Qed.

(** ** Actions *)
Lemma action_end_flags {E : Env} op x y x' y' t : op < 64 -> only_flags op x x' -> bytes t ->
  action_can_end (first x y op :: t) \/ action_stuck (first x y op :: t) ->
  action_can_end (first x' y' op :: t) \/ action_stuck (first x' y' op :: t).
Proof.
  intros H O T [(s & r & Bs & Hs)|(b & l & Q & S)].
  - left. exists s. cbn [app] in Hs |- *.
    pose proof (action_flags op x y x' y' (t ++ s) H O ltac:(apply Forall_app; split; assumption)) as F. rewrite Hs in F.
    destruct r as [rest a]. eexists. split; [exact Bs|exact F].
  - right. injection Q as <- <-. rewrite (proj1 (first_parts x y op H)) in S.
    exists (first x' y' op), t. split; [reflexivity|]. rewrite (proj1 (first_parts x' y' op H)). exact (stuck_flags op x y x' y' t O S).
Qed.
Lemma action_unknown_first {E : Env} op x y t : op < 64 -> (action_unknown (first x y op :: t) <-> ~ In op assigned_opcodes).
Proof.
  intros H. unfold action_unknown. split.
  - intros (b & l & Q & N). injection Q as <- <-. rewrite (proj1 (first_parts x y op H)) in N. exact N.
  - intros N. exists (first x y op), t. split; [reflexivity|]. rewrite (proj1 (first_parts x y op H)). exact N.
Qed.
Lemma action_flags_all {E : Env} op x y x' y' t : op < 64 -> only_flags op x x' -> bytes t ->
  match action_from_bytes (first x y op :: t) 0 with
  | Ok (rest, a) => action_from_bytes (first x' y' op :: t) 0 = Ok (rest, reflag x' y' a)
  | Err e => action_from_bytes (first x' y' op :: t) 0 = Err e
  | Panic => False
  end.
Proof.
  intros H O T. pose proof (action_flags op x y x' y' t H O T) as F. destruct (action_from_bytes (first x y op :: t) 0) as [[rest a]|e|] eqn:Q; [exact F| |exact F].
  destruct F as (e' & F). rewrite F. f_equal. symmetry.
  pose proof (first_bytes x y op t H T) as B. pose proof (first_bytes x' y' op t H T) as B'.
  destruct (action_names _ _ B Q) as (U & K). destruct (action_names _ _ B' F) as (U' & K').
  pose proof (action_incomplete _ _ B Q) as I. pose proof (action_incomplete _ _ B' F) as I'.
  rewrite (action_unknown_first op x y t H) in U. rewrite (action_unknown_first op x' y' t H) in U'.
  apply same_kind; [| | |tauto|tauto].
  - rewrite I, I'. split; [apply action_end_flags; assumption|apply action_end_flags; [assumption|apply only_flags_sym, O|assumption]].
  - rewrite U, U'. reflexivity.
  - split; intros ->; exfalso; [decompose [or] K|decompose [or] K']; discriminate.
Qed.

(** ** Commands *)
Lemma runs_prefix {E : Env} s : bytes s -> forall c1, Forall wf_action c1 ->
  Forall (fun a => SpecDecode.is_indirect a = false /\ is_tx a = false) c1 -> runs false (flat_map enc_action c1 ++ s) false s.
Proof.
  intros B. induction c1 as [|a c1 IH]; intros W I; [apply runs_here|].
  inversion W as [|? ? W1 W2]; subst. inversion I as [|? ? (I1 & I2) I3]; subst. cbn [flat_map]. rewrite <- app_assoc.
  assert (B1 : bytes (flat_map enc_action c1 ++ s)) by (apply Forall_app; split; [apply (command_bytes c1 W2)|exact B]).
  pose proof (decode_encoded a _ W1 B1) as D. destruct (enc_action_cons a I2) as (b & l & L). rewrite L in D |- *.
  unfold dec_action in D. cbn [app] in D |- *. eapply runs_on; [exact D|exact I1|]. rewrite I2. exact (IH W2 I3).
Qed.
Lemma runs_flags {E : Env} (P : N -> list N -> Prop) op x y x' y' t c1 : op < 64 -> only_flags op x x' -> bytes t ->
  (forall o b l, o < 64 -> bytes (b :: l) -> P o (b :: l) -> dec_operand o (b :: l) = None) ->
  (P op (first x y op :: t) -> P op (first x' y' op :: t)) ->
  Forall wf_action c1 -> Forall (fun a => SpecDecode.is_indirect a = false /\ is_tx a = false) c1 ->
  (exists p b l, runs false (flat_map enc_action c1 ++ first x y op :: t) p (b :: l) /\ P (opcode_at p b) (b :: l)) ->
  exists p b l, runs false (flat_map enc_action c1 ++ first x' y' op :: t) p (b :: l) /\ P (opcode_at p b) (b :: l).
Proof.
  intros H O T N1 HP W I (p & b & l & R & Q).
  assert (B : forall z u, bytes (flat_map enc_action c1 ++ first z u op :: t)).
  { intros z u. apply Forall_app. split; [apply (command_bytes c1 W)|apply first_bytes; assumption]. }
  pose proof (N1 _ _ _ (opcode_bound p b) (runs_bytes _ _ _ _ R (B x y)) Q) as N0.
  pose proof (runs_prefix _ (first_bytes x y op t H T) c1 W I) as R1. pose proof (runs_prefix _ (first_bytes x' y' op t H T) c1 W I) as R1'.
  pose proof (runs_det _ _ _ _ _ R N0 _ _ R1) as G. inversion G as [|? ? ? a rest ? ? Ho Hi G2]; subst.
  - exists false, (first x' y' op), l. split; [exact R1'|]. unfold opcode_at in Q |- *. rewrite (proj1 (first_parts x y op H)) in Q.
    rewrite (proj1 (first_parts x' y' op H)). exact (HP Q).
  - exists p, b, l. split; [|exact Q]. eapply runs_trans; [exact R1'|].
    unfold opcode_at in Ho. rewrite (proj1 (first_parts x y op H)) in Ho.
    apply (runs_on false (first x' y' op) t (reflag x' y' a) rest).
    + unfold opcode_at. rewrite (proj1 (first_parts x' y' op H)), (operand_flags op x y x' y' t H O), Ho. reflexivity.
    + rewrite (proj1 (reflag_kind x' y' a)). exact Hi.
    + rewrite (proj2 (reflag_kind x' y' a)). exact G2.
Qed.
Lemma command_end_flags {E : Env} op x y x' y' t c1 : op < 64 -> only_flags op x x' -> bytes t ->
  Forall wf_action c1 -> Forall (fun a => SpecDecode.is_indirect a = false /\ is_tx a = false) c1 ->
  let d := flat_map enc_action c1 ++ first x y op :: t in let d' := flat_map enc_action c1 ++ first x' y' op :: t in
  (command_can_end d \/ command_stuck d -> command_can_end d' \/ command_stuck d') /\
  (command_unknown d -> command_unknown d') /\ (dec_command d <> None -> dec_command d' <> None).
Proof.
  intros H O T W I d d'. split; [|split].
  - intros [(s & c & Bs & Hs)|S].
    + left. exists s. unfold d, d' in *. rewrite <- app_assoc in Hs |- *. cbn [app] in Hs |- *.
      assert (C : command_to_bytes c1 = Ok (flat_map enc_action c1)) by (destruct (command_bytes c1 W) as (C & _); exact C).
      pose proof (command_flags op x y x' y' (flat_map enc_action c1) (t ++ s) c1 H O ltac:(apply Forall_app; split; assumption) W I C) as F.
      rewrite Hs in F. destruct F as (a & c2 & _ & F). eexists. split; [exact Bs|exact F].
    + right. unfold command_stuck in S |- *. revert S. apply runs_flags; try assumption.
      * intros o b l Ho B. apply stuck_dead, B.
      * apply stuck_flags, O.
  - unfold command_unknown. apply (runs_flags (fun o _ => ~ In o assigned_opcodes)); try assumption.
    + intros o b l Ho B N1. apply unassigned_dead; assumption.
    + intros N1. exact N1.
  - intros N1. pose proof (actions_flags op x y x' y' t H O T c1 (length d) W I) as S. unfold swapped in S. fold d d' in S.
    unfold dec_command in N1 |- *. replace (length d') with (length d) by (unfold d, d'; rewrite !app_length; reflexivity).
    destruct (dec_actions (length d) false d) as [[c rest]|]; [|congruence]. destruct S as (a & c2 & _ & S). rewrite S. discriminate.
Qed.
Lemma command_flags_all {E : Env} op x y x' y' pre t c1 : op < 64 -> only_flags op x x' -> bytes t ->
  Forall wf_action c1 -> Forall (fun a => SpecDecode.is_indirect a = false) c1 -> command_to_bytes c1 = Ok pre ->
  match command_try_from (pre ++ first x y op :: t) with
  | Ok c => exists a c2, c = c1 ++ a :: c2 /\
      command_try_from (pre ++ first x' y' op :: t) = Ok (c1 ++ reflag x' y' a :: c2)
  | Err e => command_try_from (pre ++ first x' y' op :: t) = Err e
  | Panic => False
  end.
Proof.
  intros H O T W I0 P.
  assert (I : Forall (fun a => SpecDecode.is_indirect a = false /\ is_tx a = false) c1).
  { clear - W I0. induction W as [|a l A W IH]; [constructor|]. inversion I0; subst. constructor; [|auto].
    split; [assumption|]. destruct a; try reflexivity. destruct A. }
  pose proof (command_flags op x y x' y' pre t c1 H O T W I P) as F.
  assert (Q : pre = flat_map enc_action c1 /\ bytes pre).
  { destruct (command_bytes c1 W) as (C & B). split; [unfold enc_command in C; congruence|].
    replace pre with (enc_command c1) by congruence. exact B. }
  destruct Q as (-> & Q).
  assert (B : forall z u, bytes (flat_map enc_action c1 ++ first z u op :: t)).
  { intros z u. apply Forall_app. split; [exact Q|apply first_bytes; assumption]. }
  destruct (command_try_from (flat_map enc_action c1 ++ first x y op :: t)) as [c|e|] eqn:R; [exact F| |exact F].
  destruct F as (e' & F). rewrite F. f_equal. symmetry.
  destruct (command_names _ _ (B x y) R) as (U & V & K). destruct (command_names _ _ (B x' y') F) as (U' & V' & K').
  pose proof (command_incomplete _ _ (B x y) R) as J. pose proof (command_incomplete _ _ (B x' y') F) as J'.
  destruct (command_end_flags op x y x' y' t c1 H O T W I) as (E1 & E2 & E3).
  destruct (command_end_flags op x' y' x y t c1 H (only_flags_sym _ _ _ O) T W I) as (G1 & G2 & G3).
  apply same_kind; [rewrite J, J'; split; assumption|rewrite V, V'; split; assumption|rewrite U, U'; split; assumption|exact K|exact K'].
Qed.
