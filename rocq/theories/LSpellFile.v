(** The inputs that are parsed as the same request to write a file. *)
From Coq Require Import List NArith ZArith Bool Lia ZifyBool ZifyNat ZifyN Arith.
From Verif Require Import Base Deku Utils Types Physical Link Network Session Data Query
  Interface File Operation Action Command WellFormed SpecLayout SpecAction SpecDecode SpecSpell LBits LReader LTypes
  LLayout LRound LNumbers LDecode LDecodeTypes LDecodeLoop LCanon LSpell.
Import ListNotations.
Open Scope N_scope.

Lemma operand_write {E : Env} op l v rest : dec_operand op l = Some (AWriteFileData v, rest) -> op < 64 -> op = 4.
Proof.
  intros H Ho. assert (I : In op (map N.of_nat (seq 0 64))).
  { apply in_map_iff. exists (N.to_nat op). split; [lia|]. apply in_seq. lia. }
  cbn in I. clear Ho. repeat destruct I as [<-|I]; try contradiction; try discriminate H; try reflexivity; exfalso;
    cbn [dec_operand N.eqb Pos.eqb] in *;
    unfold dec_nop, dec_file_id_op, dec_file_data, dec_file_properties, dec_action_query, andthen, give, reject in H;
    repeat match type of H with
    | context [match ?e with _ => _ end] =>
        lazymatch e with context [match _ with _ => _ end] => fail | _ => destruct e as [] end; try discriminate H
    | context [match ?e with _ => _ end] =>
        lazymatch e with context [match _ with _ => _ end] => fail | _ => destruct e as [[? ?]|] end; try discriminate H
    end; discriminate H.
Qed.
Lemma first_parts4 b : b < 256 -> part 0 6 b = 4 -> b = first_byte (flag 7 b) (flag 6 b) 4.
Proof.
  intros Hb H. unfold first_byte, flag, part in *. change (2 ^ 0) with 1 in *. change (2 ^ 6) with 64 in *. change (2 ^ 7) with 128. change (2 ^ 1) with 2.
  assert (b / 128 < 2) by divlia. assert (b / 64 < 4) by divlia.
  destruct (N.eqb_spec ((b / 128) mod 2) 1), (N.eqb_spec ((b / 64) mod 2) 1); cbn [b2n]; divlia.
Qed.
Lemma write_file_parts {E : Env} d g r f o F : bytes d ->
  (action_try_from d = Ok (AWriteFileData (mkFileData (mkHeader g r) 4 (mkFileOffset f o) F)) <->
   exists x n y p rest, spelling o x /\ spelling n y /\ dec_file f n p = Some (F, rest) /\ (length rest <= 1)%nat /\
     d = first_byte g r 4 :: f :: x ++ y ++ p).
Proof.
  intros Hd. pose proof (decode_action_try_from d Hd) as D. split.
  - intros H. destruct (dec_action d) as [[a rest]|] eqn:Q; [|destruct D as (e & D); congruence].
    assert (K : a = AWriteFileData (mkFileData (mkHeader g r) 4 (mkFileOffset f o) F) /\ Nat.leb (length rest) (if is_tx a then 0 else 1) = true).
    { destruct (Nat.leb (length rest) (if is_tx a then 0 else 1)); [|congruence]. split; [congruence|reflexivity]. }
    destruct K as (-> & K). cbn [is_tx] in K. apply Nat.leb_le in K. clear D H.
    destruct d as [|b d]; [discriminate|]. unfold dec_action in Q. apply Forall_cons_iff in Hd as [Hb Hd]. unfold byte in Hb.
    assert (P : part 0 6 b = 4) by (apply (operand_write _ _ _ _ Q); unfold part; apply N.mod_lt; discriminate).
    rewrite P in Q. cbn [dec_operand] in Q. unfold dec_file_data, andthen at 1 in Q. cbn [one] in Q. unfold andthen at 1, dec_file_offset, andthen at 1 in Q.
    destruct d as [|f' d]; [discriminate|]. cbn [one] in Q. apply Forall_cons_iff in Hd as [Hf Hd]. unfold andthen at 1 in Q.
    destruct (dec_length d) as [[o' d1]|] eqn:Q1; [|discriminate]. unfold give at 1 in Q. unfold andthen in Q.
    apply (proj1 (dec_length_spelling d o' d1 Hd)) in Q1 as (x & Sx & ->). apply Forall_app in Hd as [_ Hd].
    destruct (dec_length d1) as [[n d2]|] eqn:Q2; [|discriminate].
    apply (proj1 (dec_length_spelling d1 n d2 Hd)) in Q2 as (y & Sy & ->). cbn [fo_file_id] in Q.
    destruct (dec_file f' n d2) as [[F' d3]|] eqn:Q3; [|discriminate]. unfold give, dec_header in Q.
    exists x, n, y, d2, rest. injection Q as Qg Qr _ Qf Qo QF Qd. subst. repeat (split; [assumption|]).
    rewrite <- (first_parts4 b Hb P). reflexivity.
  - intros (x & n & y & p & rest & Sx & Sy & QF & K & ->). apply Forall_cons_iff in Hd as [_ Hd]. apply Forall_cons_iff in Hd as [_ Hd].
    assert (Q : dec_action (first_byte g r 4 :: f :: x ++ y ++ p) = Some (AWriteFileData (mkFileData (mkHeader g r) 4 (mkFileOffset f o) F), rest)).
    { unfold dec_action. assert (P : part 0 6 (first_byte g r 4) = 4) by (destruct g, r; reflexivity). rewrite P. cbn [dec_operand].
      unfold dec_file_data, andthen at 1. cbn [one]. unfold andthen at 1, dec_file_offset, andthen at 1. cbn [one]. unfold andthen at 1.
      rewrite (proj2 (dec_length_spelling (x ++ y ++ p) o (y ++ p) Hd) (ex_intro _ x (conj Sx eq_refl))). unfold give at 1. unfold andthen.
      apply Forall_app in Hd as [_ Hd]. rewrite (proj2 (dec_length_spelling (y ++ p) n p Hd) (ex_intro _ y (conj Sy eq_refl))).
      cbn [fo_file_id]. rewrite QF, P. unfold give, dec_header. destruct g, r; reflexivity. }
    rewrite Q in D. cbn [is_tx] in D. apply Nat.leb_le in K. rewrite K in D. exact D.
Qed.
(** A decoder that never gives uninterpreted bytes. *)
Definition never (m : dec file) : Prop := forall p l r, m p = Some (FOther l, r) -> False.
Lemma never_then {A} (m : dec A) k : (forall v, never (k v)) -> never (andthen m k).
Proof. intros H p l r Q. unfold andthen in Q. destruct (m p) as [[v t]|]; [|discriminate]. exact (H v _ _ _ Q). Qed.
Lemma never_give F : (forall l, F <> FOther l) -> never (give F).
Proof. intros H p l r Q. apply (H l). unfold give in Q. congruence. Qed.
Ltac nev H := exfalso; revert H;
  match goal with |- ?m ?p = Some (FOther ?l, ?r) -> False =>
    assert (NV : never m) by (repeat (apply never_then; intros ?); apply never_give; intros ? ?; discriminate); exact (NV p l r) end.
Lemma dec_file_other {E : Env} f n p l rest :
  dec_file f n p = Some (FOther l, rest) <-> known_file f = false /\ n = N.of_nat (length l) /\ p = l ++ rest.
Proof.
  unfold dec_file, known_file. split.
  - intros H.
    destruct (f =? 0); [nev H|]. destruct (f =? 1); [nev H|]. destruct (f =? 2); [nev H|]. destruct (f =? 5); [nev H|].
    destruct (f =? 6); [nev H|]. destruct (f =? 9); [nev H|]. destruct (f =? 10); [nev H|]. destruct (f =? 11); [nev H|].
    destruct (f =? 14); [nev H|]. destruct ((32 <=? f) && (f <=? 46)); [nev H|].
    unfold andthen, give in H; destruct (some_bytes n p) as [[l' t]|] eqn:Q; [|discriminate].
    apply some_bytes_inv in Q as [-> L]. injection H as -> ->. split; [reflexivity|]. split; [lia|reflexivity].
  - intros (K & -> & ->). rewrite !orb_false_iff in K. destruct K as (((((((((K0 & K1) & K2) & K3) & K4) & K5) & K6) & K7) & K8) & K9).
    rewrite K0, K1, K2, K3, K4, K5, K6, K7, K8, K9. unfold andthen, give. rewrite some_app by lia. reflexivity.
Qed.
Theorem write_other_inputs {E : Env} d g r f o l : bytes d ->
  (action_try_from d = Ok (AWriteFileData (mkFileData (mkHeader g r) 4 (mkFileOffset f o) (FOther l))) <->
   known_file f = false /\ exists x y rest, spelling o x /\ spelling (N.of_nat (length l)) y /\ (length rest <= 1)%nat /\
     d = first_byte g r 4 :: f :: x ++ y ++ l ++ rest).
Proof.
  intros Hd. rewrite (write_file_parts d g r f o _ Hd). split.
  - intros (x & n & y & p & rest & Sx & Sy & Q & K & ->). apply dec_file_other in Q as (U & -> & ->). split; [exact U|]. exists x, y, rest. auto.
  - intros (U & x & y & rest & Sx & Sy & K & ->). exists x, (N.of_nat (length l)), y, (l ++ rest), rest. repeat (split; [assumption|]).
    split; [apply dec_file_other; auto|]. auto.
Qed.
Lemma num_inv k p v rest : bytes p -> (num k p = Some (v, rest) <-> v < 256 ^ k /\ p = be_bytes (N.to_nat k) v ++ rest).
Proof.
  intros Hp. unfold num, andthen, give. split.
  - destruct (some_bytes k p) as [[t s]|] eqn:Q; [|discriminate]. apply some_bytes_inv in Q as [-> L]. intros H. injection H as <- <-.
    apply Forall_app in Hp as [Ht _]. pose proof (N_of_be_lt t Ht) as B. rewrite L, N2Nat.id in B. split; [exact B|].
    rewrite <- L, (be_N_of_be t Ht). reflexivity.
  - intros (B & ->). rewrite some_app by apply be_bytes_length. rewrite N_of_be_be, N2Nat.id, N.mod_small by exact B. reflexivity.
Qed.
Theorem write_uid_inputs {E : Env} d g r o v : bytes d ->
  (action_try_from d = Ok (AWriteFileData (mkFileData (mkHeader g r) 4 (mkFileOffset 0 o) (FUId (UId v)))) <->
   v < 2 ^ 64 /\ exists x n y rest, spelling o x /\ spelling n y /\ (length rest <= 1)%nat /\
     d = first_byte g r 4 :: 0 :: x ++ y ++ be_bytes 8 v ++ rest).
Proof.
  intros Hd. rewrite (write_file_parts d g r 0 o _ Hd). change (2 ^ 64) with (256 ^ 8).
  assert (G : forall n p rest, bytes p -> (dec_file 0 n p = Some (FUId (UId v), rest) <-> v < 256 ^ 8 /\ p = be_bytes 8 v ++ rest)).
  { intros n p rest Hp. rewrite <- (num_inv 8 p v rest Hp). unfold dec_file. cbn [N.eqb]. unfold andthen at 1, give at 1.
    destruct (num 8 p) as [[w t]|]; split; intros H; try discriminate; congruence. }
  split.
  - intros (x & n & y & p & rest & Sx & Sy & Q & K & ->).
    apply Forall_cons_iff in Hd as [_ Hd]. apply Forall_cons_iff in Hd as [_ Hd]. apply Forall_app in Hd as [_ Hd]. apply Forall_app in Hd as [_ Hd].
    apply (G n p rest Hd) in Q as (V & ->). split; [exact V|]. exists x, n, y, rest. auto.
  - intros (V & x & n & y & rest & Sx & Sy & K & ->). exists x, n, y, (be_bytes 8 v ++ rest), rest. repeat (split; [assumption|]).
    apply Forall_cons_iff in Hd as [_ Hd]. apply Forall_cons_iff in Hd as [_ Hd]. apply Forall_app in Hd as [_ Hd]. apply Forall_app in Hd as [_ Hd].
    split; [apply (G n _ rest Hd); auto|]. auto.
Qed.
