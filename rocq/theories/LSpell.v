(** The inputs that are parsed as the same number or action. *)
From Coq Require Import List NArith ZArith Bool Lia ZifyBool ZifyNat ZifyN Arith.
From Verif Require Import Base Deku Utils Types Physical Link Network Session Data Query
  Interface File Operation Action Command WellFormed SpecLayout SpecAction SpecDecode SpecSpell LBits LReader LTypes
  LLayout LRound LNumbers LDecode LDecodeTypes LDecodeLoop LCanon.
Import ListNotations.
Open Scope N_scope.

Lemma dec_spelled k v r : k < 4 -> v < 2 ^ (6 + 8 * k) -> dec_length (spelled k v ++ r) = Some (v, r).
Proof.
  intros Hk Hv. unfold spelled.
  replace (N.to_nat (1 + k)) with (S (N.to_nat k)) by lia. cbn [be_bytes app].
  unfold dec_length, andthen, one. rewrite N2Nat.id.
  assert (P : 2 ^ (6 + 8 * k) = 64 * 256 ^ k) by (rewrite N.pow_add_r, N.pow_mul_r; reflexivity).
  rewrite P in *. assert (Z : 256 ^ k <> 0) by (apply N.pow_nonzero; discriminate).
  assert (Q : (k * (64 * 256 ^ k) + v) / 256 ^ k = 64 * k + v / 256 ^ k).
  { replace (k * (64 * 256 ^ k) + v) with (v + (64 * k) * 256 ^ k) by lia. rewrite N.div_add by exact Z. lia. }
  assert (L : v / 256 ^ k < 64) by (apply N.div_lt_upper_bound; lia).
  rewrite Q. rewrite (N.mod_small (64 * k + v / 256 ^ k) 256) by lia.
  assert (G : forall q, q < 64 -> (64 * k + q) / 64 = k /\ (64 * k + q) mod 64 = q) by (intros q Hq; divlia).
  destruct (G _ L) as [-> ->].
  unfold num, andthen, give. rewrite some_app by apply be_bytes_length.
  rewrite N_of_be_be, N2Nat.id. do 2 f_equal.
  replace (k * (64 * 256 ^ k) + v) with (v + (64 * k) * 256 ^ k) by lia. rewrite N.mod_add by exact Z.
  pose proof (N.div_mod v (256 ^ k) Z). lia.
Qed.
Lemma spelled_bytes k v : bytes (spelled k v).
Proof. apply be_bytes_bytes. Qed.
Lemma dec_length_spelling l v r : bytes l -> (dec_length l = Some (v, r) <-> exists x, spelling v x /\ l = x ++ r).
Proof.
  intros Hl. split.
  - destruct l as [|b l]; [discriminate|]. rewrite dec_length_cons. pose proof Hl as Hbl. apply Forall_cons_iff in Hl as [Hb Hl]. unfold byte in Hb.
    set (k := b / 64). assert (Hk : k < 4) by (unfold k; divlia).
    destruct (some_bytes k l) as [[t rest]|] eqn:H; [|discriminate]. intros Q.
    apply some_bytes_inv in H as [-> L]. apply Forall_app in Hl as [Ht Hl].
    assert (rest = r) as -> by congruence. assert (V : v = b mod 64 * 256 ^ k + N_of_be t) by congruence. clear Q.
    assert (P : 2 ^ (6 + 8 * k) = 64 * 256 ^ k) by (rewrite N.pow_add_r, N.pow_mul_r; reflexivity).
    pose proof (N_of_be_lt t Ht) as Bt. rewrite L, N2Nat.id in Bt.
    exists (b :: t). split; [|reflexivity]. exists k. split; [exact Hk|]. split.
    + rewrite P, V. assert (b mod 64 <= 63) by divlia. nia.
    + unfold spelled. rewrite P.
      assert (S1 : k * (64 * 256 ^ k) + v = N_of_be (b :: t)).
      { rewrite N_of_be_cons, L, N2Nat.id, V. assert (B : b = 64 * k + b mod 64) by (unfold k; divlia).
        rewrite B at 2. clear. lia. }
      rewrite S1. replace (N.to_nat (1 + k)) with (length (b :: t)) by (cbn [length]; lia).
      symmetry. apply be_N_of_be. constructor; assumption.
  - intros (x & (k & Hk & Hv & ->) & ->). apply dec_spelled; assumption.
Qed.
(** What the reader of a length takes. *)
Theorem length_inputs x v : bytes x -> (spelling v x <->
  forall rest, bytes rest -> exists r, read_length (new_reader (x ++ rest)) = Ok (v, r) /\ bread r = (8 * length x)%nat).
Proof.
  intros Hx.
  assert (G : forall rest, bytes rest -> match dec_length (x ++ rest) with
    | Some (w, t) => exists k, t = skipn k (x ++ rest) /\ (k <= length (x ++ rest))%nat /\ exists r, read_length (new_reader (x ++ rest)) = Ok (w, r) /\ bread r = (8 * k)%nat
    | None => exists e, read_length (new_reader (x ++ rest)) = Err e end).
  { intros rest Hr. assert (HB : bytes (x ++ rest)) by (apply Forall_app; split; assumption).
    pose proof (Dec_length (new_reader (x ++ rest)) (RWf_new _)) as D. unfold DecAt in D. rewrite view_new, (octets_bits _ HB) in D.
    destruct (dec_length (x ++ rest)) as [[w t]|]; [|exact D]. destruct D as (k & L & T & R). exists k. split; [exact T|].
    rewrite bits_of_bytes_length in L. split; [lia|]. eexists. split; [exact R|]. reflexivity. }
  split.
  - intros S rest Hr. assert (HB : bytes (x ++ rest)) by (apply Forall_app; split; assumption). specialize (G rest Hr).
    rewrite (proj2 (dec_length_spelling (x ++ rest) v rest HB) (ex_intro _ x (conj S eq_refl))) in G.
    destruct G as (k & T & L & r & R & B). exists r. split; [exact R|]. rewrite B. f_equal.
    apply (f_equal (@length N)) in T. rewrite skipn_length, app_length in T. rewrite app_length in L. lia.
  - intros H. destruct (H [] (Forall_nil _)) as (r & R & B). specialize (G [] (Forall_nil _)). rewrite app_nil_r in *.
    destruct (dec_length x) as [[w t]|] eqn:D; [|destruct G as (e & G); congruence].
    destruct G as (k & T & L & r' & R' & B'). assert (w = v) as -> by congruence. assert (r' = r) as -> by congruence.
    assert (k = length x) by lia. subst k. rewrite skipn_all in T. subst t.
    apply (proj1 (dec_length_spelling x v [] Hx)) in D as (y & S & Q). rewrite app_nil_r in Q. subst y. exact S.
Qed.
Lemma spelled_length k v : length (spelled k v) = N.to_nat (1 + k).
Proof. apply be_bytes_length. Qed.
Theorem length_count v : v < 2 ^ 30 -> exists L, NoDup L /\ (forall x, In x L <-> spelling v x) /\ length L = spellings v.
Proof.
  intros Hv. exists (map (fun k => spelled k v) (filter (fun k => v <? 2 ^ (6 + 8 * k)) [0; 1; 2; 3])). split; [|split].
  - assert (J : forall ks, NoDup ks -> NoDup (map (fun k => spelled k v) ks)).
    { induction 1 as [|k ks Hk _ IH]; [constructor|]. cbn [map]. constructor; [|exact IH]. intros I. apply in_map_iff in I as (j & Q & I).
      apply (f_equal (@length N)) in Q. rewrite !spelled_length in Q. assert (j = k) by lia. subst j. contradiction. }
    apply J. apply NoDup_filter. repeat constructor; cbn; intuition discriminate.
  - intros x. rewrite in_map_iff. split.
    + intros (k & <- & I). apply filter_In in I as (I & B). apply N.ltb_lt in B. exists k. split; [|split; [exact B|reflexivity]].
      cbn in I. intuition lia.
    + intros (k & Hk & B & ->). exists k. split; [reflexivity|]. apply filter_In. split; [|apply N.ltb_lt; exact B].
      assert (k = 0 \/ k = 1 \/ k = 2 \/ k = 3) by lia. cbn. intuition.
  - rewrite map_length. unfold spellings. cbn [filter].
    change (6 + 8 * 0) with 6. change (6 + 8 * 1) with 14. change (6 + 8 * 2) with 22. change (6 + 8 * 3) with 30.
    assert (v <? 2 ^ 30 = true) as -> by (apply N.ltb_lt; exact Hv).
    change (2 ^ 6) with 64. change (2 ^ 14) with 16384. change (2 ^ 22) with 4194304.
    destruct (N.ltb_spec v 64), (N.ltb_spec v 16384), (N.ltb_spec v 4194304); try lia; reflexivity.
Qed.
(** A request for file data has two such numbers. *)
Lemma operand_read {E : Env} op l v rest : dec_operand op l = Some (AReadFileData v, rest) -> op < 64 -> op = 1.
Proof.
  intros H Ho. assert (I : In op (map N.of_nat (seq 0 64))).
  { apply in_map_iff. exists (N.to_nat op). split; [lia|]. apply in_seq. lia. }
  cbn in I. clear Ho. repeat destruct I as [<-|I]; try contradiction; try discriminate H; try reflexivity; exfalso;
    cbn [dec_operand N.eqb Pos.eqb] in *;
    unfold dec_nop, dec_file_id_op, dec_file_data, dec_file_properties, dec_action_query, andthen, give, reject in H;
    repeat match type of H with
    | context [match ?e with _ => _ end] =>
        lazymatch e with context [match _ with _ => _ end] => fail | _ => destruct e as [] end; try discriminate H
    | context [match ?e with _ => _ end] =>
        lazymatch e with context [match _ with _ => _ end] => fail | _ => destruct e as [[? ?]|] end; try discriminate H
    end; discriminate H.
Qed.
Lemma first_parts b : b < 256 -> part 0 6 b = 1 -> b = first_byte (flag 7 b) (flag 6 b) 1.
Proof.
  intros Hb H. unfold first_byte, flag, part in *. change (2 ^ 0) with 1 in *. change (2 ^ 6) with 64 in *. change (2 ^ 7) with 128. change (2 ^ 1) with 2.
  assert (b / 128 < 2) by divlia. assert (b / 64 < 4) by divlia.
  destruct (N.eqb_spec ((b / 128) mod 2) 1), (N.eqb_spec ((b / 64) mod 2) 1); cbn [b2n]; divlia.
Qed.
Theorem read_file_inputs {E : Env} d g r f o n : bytes d ->
  (action_try_from d = Ok (AReadFileData (mkReadFileData (mkHeader g r) 1 (mkFileOffset f o) n)) <->
   exists x y rest, spelling o x /\ spelling n y /\ (length rest <= 1)%nat /\ d = first_byte g r 1 :: f :: x ++ y ++ rest).
Proof.
  intros Hd. pose proof (decode_action_try_from d Hd) as D. split.
  - intros H. destruct (dec_action d) as [[a rest]|] eqn:Q; [|destruct D as (e & D); congruence].
    assert (K : a = AReadFileData (mkReadFileData (mkHeader g r) 1 (mkFileOffset f o) n) /\ Nat.leb (length rest) (if is_tx a then 0 else 1) = true).
    { destruct (Nat.leb (length rest) (if is_tx a then 0 else 1)); [|congruence]. split; [congruence|reflexivity]. }
    destruct K as (-> & K). cbn [is_tx] in K. apply Nat.leb_le in K. clear D H.
    destruct d as [|b d]; [discriminate|]. unfold dec_action in Q. apply Forall_cons_iff in Hd as [Hb Hd]. unfold byte in Hb.
    assert (P : part 0 6 b = 1) by (apply (operand_read _ _ _ _ Q); unfold part; apply N.mod_lt; discriminate).
    rewrite P in Q. cbn [dec_operand] in Q. unfold andthen at 1 in Q. cbn [one] in Q. unfold andthen at 1, dec_file_offset, andthen at 1 in Q.
    destruct d as [|f' d]; [discriminate|]. cbn [one] in Q. apply Forall_cons_iff in Hd as [Hf Hd]. unfold andthen at 1 in Q.
    destruct (dec_length d) as [[o' d1]|] eqn:Q1; [|discriminate]. unfold give at 1 in Q. unfold andthen in Q.
    apply (proj1 (dec_length_spelling d o' d1 Hd)) in Q1 as (x & Sx & ->). apply Forall_app in Hd as [_ Hd].
    destruct (dec_length d1) as [[n' d2]|] eqn:Q2; [|discriminate].
    apply (proj1 (dec_length_spelling d1 n' d2 Hd)) in Q2 as (y & Sy & ->). unfold give, dec_header in Q.
    exists x, y, rest. injection Q as Qg Qr _ Qf Qo Qn Qd. subst. repeat (split; [assumption|]).
    rewrite <- (first_parts b Hb P). reflexivity.
  - intros (x & y & rest & Sx & Sy & K & ->). apply Forall_cons_iff in Hd as [_ Hd]. apply Forall_cons_iff in Hd as [_ Hd].
    assert (Q : dec_action (first_byte g r 1 :: f :: x ++ y ++ rest) = Some (AReadFileData (mkReadFileData (mkHeader g r) 1 (mkFileOffset f o) n), rest)).
    { unfold dec_action. assert (P : part 0 6 (first_byte g r 1) = 1) by (destruct g, r; reflexivity). rewrite P. cbn [dec_operand].
      unfold andthen at 1. cbn [one]. unfold andthen at 1, dec_file_offset, andthen at 1. cbn [one]. unfold andthen at 1.
      rewrite (proj2 (dec_length_spelling (x ++ y ++ rest) o (y ++ rest) Hd) (ex_intro _ x (conj Sx eq_refl))). unfold give at 1. unfold andthen.
      apply Forall_app in Hd as [_ Hd]. rewrite (proj2 (dec_length_spelling (y ++ rest) n rest Hd) (ex_intro _ y (conj Sy eq_refl))).
      rewrite P. unfold give, dec_header. destruct g, r; reflexivity. }
    rewrite Q in D. cbn [is_tx] in D. apply Nat.leb_le in K. rewrite K in D. exact D.
Qed.
Lemma inputs_refuted {E : Env} : exists x y a, x <> y /\ action_try_from x = Ok a /\ action_try_from y = Ok a.
Proof. exists [1; 4; 0; 8], [1; 4; 0x40; 0; 8]. eexists. split; [discriminate|]. split; destruct E as [[] [] []]; reflexivity. Qed.
(** How many inputs that makes: no byte or any of 256 behind the action. *)
Definition tails : list (list N) := [] :: map (fun i => [N.of_nat i]) (seq 0 256).
Lemma tails_in t : In t tails <-> bytes t /\ (length t <= 1)%nat.
Proof.
  unfold tails. cbn [In]. rewrite in_map_iff. split.
  - intros [<-|(i & <- & I)]; [split; [constructor|cbn; lia]|]. apply in_seq in I. split; [|cbn; lia].
    constructor; [unfold byte; lia|constructor].
  - intros (B & L). destruct t as [|b [|c t]]; [left; reflexivity| |cbn in L; lia]. right. exists (N.to_nat b).
    apply Forall_cons_iff in B as [B _]. unfold byte in B. split; [f_equal; lia|]. apply in_seq. lia.
Qed.
Lemma tails_nodup : NoDup tails.
Proof.
  constructor.
  - rewrite in_map_iff. intros (i & Q & _). discriminate.
  - assert (J : forall ks, NoDup ks -> NoDup (map (fun i => [N.of_nat i]) ks)).
    { induction 1 as [|k ks Hk _ IH]; [constructor|]. cbn [map]. constructor; [|exact IH]. intros I. apply in_map_iff in I as (j & Q & I).
      injection Q as Q. assert (j = k) by lia. subst j. contradiction. }
    apply J, seq_NoDup.
Qed.
Lemma spelling_bytes v x : spelling v x -> bytes x.
Proof. intros (k & _ & _ & ->). apply be_bytes_bytes. Qed.
(** Lists of heads before lists of tails, when the heads are told apart. *)
Definition pairs (A B : list (list N)) : list (list N) := flat_map (fun a => map (app a) B) A.
Lemma pairs_in A B z : In z (pairs A B) <-> exists a b, In a A /\ In b B /\ z = a ++ b.
Proof.
  unfold pairs. rewrite in_flat_map. split.
  - intros (a & Ha & I). apply in_map_iff in I as (b & <- & Hb). exists a, b. auto.
  - intros (a & b & Ha & Hb & ->). exists a. split; [exact Ha|]. apply in_map_iff. exists b. auto.
Qed.
Lemma pairs_length A B : length (pairs A B) = (length A * length B)%nat.
Proof. induction A as [|a A IH]; [reflexivity|]. unfold pairs in *. cbn [flat_map]. rewrite app_length, map_length, IH. cbn. lia. Qed.
Lemma map_nodup {X Y} (f : X -> Y) l : (forall a b, In a l -> In b l -> f a = f b -> a = b) -> NoDup l -> NoDup (map f l).
Proof.
  intros Hf H. induction H as [|a l Ha _ IH]; [constructor|]. cbn [map]. constructor.
  - intros I. apply in_map_iff in I as (b & Q & I). apply Ha. rewrite <- (Hf b a (or_intror I) (or_introl eq_refl) Q). exact I.
  - apply IH. intros x y Hx Hy. apply Hf; right; assumption.
Qed.
Lemma nodup_app {X} (l m : list X) : NoDup l -> NoDup m -> (forall x, In x l -> In x m -> False) -> NoDup (l ++ m).
Proof.
  intros H Hm D. induction H as [|a l Ha _ IH]; [exact Hm|]. cbn [app]. constructor.
  - intros I. apply in_app_or in I as [I|I]; [contradiction|]. exact (D a (or_introl eq_refl) I).
  - apply IH. intros x Hx. apply D. right. exact Hx.
Qed.
Lemma pairs_nodup A B : (forall a a' b b', In a A -> In a' A -> In b B -> In b' B -> a ++ b = a' ++ b' -> a = a') -> NoDup A -> NoDup B -> NoDup (pairs A B).
Proof.
  intros H HA HB. induction HA as [|a A Ha _ IH]; [constructor|]. unfold pairs in *. cbn [flat_map]. apply nodup_app.
  - apply map_nodup; [|exact HB]. intros x y _ _ Q. exact (app_inv_head _ _ _ Q).
  - apply IH. intros x x' b b' Hx Hx' Hb Hb' Q. exact (H x x' b b' (or_intror Hx) (or_intror Hx') Hb Hb' Q).
  - intros z I J. apply in_map_iff in I as (b & <- & Hb). apply in_flat_map in J as (a' & Ha' & J). apply in_map_iff in J as (b' & Q & Hb').
    apply Ha. rewrite (H a a' b b' (or_introl eq_refl) (or_intror Ha') Hb Hb' (eq_sym Q)). exact Ha'.
Qed.
Lemma spelling_head v x x' t t' : bytes t -> bytes t' -> spelling v x -> spelling v x' -> x ++ t = x' ++ t' -> x = x'.
Proof.
  intros Ht Ht' S S' Q. assert (D := dec_length_spelling). assert (B : bytes (x ++ t)) by (apply Forall_app; split; [exact (spelling_bytes _ _ S)|exact Ht]).
  assert (D1 := proj2 (D (x ++ t) v t B) (ex_intro _ x (conj S eq_refl))). assert (D2 := proj2 (D (x ++ t) v t' B) (ex_intro _ x' (conj S' Q))).
  rewrite D1 in D2. injection D2 as <-. exact (app_inv_tail _ _ _ Q).
Qed.
Theorem read_file_count {E : Env} g r f o n : f < 256 -> o < 2 ^ 30 -> n < 2 ^ 30 -> exists L, NoDup L /\
  (forall d, In d L <-> bytes d /\ action_try_from d = Ok (AReadFileData (mkReadFileData (mkHeader g r) 1 (mkFileOffset f o) n))) /\
  length L = (257 * (spellings o * spellings n))%nat.
Proof.
  intros Hf Ho Hn. destruct (length_count o Ho) as (X & NX & IX & LX). destruct (length_count n Hn) as (Y & NY & IY & LY).
  assert (BT : forall b, In b (pairs Y tails) -> bytes b).
  { intros b I. apply pairs_in in I as (y & t & I & J & ->). apply IY in I. apply tails_in in J as (J & _).
    apply Forall_app. split; [exact (spelling_bytes _ _ I)|exact J]. }
  assert (FB : first_byte g r 1 < 256) by (destruct g, r; reflexivity).
  exists (map (fun z => first_byte g r 1 :: f :: z) (pairs X (pairs Y tails))). split; [|split].
  - apply map_nodup; [intros a b _ _ Q; injection Q as Q; exact Q|]. apply pairs_nodup; [|exact NX|].
    + intros a a' b b' Ia Ia' Ib Ib' Q. apply IX in Ia, Ia'. exact (spelling_head o a a' b b' (BT _ Ib) (BT _ Ib') Ia Ia' Q).
    + apply pairs_nodup; [|exact NY|exact tails_nodup]. intros a a' b b' Ia Ia' Ib Ib' Q. apply IY in Ia, Ia'. apply tails_in in Ib as (Ib & _), Ib' as (Ib' & _).
      exact (spelling_head n a a' b b' Ib Ib' Ia Ia' Q).
  - intros d. rewrite in_map_iff. split.
    + intros (z & <- & I). apply pairs_in in I as (x & w & Ix & Iw & ->). pose proof (BT _ Iw) as Bw. apply pairs_in in Iw as (y & t & Iy & It & ->).
      apply IX in Ix. apply IY in Iy. apply tails_in in It as (_ & Lt).
      assert (B : bytes (first_byte g r 1 :: f :: x ++ y ++ t)).
      { constructor; [exact FB|]. constructor; [exact Hf|]. apply Forall_app. split; [exact (spelling_bytes _ _ Ix)|exact Bw]. }
      split; [exact B|]. apply (read_file_inputs _ g r f o n B). exists x, y, t. auto.
    + intros (B & H). apply (read_file_inputs d g r f o n B) in H as (x & y & t & Sx & Sy & Lt & ->). exists (x ++ y ++ t). split; [reflexivity|].
      apply Forall_cons_iff in B as [_ B]. apply Forall_cons_iff in B as [_ B]. apply Forall_app in B as [_ B]. apply Forall_app in B as [_ B].
      apply pairs_in. exists x, (y ++ t). split; [apply IX; exact Sx|]. split; [|reflexivity]. apply pairs_in. exists y, t. split; [apply IY; exact Sy|].
      split; [|reflexivity]. apply tails_in. split; [exact B|exact Lt].
  - rewrite map_length, !pairs_length, LX, LY. unfold tails. cbn [length]. rewrite map_length, seq_length. lia.
Qed.
