(** Proofs of C72. *)
From Coq Require Import List NArith ZArith Bool Lia ZifyN ZifyBool.
From Verif Require Import Base Deku Types SpecLayout SpecApi SpecRounding LBits LReader LTypes LLayout LNumbers.
Import ListNotations.
Open Scope N_scope.
Ltac Zify.zify_post_hook ::= Z.div_mod_to_equations.

Definition sent (v : N) (up : bool) : N :=
  let q := 4 ^ varint_exponent v in
  if up && negb (v mod q =? 0) then q * (v / q + 1) else q * (v / q).

Lemma sent_byte v up : v <= 507904 -> exists b, b < 256 /\ enc_varint (mkVarInt v up) = [b] /\
  4 ^ (b / 32) * (b mod 32) = sent v up.
Proof.
  intros H. unfold enc_varint. cbn [vi_value vi_ceil]. cbv zeta. eexists. split; [|split; [reflexivity|]].
  all: pose proof (varint_exponent_spec v H) as (E8 & _ & _); pose proof (mantissa_small v H) as M;
    pose proof (mantissa_small_up v H) as U; unfold sent; set (e := varint_exponent v) in *;
    set (s := v mod 4 ^ e) in *; set (m := v / 4 ^ e) in *; clearbody s m e;
    destruct (N.eqb_spec s 0); rewrite ?andb_false_r, ?andb_true_r; cbn [negb];
    (assert (up = true /\ s <> 0 -> m + 1 <= 31) by (intros [_ ?]; apply U; lia)).
  1, 2: destruct up; cbn [andb]; lia.
  1: replace ((32 * e + m) / 32) with e by lia; replace ((32 * e + m) mod 32) with m by lia; reflexivity.
  destruct up; cbn [andb].
  - replace ((32 * e + (m + 1)) / 32) with e by lia. replace ((32 * e + (m + 1)) mod 32) with (m + 1) by lia. reflexivity.
  - replace ((32 * e + m) / 32) with e by lia; replace ((32 * e + m) mod 32) with m by lia; reflexivity.
Qed.
Lemma read_byte b : b < 256 -> d_try_from read_varint [b] = Ok (mkVarInt (4 ^ (b / 32) * (b mod 32)) false).
Proof.
  intros H.
  pose proof (sweep (fun b => match d_try_from read_varint [b] with
    | Ok v => (vi_value v =? 4 ^ (b / 32) * (b mod 32)) && negb (vi_ceil v) | _ => false end) 256 ltac:(vm_compute; reflexivity) b H) as S.
  cbv beta in S. destruct (d_try_from read_varint [b]) as [[x c]| |]; try discriminate. cbn [vi_value vi_ceil] in S.
  apply andb_prop in S as [S1 S2]. apply N.eqb_eq in S1. apply negb_true_iff in S2. subst. reflexivity.
Qed.
Lemma arrives_iff v up r : arrives v up r <-> v <= 507904 /\ r = sent v up.
Proof.
  split.
  - intros (b & Hw & Hr). destruct (N.le_gt_cases v 507904) as [H|H].
    + split; [exact H|]. destruct (sent_byte v up H) as (b' & Hb & He & <-).
      unfold to_bytes in Hw. rewrite (layout_varint (mkVarInt v up) H), He in Hw. cbn [rbind] in Hw.
      rewrite bytes_of_bits_of_bytes in Hw by (repeat constructor; exact Hb). injection Hw as <-.
      rewrite (read_byte b' Hb) in Hr. injection Hr as <-. reflexivity.
    + unfold to_bytes, write_varint in Hw. cbn [vi_value vi_ceil] in Hw. rewrite compress_too_large in Hw by exact H. discriminate.
  - intros [H ->]. destruct (sent_byte v up H) as (b & Hb & He & <-). exists b. split; [|apply read_byte, Hb].
    unfold to_bytes. rewrite (layout_varint (mkVarInt v up) H), He. cbn [rbind].
    rewrite bytes_of_bits_of_bytes by (repeat constructor; exact Hb). reflexivity.
Qed.
Theorem one_arrives v up : v <= 507904 -> exists r, arrives v up r /\ exact_value r /\ forall r', arrives v up r' -> r' = r.
Proof.
  intros H. exists (sent v up). rewrite arrives_iff. split; [auto|]. split.
  - destruct (sent_byte v up H) as (b & Hb & _ & <-). exists (b / 32), (b mod 32). repeat split; lia.
  - intros r'. rewrite arrives_iff. tauto.
Qed.
Lemma exp_range v : v <= 507904 -> exists e, varint_exponent v = e /\ e < 8 /\ v <= 31 * 4 ^ e /\ (e = 0 \/ 31 * 4 ^ e < 4 * v).
Proof.
  intros H. destruct (varint_exponent_spec v H) as (A & B & C). exists (varint_exponent v). repeat split; auto.
  destruct (N.eq_dec (varint_exponent v) 0) as [->|D]; [auto|]. right. specialize (C (varint_exponent v - 1) ltac:(lia)).
  replace (varint_exponent v) with (N.succ (varint_exponent v - 1)) at 1 by lia. rewrite N.pow_succ_r'. lia.
Qed.
Ltac cases8 H := apply lt8_cases in H; destruct H as [->|[->|[->|[->|[->|[->|[->| ->]]]]]]].
Ltac pows := repeat match goal with
  | |- context [4 ^ N.pos ?p] => let x := eval vm_compute in (4 ^ N.pos p) in change (4 ^ N.pos p) with x
  | H : context [4 ^ N.pos ?p] |- _ => let x := eval vm_compute in (4 ^ N.pos p) in change (4 ^ N.pos p) with x in H
  | |- context [4 ^ 0] => change (4 ^ 0) with 1
  | H : context [4 ^ 0] |- _ => change (4 ^ 0) with 1 in H
  end.
Ltac split_up := cbv zeta; repeat match goal with |- context [?a mod ?b =? 0] => destruct (N.eqb_spec (a mod b) 0) end; cbn [andb negb].
Theorem up_best v r : arrives v true r -> v <= r /\ forall x, exact_value x -> v <= x -> r <= x.
Proof.
  rewrite arrives_iff. intros [H ->]. destruct (exp_range v H) as (e & He & E8 & Hi & Lo). unfold sent. rewrite He. clear He.
  split.
  - cases8 E8; pows; split_up; lia.
  - intros x (e' & m' & A & B & ->) Hx. assert (A8 : e' < 8) by lia. clear A.
    cases8 E8; cases8 A8; pows; split_up; lia.
Qed.
Lemma gap_exp k v : in_gap k v -> varint_exponent v = k + 1.
Proof.
  intros [K G]. assert (K8 : k < 8) by lia. assert (H : v <= 507904) by (cases8 K8; pows; lia).
  destruct (exp_range v H) as (e & He & E8 & Hi & Lo). rewrite He. clear He. cases8 K8; cases8 E8; pows; lia.
Qed.
Lemma down_gap k v : in_gap k v -> sent v false = 28 * 4 ^ k.
Proof.
  intros G. unfold sent. rewrite (gap_exp k v G). cbv zeta. cbn [andb]. destruct G as [K G]. assert (K8 : k < 8) by lia.
  rewrite N.pow_add_r. cases8 K8; pows; lia.
Qed.
Theorem down_below v r : arrives v false r -> r <= v.
Proof.
  rewrite arrives_iff. intros [H ->]. destruct (exp_range v H) as (e & He & E8 & Hi & Lo). unfold sent. rewrite He. clear He.
  cbv zeta. cbn [andb]. cases8 E8; pows; lia.
Qed.
Lemma no_gap_dec v : (exists k, in_gap k v) \/ forall k, ~ in_gap k v.
Proof.
  assert (D : forall k, in_gap k v \/ ~ in_gap k v).
  { intros k. unfold in_gap. destruct (N.leb_spec 1 k); [|right; lia].
    destruct (N.leb_spec k 6) as [|]; [|right; lia]. destruct (N.ltb_spec (31 * 4 ^ k) v); [|right; lia].
    destruct (N.ltb_spec v (32 * 4 ^ k)); [left; lia|right; lia]. }
  destruct (D 1); [left; eauto|]. destruct (D 2); [left; eauto|]. destruct (D 3); [left; eauto|].
  destruct (D 4); [left; eauto|]. destruct (D 5); [left; eauto|]. destruct (D 6); [left; eauto|].
  right. intros k G. assert (K8 : k < 8) by (destruct G; lia). pose proof G as [K _]. cases8 K8; try contradiction; lia.
Qed.
Lemma down_best v x : v <= 507904 -> (forall k, ~ in_gap k v) -> exact_value x -> x <= v -> x <= sent v false.
Proof.
  intros H G (e' & m' & A & B & ->) Hx. assert (A8 : e' < 8) by lia. clear A.
  destruct (exp_range v H) as (e & He & E8 & Hi & Lo). unfold sent. rewrite He. clear He. cbv zeta. cbn [andb].
  pose proof (G 1) as G1. pose proof (G 2) as G2. pose proof (G 3) as G3. pose proof (G 4) as G4. pose proof (G 5) as G5.
  pose proof (G 6) as G6. clear G. unfold in_gap in *. cases8 E8; cases8 A8; pows; lia.
Qed.
Theorem down_exact v r : arrives v false r ->
  ((forall x, exact_value x -> x <= v -> x <= r) <-> forall k, ~ in_gap k v) /\
  (forall k, in_gap k v -> r = 28 * 4 ^ k).
Proof.
  rewrite arrives_iff. intros [H ->]. split; [|intros k; apply down_gap]. split.
  - intros B k G. specialize (B (31 * 4 ^ k)). rewrite (down_gap k v G) in B. destruct G as [K G].
    assert (P : 0 < 4 ^ k) by apply pow4_pos. assert (31 * 4 ^ k <= 28 * 4 ^ k) by (apply B; [exists k, 31; lia|lia]). lia.
  - intros G x Hx L. apply down_best; assumption.
Qed.
Theorem down_refuted : ~ (forall v r x, arrives v false r -> exact_value x -> x <= v -> x <= r).
Proof.
  intros B. specialize (B 125 112 124). assert (124 <= 112); [|lia]. apply B; [|exists 1, 31; lia|lia].
  rewrite arrives_iff. split; [lia|reflexivity].
Qed.
Theorem up_monotone v w r s : arrives v true r -> arrives w true s -> v <= w -> r <= s.
Proof.
  intros R S L. pose proof (up_best _ _ S) as [A _]. apply (up_best _ _ R); [|lia].
  pose proof S as S'. rewrite arrives_iff in S'. destruct (one_arrives w true (proj1 S')) as (z & _ & Z & U).
  rewrite (U s S). exact Z.
Qed.
Theorem down_order v w r s : arrives v false r -> arrives w false s -> v <= w ->
  (s < r <-> exists k, in_gap k w /\ 29 * 4 ^ k <= v <= 31 * 4 ^ k).
Proof.
  rewrite !arrives_iff. intros [Hv ->] [Hw ->] L. split.
  - intros C. destruct (no_gap_dec w) as [(k & G)|G].
    + exists k. split; [exact G|]. rewrite (down_gap k w G) in C.
      pose proof (down_below v _ ltac:(rewrite arrives_iff; split; [exact Hv|reflexivity])) as D.
      destruct (exp_range v Hv) as (e & He & E8 & Hi & Lo). unfold sent in *. rewrite He in *. clear He. cbv zeta in *. cbn [andb] in *.
      destruct G as [K G]. assert (K8 : k < 8) by lia. cases8 K8; cases8 E8; pows; lia.
    + exfalso. destruct (one_arrives v false Hv) as (z & Z & X & _). apply arrives_iff in Z as [_ ->].
      pose proof (down_below v _ ltac:(rewrite arrives_iff; split; [exact Hv|reflexivity])) as D.
      pose proof (down_best w _ Hw G X). lia.
  - intros (k & G & V). rewrite (down_gap k w G). destruct G as [K G]. assert (K8 : k < 8) by lia.
    destruct (exp_range v Hv) as (e & He & E8 & Hi & Lo). unfold sent. rewrite He. clear He. cbv zeta. cbn [andb].
    cases8 K8; cases8 E8; pows; lia.
Qed.
Theorem down_monotone_refuted : ~ (forall v w r s, arrives v false r -> arrives w false s -> v <= w -> r <= s).
Proof.
  intros B. specialize (B 124 125 124 112). assert (124 <= 112); [|lia].
  apply B; rewrite ?arrives_iff; try (split; [lia|reflexivity]). lia.
Qed.
