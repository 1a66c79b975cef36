(** Length and VarInt. *)
From Coq Require Import List NArith ZArith Bool Lia ZifyBool ZifyNat ZifyN Arith.
From Verif Require Import Base Deku Utils Types LBits LReader WellFormed SpecLayout.
Import ListNotations.
Open Scope N_scope.

(** A decidable fact about all numbers below a small bound. *)
Lemma sweep (P : N -> bool) (n : nat) :
  forallb P (map N.of_nat (seq 0 n)) = true -> forall x, x < N.of_nat n -> P x = true.
Proof.
  intros H x Hx. rewrite forallb_forall in H. apply H.
  apply in_map_iff. exists (N.to_nat x). split; [lia|]. apply in_seq. lia.
Qed.

(** ** Length *)
Lemma log2_range a b v : 0 < v -> 2 ^ a <= v -> v < 2 ^ b -> a <= N.log2 v < b.
Proof.
  intros Hv Ha Hb. split.
  - apply N.log2_le_pow2; assumption.
  - apply N.log2_lt_pow2; assumption.
Qed.

Ltac Zify.zify_post_hook ::= Z.div_mod_to_equations.

Lemma extra_of_bits l k : 6 <= l -> 8 * k <= l + 2 < 8 * k + 8 ->
  (let q := (l + 1 - 6) / 8 in if 0 <? (l + 1 - 6) mod 8 then q + 1 else q) = k.
Proof. intros H1 H2. cbv zeta. destruct (N.ltb_spec 0 ((l + 1 - 6) mod 8)); lia. Qed.

Lemma num_extra_range k v : 1 <= k -> 2 ^ (8 * k - 2) <= v -> v < 2 ^ (8 * k + 6) ->
  num_extra_bytes v = k.
Proof.
  intros Hk Ha Hb. assert (Hv : 0 < v) by (pose proof (pow2_pos (8 * k - 2)); lia).
  pose proof (log2_range _ _ v Hv Ha Hb) as Hl.
  unfold num_extra_bytes, required_bits. apply extra_of_bits; lia.
Qed.

Lemma num_extra_0 v : v < 64 -> num_extra_bytes v = 0.
Proof.
  intros H. unfold num_extra_bytes, required_bits.
  assert (N.log2 v < 6).
  { destruct (N.eq_dec v 0) as [->|]; [reflexivity|]. apply N.log2_lt_pow2; [lia|exact H]. }
  replace (N.log2 v + 1 - 6) with 0 by lia. reflexivity.
Qed.
Lemma num_extra_1 v : 64 <= v -> v < 2 ^ 14 -> num_extra_bytes v = 1.
Proof. intros H H0. apply (num_extra_range 1); [lia|exact H|exact H0]. Qed.
Lemma num_extra_2 v : 2 ^ 14 <= v -> v < 2 ^ 22 -> num_extra_bytes v = 2.
Proof. intros H H0. apply (num_extra_range 2); [lia|exact H|exact H0]. Qed.
Lemma num_extra_3 v : 2 ^ 22 <= v -> v < 2 ^ 30 -> num_extra_bytes v = 3.
Proof. intros H H0. apply (num_extra_range 3); [lia|exact H|exact H0]. Qed.
Lemma num_extra_4 v : 2 ^ 30 <= v -> v < 2 ^ 38 -> num_extra_bytes v = 4.
Proof. intros H H0. apply (num_extra_range 4); [lia|exact H|exact H0]. Qed.

Ltac Zify.zify_post_hook ::= idtac.

Lemma length_cases v : v < 2 ^ 30 ->
  v < 64 \/ (64 <= v /\ v < 2 ^ 14) \/ (2 ^ 14 <= v /\ v < 2 ^ 22) \/ (2 ^ 22 <= v /\ v < 2 ^ 30).
Proof. lia. Qed.

Lemma write_length_err v : 2 ^ 30 <= v -> v < 2 ^ 32 -> write_length v = Err EInvalidParam.
Proof.
  intros H1 H2. unfold write_length. rewrite num_extra_4 by lia. reflexivity.
Qed.

Lemma write_length_k v : v < 2 ^ 30 ->
  num_extra_bytes v < 4 /\ v < 2 ^ (6 + 8 * num_extra_bytes v) /\
  write_length v = write_uint 2 (num_extra_bytes v)
                   +++ write_uint (N.to_nat (6 + num_extra_bytes v * 8)) v.
Proof.
  intros H. unfold write_length. pose proof (length_cases v H) as [C|[[C D]|[[C D]|[C D]]]].
  - rewrite num_extra_0 by lia. split; [lia|]. split; [exact C|reflexivity].
  - rewrite num_extra_1 by lia. split; [lia|]. split; [exact D|reflexivity].
  - rewrite num_extra_2 by lia. split; [lia|]. split; [exact D|reflexivity].
  - rewrite num_extra_3 by lia. split; [lia|]. split; [exact D|reflexivity].
Qed.

Lemma RT_length v : wf_length v -> RT (write_length v) read_length v.
Proof.
  intros H. destruct (write_length_k v H) as (Hk & Hv & ->). unfold read_length.
  eapply RT_bind with (x := num_extra_bytes v).
  - apply RT_uint. cbn. lia.
  - apply RT_uint. rewrite N2Nat.id. rewrite (N.mul_comm _ 8). exact Hv.
Qed.

Lemma join_bytes k n m a b : (n + m = 8 * k)%nat -> b < 2 ^ N.of_nat m ->
  bits_of n a ++ bits_of m b = bits_of_bytes (be_bytes k (a * 2 ^ N.of_nat m + b)).
Proof. intros Hk Hb. rewrite bits_of_be, <- Hk, bits_of_join by assumption. reflexivity. Qed.

Lemma layout_length v : wf_length v -> write_length v = Ok (bits_of_bytes (enc_length v)).
Proof.
  intros H. unfold write_length, enc_length.
  pose proof (length_cases v H) as [C|[[C D]|[[C D]|[C D]]]].
  - rewrite num_extra_0 by lia. rewrite (proj2 (N.ltb_lt v (2 ^ 6))) by (cbn; lia).
    cbn -[bits_of_bytes bits_of N.pow]. f_equal.
    pose proof (bits_of_join 2 6 0 v C) as E. cbn [Nat.add] in E.
    rewrite bits_of_bytes_cons. cbn [bits_of_bytes]. rewrite app_nil_r.
    rewrite N.mul_0_l, N.add_0_l in E. rewrite E. reflexivity.
  - rewrite num_extra_1 by lia. rewrite (proj2 (N.ltb_ge v (2 ^ 6))) by (cbn; lia).
    rewrite (proj2 (N.ltb_lt v (2 ^ 14))) by lia.
    change (N.to_nat (6 + 1 * 8)) with 14%nat. apply (f_equal Ok).
    apply (join_bytes 2 2 14); [reflexivity|exact D].
  - rewrite num_extra_2 by lia. rewrite (proj2 (N.ltb_ge v (2 ^ 6))) by (cbn; lia).
    rewrite (proj2 (N.ltb_ge v (2 ^ 14))) by lia.
    rewrite (proj2 (N.ltb_lt v (2 ^ 22))) by lia.
    change (N.to_nat (6 + 2 * 8)) with 22%nat. apply (f_equal Ok).
    apply (join_bytes 3 2 22); [reflexivity|exact D].
  - rewrite num_extra_3 by lia. rewrite (proj2 (N.ltb_ge v (2 ^ 6))) by (cbn; lia).
    rewrite (proj2 (N.ltb_ge v (2 ^ 14))) by lia.
    rewrite (proj2 (N.ltb_ge v (2 ^ 22))) by lia.
    change (N.to_nat (6 + 3 * 8)) with 30%nat. apply (f_equal Ok).
    apply (join_bytes 4 2 30); [reflexivity|exact D].
Qed.

Lemma enc_length_bytes v : wf_length v -> bytes (enc_length v).
Proof.
  intros H. unfold enc_length.
  destruct (N.ltb_spec v (2 ^ 6)); [repeat constructor; unfold byte; cbn in *; lia|].
  destruct (N.ltb_spec v (2 ^ 14)); [apply be_bytes_bytes|].
  destruct (N.ltb_spec v (2 ^ 22)); apply be_bytes_bytes.
Qed.

(** ** VarInt *)
Lemma lt8_cases e : e < 8 -> e = 0 \/ e = 1 \/ e = 2 \/ e = 3 \/ e = 4 \/ e = 5 \/ e = 6 \/ e = 7.
Proof. lia. Qed.

Lemma land_248 e : e < 256 -> (0 <? N.land e 248) = negb (e <? 8).
Proof.
  intros H. apply eqb_prop.
  apply (sweep (fun e => Bool.eqb (0 <? N.land e 248) (negb (e <? 8))) 256); [|exact H].
  vm_compute. reflexivity.
Qed.
Lemma land_224 e : e < 256 -> (0 <? N.land e 224) = negb (e <? 32).
Proof.
  intros H. apply eqb_prop.
  apply (sweep (fun e => Bool.eqb (0 <? N.land e 224) (negb (e <? 32))) 256); [|exact H].
  vm_compute. reflexivity.
Qed.

Lemma decompress_ok e m : e < 8 -> m < 32 -> decompress e m = inl (4 ^ e * m).
Proof.
  intros He Hm. unfold decompress. rewrite land_248, land_224 by lia.
  rewrite (proj2 (N.ltb_lt e 8)), (proj2 (N.ltb_lt m 32)) by assumption. reflexivity.
Qed.

Lemma compress_val v c : v <= 507904 ->
  compress v c = inl (varint_exponent v,
    let e := varint_exponent v in
    if c && (0 <? v mod 4 ^ e) then v / 4 ^ e + 1 else v / 4 ^ e).
Proof.
  intros H. unfold compress, varint_is_valid, varint_max.
  rewrite (proj2 (N.leb_le v 507904)) by assumption. cbn [negb]. unfold varint_exponent.
  cbn [compress_loop].
  change (4 ^ 0 * 31) with 31. change (4 ^ 1 * 31) with (31 * 4).
  change (4 ^ 2 * 31) with (31 * 16). change (4 ^ 3 * 31) with (31 * 64).
  change (4 ^ 4 * 31) with (31 * 256). change (4 ^ 5 * 31) with (31 * 1024).
  change (4 ^ 6 * 31) with (31 * 4096). change (4 ^ 7 * 31) with 507904.
  destruct (v <=? 31); [reflexivity|].
  destruct (v <=? 31 * 4); [reflexivity|].
  destruct (v <=? 31 * 16); [reflexivity|].
  destruct (v <=? 31 * 64); [reflexivity|].
  destruct (v <=? 31 * 256); [reflexivity|].
  destruct (v <=? 31 * 1024); [reflexivity|].
  destruct (v <=? 31 * 4096); [reflexivity|].
  rewrite (proj2 (N.leb_le v 507904)) by assumption. reflexivity.
Qed.

Lemma varint_exponent_spec v : v <= 507904 ->
  varint_exponent v < 8 /\ v <= 31 * 4 ^ varint_exponent v /\
  (forall e, e < varint_exponent v -> 31 * 4 ^ e < v).
Proof.
  intros H. unfold varint_exponent.
  assert (M : forall e k, e < k -> 31 * 4 ^ k < 4 * v -> 31 * 4 ^ e < v).
  { intros e k He Hk. assert (4 ^ e * 4 <= 4 ^ k).
    { rewrite N.mul_comm, <- N.pow_succ_r'. apply N.pow_le_mono_r; lia. }
    lia. }
  repeat match goal with |- context [?a <=? ?b] => destruct (N.leb_spec a b) end;
    (split; [lia|]); (split; [cbn; lia|]); intros e He;
    first [lia | apply (M e _ He); cbn; lia].
Qed.

Lemma varint_exponent_min v e : v <= 31 * 4 ^ e -> e < 8 -> varint_exponent v <= e.
Proof.
  intros H He. assert (Hv : v <= 507904).
  { apply lt8_cases in He. destruct He as [->|[->|[->|[->|[->|[->|[->| ->]]]]]]]; cbn in H; lia. }
  destruct (N.le_gt_cases (varint_exponent v) e) as [|C]; [assumption|].
  pose proof (varint_exponent_spec v Hv) as (_ & _ & K). specialize (K e C). lia.
Qed.

Lemma pow4_pos e : 0 < 4 ^ e.
Proof. apply N.neq_0_lt_0, N.pow_nonzero. lia. Qed.

Lemma mantissa_small v : v <= 507904 -> v / 4 ^ varint_exponent v <= 31.
Proof.
  intros H. pose proof (varint_exponent_spec v H) as (_ & K & _).
  apply N.div_le_upper_bound; [pose proof (pow4_pos (varint_exponent v)); lia|lia].
Qed.

(** Rounding up stays within five bits. *)
Lemma mantissa_small_up v : v <= 507904 -> 0 < v mod 4 ^ varint_exponent v ->
  v / 4 ^ varint_exponent v + 1 <= 31.
Proof.
  intros H Hr. pose proof (varint_exponent_spec v H) as (_ & K & _).
  pose proof (pow4_pos (varint_exponent v)) as P.
  set (q := 4 ^ varint_exponent v) in *. clearbody q.
  pose proof (N.div_mod' v q). nia.
Qed.

(** What an exactly representable value compresses to. *)
Lemma representable v e m : e < 8 -> m < 32 -> v = 4 ^ e * m ->
  v <= 507904 /\ v mod 4 ^ varint_exponent v = 0.
Proof.
  intros He Hm Hv.
  assert (H31 : v <= 31 * 4 ^ e) by (pose proof (pow4_pos e); nia).
  split.
  - apply lt8_cases in He. destruct He as [->|[->|[->|[->|[->|[->|[->| ->]]]]]]]; cbn in H31; lia.
  - pose proof (varint_exponent_min v e H31 He) as K.
    replace e with (varint_exponent v + (e - varint_exponent v)) in Hv by lia.
    rewrite N.pow_add_r in Hv. rewrite Hv at 1.
    rewrite <- N.mul_assoc, N.mul_comm. apply N.mod_mul.
    pose proof (pow4_pos (varint_exponent v)). lia.
Qed.

Lemma RT_varint v : wf_varint v -> RT (write_varint v) read_varint v.
Proof.
  intros (Hc & e & m & He & Hm & Hv). destruct v as [v c]. cbn [vi_ceil vi_value] in *. subst c.
  destruct (representable v e m He Hm Hv) as (Hmax & Hr).
  unfold write_varint. cbn [vi_ceil vi_value]. rewrite compress_val by assumption.
  cbn [andb]. unfold read_varint.
  pose proof (varint_exponent_spec v Hmax) as (E8 & _ & _).
  pose proof (mantissa_small v Hmax) as M.
  eapply RT_bind with (x := varint_exponent v); [apply RT_uint; exact E8|].
  eapply RT_last with (x := v / 4 ^ varint_exponent v); [apply RT_uint; cbn; lia|].
  rewrite decompress_ok by lia. f_equal. f_equal.
  pose proof (N.div_mod' v (4 ^ varint_exponent v)). lia.
Qed.

Lemma layout_varint v : vi_value v <= 507904 ->
  write_varint v = Ok (bits_of_bytes (enc_varint v)).
Proof.
  intros H. unfold write_varint. rewrite compress_val by assumption.
  unfold enc_varint. cbv zeta. set (e := varint_exponent (vi_value v)).
  assert (B : (0 <? vi_value v mod 4 ^ e) = negb (vi_value v mod 4 ^ e =? 0)).
  { destruct (N.ltb_spec 0 (vi_value v mod 4 ^ e)); destruct (N.eqb_spec (vi_value v mod 4 ^ e) 0);
      cbn; lia. }
  rewrite B. pose proof (mantissa_small (vi_value v) H) as M.
  pose proof (mantissa_small_up (vi_value v) H) as U. fold e in M, U.
  match goal with |- context [write_uint 5 ?x] => set (m := x) end.
  assert (Hm : m < 32).
  { unfold m. destruct (vi_ceil v && negb (vi_value v mod 4 ^ e =? 0)) eqn:D; [|lia].
    apply andb_prop in D as [_ D]. rewrite <- B in D. apply N.ltb_lt in D. specialize (U D). lia. }
  unfold write_uint, wseq, rbind. f_equal.
  pose proof (bits_of_join 3 5 e m Hm) as J. cbn [Nat.add] in J. rewrite <- J.
  rewrite bits_of_bytes_cons. cbn [bits_of_bytes]. rewrite app_nil_r. f_equal.
  change (2 ^ N.of_nat 5) with 32. lia.
Qed.

Lemma wf_varint_max v : wf_varint v -> vi_value v <= 507904.
Proof. intros (_ & e & m & He & Hm & Hv). apply (representable _ e m He Hm Hv). Qed.
