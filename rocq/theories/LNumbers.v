(** Length and VarInt: lemmas behind PNumbers.v. *)
From Coq Require Import List NArith ZArith Bool Lia ZifyBool ZifyNat ZifyN Arith.
From Verif Require Import Base Deku Utils Types LBits LReader LTypes LLayout WellFormed SpecLayout SpecApi LApi.
Import ListNotations.
Open Scope N_scope.

Lemma length_round_trip v : v < 2 ^ 30 -> round_trips (write_length v) read_length v.
Proof. intros H. apply RT_round_trips, RT_length. exact H. Qed.

Lemma length_layout v : v < 2 ^ 30 -> to_bytes (write_length v) = Ok (enc_length v).
Proof. intros H. apply W_to_bytes, W_length. exact H. Qed.

Lemma enc_length_shape v : v < 2 ^ 30 ->
  exists k, k < 4 /\ enc_length v = be_bytes (N.to_nat (1 + k)) (k * 2 ^ (6 + 8 * k) + v) /\
    v < 2 ^ (6 + 8 * k) /\ (forall j, j < k -> 2 ^ (6 + 8 * j) <= v).
Proof.
  intros H. unfold enc_length.
  assert (M : forall j k, j < k -> 2 ^ (6 + 8 * j) <= 2 ^ (8 * k - 2)).
  { intros j k Hj. apply N.pow_le_mono_r; lia. }
  destruct (N.ltb_spec v (2 ^ 6)) as [C|C].
  { exists 0. split; [lia|]. split; [|split; [exact C|lia]].
    change (N.to_nat (1 + 0)) with 1%nat. cbn [be_bytes N.of_nat]. rewrite N.pow_0_r, N.div_1_r.
    rewrite N.mod_small by (change (2 ^ (6 + 8 * 0)) with 64; change (2 ^ 6) with 64 in C; lia).
    reflexivity. }
  destruct (N.ltb_spec v (2 ^ 14)) as [D|D].
  { exists 1. split; [lia|]. split; [reflexivity|]. split; [exact D|].
    intros j Hj. eapply N.le_trans; [apply (M j 1 Hj)|exact C]. }
  destruct (N.ltb_spec v (2 ^ 22)) as [F|F].
  { exists 2. split; [lia|]. split; [reflexivity|]. split; [exact F|].
    intros j Hj. eapply N.le_trans; [apply (M j 2 Hj)|exact D]. }
  exists 3. split; [lia|]. split; [reflexivity|]. split; [exact H|].
  intros j Hj. eapply N.le_trans; [apply (M j 3 Hj)|exact F].
Qed.

Lemma enc_length_size v : length (enc_length v) =
  if v <? 2 ^ 6 then 1%nat else if v <? 2 ^ 14 then 2%nat else if v <? 2 ^ 22 then 3%nat else 4%nat.
Proof.
  unfold enc_length. destruct (v <? 2 ^ 6); [reflexivity|]. destruct (v <? 2 ^ 14); [apply be_bytes_length|].
  destruct (v <? 2 ^ 22); apply be_bytes_length.
Qed.

Lemma length_minimal v d r' : read_length (new_reader d) = Ok (v, r') ->
  v < 2 ^ 30 /\ (length (enc_length v) <= pos r')%nat /\ (pos r' <= length d)%nat.
Proof.
  unfold read_length, bind. intros H.
  destruct (read_uint 2 (new_reader d)) as [[k r1]|e|] eqn:E1; try discriminate.
  apply view_bits_bound in E1 as (L1 & -> & _ & B1); [|apply RWf_new].
  apply view_bits_bound in H as (L2 & -> & _ & B2); [|apply RWf_adv; [apply RWf_new|exact L1]].
  change (2 ^ N.of_nat 2) with 4 in B1. rewrite N2Nat.id in B2.
  rewrite adv_adv by (try apply RWf_new; exact L1).
  pose proof (RWf_new d) as W.
  assert (L : (2 + N.to_nat (6 + k * 8) <= length (view (new_reader d)))%nat).
  { rewrite view_adv, skipn_length in L2 by (assumption || exact L1). lia. }
  replace (2 + N.to_nat (6 + k * 8))%nat with (8 * N.to_nat (1 + k))%nat in * by lia.
  rewrite adv_aligned by (assumption || reflexivity). cbn [pos new_reader].
  rewrite view_length in L by assumption. cbn [new_reader left length data pos] in L.
  rewrite enc_length_size. cbn [data].
  assert (k = 0 \/ k = 1 \/ k = 2 \/ k = 3) as [->|[->|[->| ->]]] by lia.
  - change (2 ^ (6 + 0 * 8)) with (2 ^ 6) in B2. rewrite (proj2 (N.ltb_lt v (2 ^ 6)) B2).
    change (2 ^ 6) with 64 in B2. change (2 ^ 30) with 1073741824. lia.
  - change (2 ^ (6 + 1 * 8)) with (2 ^ 14) in B2. rewrite (proj2 (N.ltb_lt v (2 ^ 14)) B2).
    change (2 ^ 14) with 16384 in B2. change (2 ^ 30) with 1073741824. destruct (v <? 2 ^ 6); lia.
  - change (2 ^ (6 + 2 * 8)) with (2 ^ 22) in B2. rewrite (proj2 (N.ltb_lt v (2 ^ 22)) B2).
    change (2 ^ 22) with 4194304 in B2. change (2 ^ 30) with 1073741824.
    destruct (v <? 2 ^ 6); [lia|]. destruct (v <? 2 ^ 14); lia.
  - change (2 ^ (6 + 3 * 8)) with (2 ^ 30) in B2.
    split; [exact B2|]. destruct (v <? 2 ^ 6); [lia|]. destruct (v <? 2 ^ 14); [lia|].
    destruct (v <? 2 ^ 22); lia.
Qed.

(** ** VarInt *)
Lemma compress_spec v c : v <= 507904 ->
  exists e m, compress v c = inl (e, m) /\ e < 8 /\ m < 32 /\
    (c = false -> 4 ^ e * m <= v) /\ (c = true -> v <= 4 ^ e * m) /\
    (v < 4 ^ e * m + 4 ^ e /\ 4 ^ e * m < v + 4 ^ e) /\
    ((exists e' m', e' < 8 /\ m' < 32 /\ v = 4 ^ e' * m') -> 4 ^ e * m = v) /\
    (forall e', e' < e -> 31 * 4 ^ e' < v).
Proof.
  intros H. rewrite compress_val by assumption.
  pose proof (varint_exponent_spec v H) as (E8 & _ & Emin).
  pose proof (mantissa_small v H) as M1. pose proof (mantissa_small_up v H) as M2.
  assert (R : forall e m, e < 8 -> m < 32 -> v = 4 ^ e * m -> v mod 4 ^ varint_exponent v = 0)
    by (intros e m He Hm Hv; apply (representable v e m He Hm Hv)).
  set (e := varint_exponent v) in *. pose proof (pow4_pos e) as P.
  pose proof (N.div_mod' v (4 ^ e)) as D. pose proof (N.mod_lt v (4 ^ e)) as L.
  specialize (L ltac:(lia)). exists e. eexists. split; [reflexivity|]. split; [exact E8|].
  cbv zeta. set (q := v / 4 ^ e) in *. set (s := v mod 4 ^ e) in *. set (b := 4 ^ e) in *.
  destruct (N.ltb_spec 0 s) as [S|S].
  - rewrite andb_true_r. specialize (M2 S). destruct c.
    + repeat split; try lia; try discriminate; try exact Emin.
      intros (e' & m' & A & B & C). specialize (R e' m' A B C). lia.
    + repeat split; try lia; try discriminate; try exact Emin.
      intros (e' & m' & A & B & C). specialize (R e' m' A B C). lia.
  - rewrite andb_false_r. assert (s = 0) by lia. repeat split; try lia; try exact Emin.
Qed.

Lemma compress_too_large v c : 507904 < v -> compress v c = inr (ValueTooLarge v).
Proof.
  intros H. unfold compress, varint_is_valid, varint_max. destruct (N.leb_spec v 507904); [lia|reflexivity].
Qed.

(** The exponent and mantissa of a byte. *)
Lemma varint_byte b : b < 256 -> parses read_varint (bits_of 8 b) (mkVarInt (4 ^ (b / 32) * (b mod 32)) false).
Proof.
  intros Hb r rest Hr Hv.
  change 8%nat with (3 + 5)%nat in Hv. rewrite bits_of_app, <- app_assoc in Hv.
  destruct (read_uint_view 3 r _ _ Hr Hv (bits_of_length _ _)) as (E1 & V1 & W1).
  destruct (read_uint_view 5 _ _ _ W1 V1 (bits_of_length _ _)) as (E2 & V2 & W2).
  exists (adv (adv r 3) 5). unfold read_varint, bind. rewrite E1, E2.
  rewrite !N_of_bits_bits_of. change (2 ^ N.of_nat 5) with 32. change (2 ^ N.of_nat 3) with 8.
  assert (b / 32 < 8) by (apply N.div_lt_upper_bound; lia).
  rewrite (N.mod_small (b / 32) 8) by assumption.
  assert (b mod 32 < 32) by (apply N.mod_lt; lia).
  rewrite decompress_ok by assumption.
  split; [reflexivity|]. split; [exact W2|]. split; [exact V2|reflexivity].
Qed.

Lemma byte_value_wf b : b < 256 -> wf_varint (mkVarInt (4 ^ (b / 32) * (b mod 32)) false).
Proof.
  intros Hb. split; [reflexivity|]. exists (b / 32), (b mod 32).
  split; [apply N.div_lt_upper_bound; lia|]. split; [apply N.mod_lt; lia|]. reflexivity.
Qed.

Lemma varint_reencode b : b < 256 ->
  exists b', to_bytes (write_varint (mkVarInt (4 ^ (b / 32) * (b mod 32)) false)) = Ok [b'] /\ b' < 256 /\
    4 ^ (b' / 32) * (b' mod 32) = 4 ^ (b / 32) * (b mod 32).
Proof.
  intros Hb. pose proof (byte_value_wf b Hb) as Hw. set (v := mkVarInt _ _) in *.
  destruct (W_varint v Hw) as (Hx & Hbs). unfold enc_varint in *. cbv zeta in *.
  match type of Hbs with bytes [?x] => set (b' := x) in * end. exists b'.
  assert (Hb' : b' < 256) by (apply Forall_inv in Hbs; exact Hbs).
  split; [unfold to_bytes, rbind; rewrite Hx, bytes_of_bits_of_bytes by exact Hbs; reflexivity|].
  split; [exact Hb'|].
  destruct (RT_round_trips _ _ _ (RT_varint v Hw)) as (bs & Hw1 & P).
  rewrite Hx in Hw1. injection Hw1 as <-.
  destruct (P (new_reader [b']) [] (RWf_new _)) as (r1 & E1 & _).
  { rewrite app_nil_r. reflexivity. }
  destruct (varint_byte b' Hb' (new_reader [b']) [] (RWf_new _)) as (r2 & E2 & _); [reflexivity|].
  rewrite E1 in E2. unfold v in E2. congruence.
Qed.

Lemma varint_byte_max b : b < 256 -> 4 ^ (b / 32) * (b mod 32) <= 507904.
Proof. intros H. apply (wf_varint_max _ (byte_value_wf b H)). Qed.

Lemma decompress_spec e m : e < 256 -> m < 256 ->
  decompress e m = if e <? 8 then if m <? 32 then inl (4 ^ e * m) else inr (ExponentTooLarge m)
                   else inr (ExponentTooLarge e).
Proof.
  intros He Hm. unfold decompress. rewrite land_248, land_224 by assumption.
  destruct (e <? 8), (m <? 32); reflexivity.
Qed.

(** ** In the words of PNumbers.v *)
Lemma length_too_large v : 2 ^ 30 <= v < 2 ^ 32 -> write_length v = Err EInvalidParam.
Proof. intros [A B]. apply write_length_err; assumption. Qed.

Lemma length_bytes v : v < 2 ^ 30 ->
  exists k, k < 4 /\ v < 2 ^ (6 + 8 * k) /\ (forall j, j < k -> 2 ^ (6 + 8 * j) <= v) /\
    to_bytes (write_length v) = Ok (be_bytes (N.to_nat (1 + k)) (k * 2 ^ (6 + 8 * k) + v)).
Proof.
  intros H. destruct (enc_length_shape v H) as (k & K & S & U & M). exists k.
  rewrite <- S. repeat split; try assumption. apply length_layout. exact H.
Qed.

Lemma length_shortest v l d r' : v < 2 ^ 30 -> to_bytes (write_length v) = Ok l ->
  read_length (new_reader d) = Ok (v, r') -> (length l <= pos r' <= length d)%nat.
Proof.
  intros H Hl Hr. rewrite length_layout in Hl by exact H. injection Hl as <-.
  apply length_minimal in Hr. lia.
Qed.

Lemma compress_in_range v ceil : v <= 507904 ->
  exists e m, compress v ceil = inl (e, m) /\ e <= 7 /\ m <= 31 /\
    (ceil = false -> 4 ^ e * m <= v) /\ (ceil = true -> v <= 4 ^ e * m) /\
    (v < 4 ^ e * m + 4 ^ e /\ 4 ^ e * m < v + 4 ^ e) /\
    ((exists e' m', e' <= 7 /\ m' <= 31 /\ v = 4 ^ e' * m') -> 4 ^ e * m = v) /\
    (forall e', e' < e -> 4 ^ e' * 31 < v).
Proof.
  intros H. destruct (compress_spec v ceil H) as (e & m & C & E8 & M & A1 & A2 & A3 & A4 & A5).
  exists e, m. split; [exact C|]. split; [lia|]. split; [lia|]. split; [exact A1|]. split; [exact A2|].
  split; [exact A3|]. split.
  - intros (e' & m' & B1 & B2 & B3). apply A4. exists e', m'. repeat split; lia.
  - intros e' He. specialize (A5 e' He). lia.
Qed.
Lemma compress_not_unknown v ceil : compress v ceil <> inr UnknownError.
Proof.
  destruct (N.le_gt_cases v 507904) as [H|H].
  - destruct (compress_spec v ceil H) as (e & m & -> & _). discriminate.
  - rewrite compress_too_large by exact H. discriminate.
Qed.

Lemma varint_every_byte b : b < 256 ->
  parses read_varint (bits_of 8 b) (mkVarInt (4 ^ (b / 32) * (b mod 32)) false) /\
  4 ^ (b / 32) * (b mod 32) <= varint_max.
Proof. intros H. split; [apply varint_byte|apply varint_byte_max]; exact H. Qed.

Lemma varint_reencode_any r v r' : reader_state r -> read_varint r = Ok (v, r') ->
  exists b, to_bytes (write_varint v) = Ok [b] /\ b < 256 /\ parses read_varint (bits_of 8 b) v.
Proof.
  intros Hr H. assert (L : (8 <= length (view r))%nat).
  { unfold read_varint, bind in H.
    destruct (read_uint 3 r) as [[e r1]|x|] eqn:E1; try discriminate.
    destruct (read_uint 5 r1) as [[m r2]|x|] eqn:E2; try discriminate.
    apply view_bits_bound in E1 as (L1 & -> & _); [|exact Hr].
    apply view_bits_bound in E2 as (L2 & _); [|apply RWf_adv; [exact Hr|exact L1]].
    rewrite view_adv, skipn_length in L2 by (exact Hr || exact L1). lia. }
  set (b := N_of_bits (firstn 8 (view r))).
  assert (Hl : length (firstn 8 (view r)) = 8%nat) by (apply firstn_length_le; exact L).
  assert (Hb : b < 256) by (unfold b; pose proof (N_of_bits_lt (firstn 8 (view r))) as B; rewrite Hl in B; exact B).
  destruct (varint_byte b Hb r (skipn 8 (view r)) Hr) as (r2 & E2 & _).
  { unfold b. rewrite <- Hl at 1. rewrite bits_of_N_of_bits. symmetry. apply firstn_skipn. }
  rewrite H in E2. injection E2 as -> _.
  destruct (varint_reencode b Hb) as (b' & W1 & B1 & V1). exists b'. split; [exact W1|]. split; [exact B1|].
  rewrite <- V1. apply varint_byte. exact B1.
Qed.

Lemma decompress_exact e m : e < 256 -> m < 256 ->
  ((exists v, decompress e m = inl v) <-> e < 8 /\ m < 32) /\
  (e < 8 -> m < 32 -> decompress e m = inl (4 ^ e * m)) /\
  (8 <= e -> decompress e m = inr (ExponentTooLarge e)) /\
  (e < 8 -> 32 <= m -> decompress e m = inr (ExponentTooLarge m)).
Proof.
  intros He Hm. rewrite decompress_spec by assumption.
  destruct (N.ltb_spec e 8) as [C|C]; [destruct (N.ltb_spec m 32) as [D|D]|]; repeat split; intros; try lia;
    try reflexivity; try (eexists; reflexivity);
    match goal with H : exists _, _ = inl _ |- _ => destruct H; discriminate end.
Qed.
Lemma decompress_refuted :
  ~ (forall e m, e < 256 -> m < 256 ->
     ((exists v, decompress e m = inl v) <-> e < 8 /\ m < 32) /\
     (8 <= e -> decompress e m = inr (ExponentTooLarge e)) /\
     (e < 8 -> 32 <= m -> decompress e m = inr (MantissaTooLarge m))).
Proof.
  intros H. destruct (H 0 32 eq_refl eq_refl) as (_ & _ & C).
  specialize (C eq_refl ltac:(discriminate)). discriminate.
Qed.
