(** Encoded numbers sort like the numbers. *)
From Coq Require Import List NArith Bool Lia.
From Verif Require Import Base Deku Types SpecLayout SpecApi LBits LTypes LNumbers SpecRounding SpecOrder LRounding.
Import ListNotations.
Open Scope N_scope.

Lemma before_irrefl a : ~ before a a.
Proof. induction a as [|x a IH]; intros H; inversion H; subst; [lia|auto]. Qed.

Lemma before_asym a b : before a b -> before b a -> False.
Proof. intros H. induction H; intros K; inversion K; subst; first [lia|auto]. Qed.

Lemma be_bytes_mod n x : forall k, (n <= k)%nat -> be_bytes n (x mod 256 ^ N.of_nat k) = be_bytes n x.
Proof.
  induction n as [|n IH]; intros k H; cbn [be_bytes]; [reflexivity|]. f_equal; [|apply IH; lia].
  assert (P : 256 ^ N.of_nat n <> 0) by (apply N.pow_nonzero; lia).
  replace (256 ^ N.of_nat k) with (256 ^ N.of_nat n * (256 * 256 ^ N.of_nat (k - S n))).
  2:{ rewrite <- N.pow_succ_r', <- N.pow_add_r. f_equal. lia. }
  assert (Q : 256 ^ N.of_nat (k - S n) <> 0) by (apply N.pow_nonzero; lia).
  rewrite N.mod_mul_r by lia.
  rewrite N.mul_comm, N.div_add by exact P.
  rewrite (N.div_small (x mod _)) by (apply N.mod_lt; exact P). rewrite N.add_0_l.
  rewrite N.mod_mul_r by lia. rewrite N.mul_comm, N.mod_add by lia. apply N.mod_mod. lia.
Qed.

Lemma be_before n : forall x y s t, x < y -> y < 256 ^ N.of_nat n -> before (be_bytes n x ++ s) (be_bytes n y ++ t).
Proof.
  induction n as [|n IH]; intros x y s t H K; [cbn in K; lia|]. cbn [be_bytes app].
  set (p := 256 ^ N.of_nat n) in *. assert (P : p <> 0) by (apply N.pow_nonzero; lia).
  assert (E : 256 ^ N.of_nat (S n) = p * 256) by (rewrite Nnat.Nat2N.inj_succ, N.pow_succ_r'; unfold p; lia).
  rewrite E in K.
  assert (A : y / p < 256) by (apply N.div_lt_upper_bound; lia).
  assert (B : x / p <= y / p) by (apply N.div_le_mono; lia).
  rewrite (N.mod_small (x / p)), (N.mod_small (y / p)) by lia.
  destruct (N.lt_ge_cases (x / p) (y / p)) as [L|L]; [apply before_less; exact L|].
  assert (F : x / p = y / p) by lia. rewrite F. apply before_same.
  rewrite <- (be_bytes_mod n x n), <- (be_bytes_mod n y n) by lia. fold p.
  pose proof (N.div_mod' x p). pose proof (N.div_mod' y p). apply IH; [nia|apply N.mod_lt; exact P].
Qed.

Lemma length_before v w a b s t : v < w -> w < 2 ^ 30 ->
  to_bytes (write_length v) = Ok a -> to_bytes (write_length w) = Ok b -> before (a ++ s) (b ++ t).
Proof.
  intros H K A B. destruct (length_bytes v) as (j & J & J1 & J2 & J3); [lia|].
  destruct (length_bytes w K) as (k & KK & K1 & K2 & K3).
  rewrite J3 in A. rewrite K3 in B. injection A as <-. injection B as <-.
  assert (L : j <= k).
  { destruct (N.le_gt_cases j k) as [L|L]; [exact L|]. specialize (J2 k L). lia. }
  assert (T : forall i, 2 ^ (6 + 8 * i) = 64 * 256 ^ i).
  { intros i. rewrite N.pow_add_r, N.pow_mul_r. reflexivity. }
  rewrite !T in *. destruct (N.eq_dec j k) as [->|D].
  - apply be_before; [lia|]. replace (N.of_nat (N.to_nat (1 + k))) with (N.succ k) by lia.
    rewrite N.pow_succ_r'. nia.
  - replace (N.to_nat (1 + j)) with (S (N.to_nat j)) by lia. replace (N.to_nat (1 + k)) with (S (N.to_nat k)) by lia.
    cbn [be_bytes app]. apply before_less. rewrite !Nnat.N2Nat.id.
    assert (P : forall i, 256 ^ i <> 0) by (intros i; apply N.pow_nonzero; lia).
    pose proof (P j). pose proof (P k).
    replace (j * (64 * 256 ^ j) + v) with (v + (j * 64) * 256 ^ j) by lia.
    replace (k * (64 * 256 ^ k) + w) with (w + (k * 64) * 256 ^ k) by lia.
    rewrite !N.div_add by apply P.
    assert (v / 256 ^ j < 64) by (apply N.div_lt_upper_bound; lia).
    assert (w / 256 ^ k < 64) by (apply N.div_lt_upper_bound; lia).
    rewrite !N.mod_small by lia. clear - H2 H3 L D. revert H2 H3. generalize (v / 256 ^ j) (w / 256 ^ k). lia.
Qed.

Lemma length_order v w a b : v < 2 ^ 30 -> w < 2 ^ 30 ->
  to_bytes (write_length v) = Ok a -> to_bytes (write_length w) = Ok b -> (v < w <-> before a b).
Proof.
  intros V W A B. split; intros H.
  - rewrite <- (app_nil_r a), <- (app_nil_r b). apply (length_before v w); assumption.
  - destruct (N.lt_trichotomy v w) as [L|[L|L]]; [exact L| |].
    + subst w. rewrite A in B. injection B as <-. destruct (before_irrefl a H).
    + destruct (before_asym a b H). rewrite <- (app_nil_r a), <- (app_nil_r b). apply (length_before w v); assumption.
Qed.

Lemma offset_bytes i v a : i < 256 -> v < 2 ^ 30 -> to_bytes (write_file_offset (mkFileOffset i v)) = Ok a ->
  exists l, to_bytes (write_length v) = Ok l /\ a = i :: l.
Proof.
  intros I V A. exists (enc_length v). split; [apply length_layout; exact V|].
  destruct (LLayout.W_file_offset (mkFileOffset i v)) as (E & B).
  { split; [exact I|exact V]. }
  unfold to_bytes in A. rewrite E in A. cbn [rbind] in A.
  rewrite bytes_of_bits_of_bytes in A by exact B. unfold enc_file_offset in A. cbn [fo_file_id fo_offset] in A. congruence.
Qed.

Lemma offset_order i v j w a b : i < 256 -> j < 256 -> v < 2 ^ 30 -> w < 2 ^ 30 ->
  to_bytes (write_file_offset (mkFileOffset i v)) = Ok a -> to_bytes (write_file_offset (mkFileOffset j w)) = Ok b ->
  (before a b <-> i < j \/ i = j /\ v < w).
Proof.
  intros I J V W A B. destruct (offset_bytes i v a I V A) as (l & L & ->).
  destruct (offset_bytes j w b J W B) as (m & M & ->). split.
  - intros H. inversion H; subst; [left; assumption|right]. split; [reflexivity|]. apply (length_order v w l m); assumption.
  - intros [H|(-> & H)]; [apply before_less; exact H|apply before_same]. apply (length_order v w l m); assumption.
Qed.

Lemma varint_wrote v up a : to_bytes (write_varint (mkVarInt v up)) = Ok [a] ->
  v <= 507904 /\ enc_varint (mkVarInt v up) = [a].
Proof.
  intros A. destruct (N.le_gt_cases v 507904) as [H|H].
  - split; [exact H|]. unfold to_bytes in A. rewrite (layout_varint (mkVarInt v up) H) in A. cbn [rbind] in A.
    rewrite bytes_of_bits_of_bytes in A; [congruence|].
    pose proof (mantissa_small v H). pose proof (mantissa_small_up v H). pose proof (varint_exponent_spec v H) as (E & _).
    unfold enc_varint. cbv zeta. cbn [vi_value vi_ceil]. constructor; [|constructor]. unfold byte.
    destruct (up && negb (v mod 4 ^ varint_exponent v =? 0)) eqn:D; [|lia].
    apply andb_prop in D as (_ & D). apply negb_true_iff, N.eqb_neq in D. lia.
  - unfold to_bytes, write_varint in A. cbn [vi_value vi_ceil] in A. rewrite compress_too_large in A by exact H. discriminate.
Qed.

Lemma exponent_mono v w : v <= w -> w <= 507904 -> varint_exponent v <= varint_exponent w.
Proof.
  intros H W. pose proof (varint_exponent_spec v ltac:(lia)) as (_ & _ & V2).
  pose proof (varint_exponent_spec w W) as (_ & W1 & _).
  destruct (N.le_gt_cases (varint_exponent v) (varint_exponent w)) as [L|L]; [exact L|]. specialize (V2 _ L). lia.
Qed.

Lemma varint_order v w up up' a b : v <= w -> (up = true -> up' = true) ->
  to_bytes (write_varint (mkVarInt v up)) = Ok [a] -> to_bytes (write_varint (mkVarInt w up')) = Ok [b] -> a <= b.
Proof.
  intros H U A B. apply varint_wrote in A as (V & A). apply varint_wrote in B as (W & B).
  unfold enc_varint in A, B. cbv zeta in A, B. cbn [vi_value vi_ceil] in A, B.
  pose proof (varint_exponent_spec v V) as (_ & V1 & V2). pose proof (varint_exponent_spec w W) as (_ & W1 & _).
  pose proof (mantissa_small v V) as M1. pose proof (mantissa_small_up v V) as M2.
  assert (E : varint_exponent v <= varint_exponent w).
  { destruct (N.le_gt_cases (varint_exponent v) (varint_exponent w)) as [L|L]; [exact L|].
    specialize (V2 _ L). lia. }
  set (e := varint_exponent v) in *. set (f := varint_exponent w) in *.
  assert (A' : a = 32 * e + (if up && negb (v mod 4 ^ e =? 0) then v / 4 ^ e + 1 else v / 4 ^ e)) by congruence.
  assert (B' : b = 32 * f + (if up' && negb (w mod 4 ^ f =? 0) then w / 4 ^ f + 1 else w / 4 ^ f)) by congruence.
  clear A B. subst a b. destruct (N.eq_dec e f) as [D|D].
  - rewrite <- D. pose proof (pow4_pos e) as P. set (p := 4 ^ e) in *. clearbody p.
    pose proof (N.div_mod' v p). pose proof (N.div_mod' w p).
    pose proof (N.mod_lt v p ltac:(lia)). pose proof (N.mod_lt w p ltac:(lia)).
    assert (v / p <= w / p) by (apply N.div_le_mono; lia).
    destruct up; cbn [andb]; [rewrite U by reflexivity; cbn [andb]|].
    + destruct (N.eqb_spec (v mod p) 0), (N.eqb_spec (w mod p) 0); cbn [negb]; try lia.
      assert (v / p < w / p) by nia. lia.
    + destruct (up' && negb (w mod p =? 0)); lia.
  - assert (e < f) by lia.
    assert ((if up && negb (v mod 4 ^ e =? 0) then v / 4 ^ e + 1 else v / 4 ^ e) <= 31).
    { destruct (up && negb (v mod 4 ^ e =? 0)) eqn:K; [|exact M1].
      apply andb_prop in K as (_ & K). apply negb_true_iff, N.eqb_neq in K. lia. }
    lia.
Qed.

(** Sendable numbers get different bytes. *)
Lemma varint_order_exact v w up up' a b : exact_value v -> exact_value w ->
  to_bytes (write_varint (mkVarInt v up)) = Ok [a] -> to_bytes (write_varint (mkVarInt w up')) = Ok [b] ->
  (v < w <-> a < b).
Proof.
  intros V W A B.
  assert (K : forall x u c, exact_value x -> to_bytes (write_varint (mkVarInt x u)) = Ok [c] ->
    c = 32 * varint_exponent x + x / 4 ^ varint_exponent x /\ x = 4 ^ varint_exponent x * (x / 4 ^ varint_exponent x)
    /\ x / 4 ^ varint_exponent x <= 31 /\ to_bytes (write_varint (mkVarInt x false)) = Ok [c]).
  { clear. intros x u c (e & m & E & M & X) C. apply varint_wrote in C as C'. destruct C' as (L & C').
    destruct (representable x e m) as (_ & R); [lia|lia|exact X|]. unfold enc_varint in C'. cbv zeta in C'.
    cbn [vi_value vi_ceil] in C'. rewrite R, andb_false_r in C'.
    pose proof (N.div_mod' x (4 ^ varint_exponent x)). split; [congruence|]. split; [lia|]. split; [apply mantissa_small; exact L|].
    rewrite <- C. unfold write_varint. cbn [vi_value vi_ceil]. rewrite !compress_val by exact L. cbv zeta. rewrite R.
    change (0 <? 0) with false. rewrite !andb_false_r. reflexivity. }
  destruct (K v up a V A) as (A1 & A2 & A3 & A4). destruct (K w up' b W B) as (B1 & B2 & B3 & B4). split; intros H.
  - assert (a <= b) by (apply (varint_order v w false false); [lia|discriminate|assumption|assumption]).
    destruct (N.eq_dec a b) as [D|D]; [|lia]. exfalso.
    assert (E : varint_exponent v = varint_exponent w /\ v / 4 ^ varint_exponent v = w / 4 ^ varint_exponent w).
    { clear - A1 B1 A3 B3 D. revert A1 B1 A3 B3. generalize (v / 4 ^ varint_exponent v) (w / 4 ^ varint_exponent w).
      intros. lia. }
    destruct E as (E1 & E2).
    rewrite <- E2, <- E1 in B2. rewrite <- A2 in B2. lia.
  - destruct (N.lt_ge_cases v w) as [L|L]; [exact L|].
    assert (b <= a) by (apply (varint_order w v false false); [lia|discriminate|assumption|assumption]). lia.
Qed.

(** Read from any byte, the numbers need not sort like the bytes. *)
Lemma bytes_refuted : ~ (forall a b r s, d_try_from read_varint [a] = Ok (mkVarInt r false) ->
  d_try_from read_varint [b] = Ok (mkVarInt s false) -> a <= b -> r <= s).
Proof. intros H. specialize (H 31 32 31 0 eq_refl eq_refl). lia. Qed.

Lemma varint_mixed_refuted : ~ (forall v w up up' a b, v <= w ->
  to_bytes (write_varint (mkVarInt v up)) = Ok [a] -> to_bytes (write_varint (mkVarInt w up')) = Ok [b] -> a <= b).
Proof. intros H. specialize (H 33 34 true false 41 40 ltac:(lia) eq_refl eq_refl). lia. Qed.

(** Exactly if there is no sendable number between them. *)
Lemma varint_mixed v w a b : v <= w ->
  to_bytes (write_varint (mkVarInt v true)) = Ok [a] -> to_bytes (write_varint (mkVarInt w false)) = Ok [b] ->
  (b < a <-> ~ exists x, exact_value x /\ v <= x <= w).
Proof.
  intros H A B. split.
  - intros L (x & X & V & W).
    destruct (varint_wrote _ _ _ B) as (B1 & _).
    assert (C : exists c, to_bytes (write_varint (mkVarInt x true)) = Ok [c] /\ to_bytes (write_varint (mkVarInt x false)) = Ok [c]).
    { destruct X as (e & m & E & M & X). destruct (representable x e m) as (_ & R); [lia|lia|exact X|].
      assert (G : forall u, write_varint (mkVarInt x u) =
        write_uint 3 (varint_exponent x) +++ write_uint 5 (x / 4 ^ varint_exponent x)).
      { intros u. unfold write_varint. cbn [vi_value vi_ceil]. rewrite compress_val by lia. cbv zeta. rewrite R.
        change (0 <? 0) with false. rewrite andb_false_r. reflexivity. }
      destruct (one_arrives x false ltac:(lia)) as (r & (c & C & _) & _). exists c.
      split; [|exact C]. rewrite <- C, !G. reflexivity. }
    destruct C as (c & C1 & C2).
    assert (a <= c) by (apply (varint_order v x true true); [lia|reflexivity|assumption|assumption]).
    assert (c <= b) by (apply (varint_order x w false false); [lia|discriminate|assumption|assumption]). lia.
  - intros K. apply varint_wrote in A as (V & A). apply varint_wrote in B as (W & B).
    unfold enc_varint in A, B. cbv zeta in A, B. cbn [vi_value vi_ceil andb] in A, B.
    pose proof (exponent_mono v w H W) as E. pose proof (varint_exponent_spec v V) as (V0 & V1 & _).
    pose proof (varint_exponent_spec w W) as (W0 & W1 & W2).
    pose proof (mantissa_small w W) as M.
    set (e := varint_exponent v) in *. set (f := varint_exponent w) in *.
    assert (D : e = f).
    { destruct (N.eq_dec e f) as [D|D]; [exact D|]. destruct K. exists (4 ^ e * 31).
      specialize (W2 e ltac:(lia)). split; [exists e, 31; repeat split; lia|lia]. }
    rewrite <- D in *. pose proof (pow4_pos e) as P.
    assert (A' : a = 32 * e + (if negb (v mod 4 ^ e =? 0) then v / 4 ^ e + 1 else v / 4 ^ e)) by congruence.
    assert (B' : b = 32 * e + w / 4 ^ e) by congruence. clear A B.
    pose proof (N.div_mod' v (4 ^ e)). pose proof (N.div_mod' w (4 ^ e)).
    pose proof (N.mod_lt v (4 ^ e) ltac:(lia)). pose proof (N.mod_lt w (4 ^ e) ltac:(lia)).
    assert (v / 4 ^ e <= w / 4 ^ e) by (apply N.div_le_mono; lia).
    assert (Q : ~ v <= 4 ^ e * (w / 4 ^ e)).
    { intros Q. apply K. exists (4 ^ e * (w / 4 ^ e)). split; [exists e, (w / 4 ^ e); repeat split; lia|lia]. }
    destruct (N.eqb_spec (v mod 4 ^ e) 0); cbn [negb] in A'; [|nia].
    exfalso. apply Q. nia.
Qed.
