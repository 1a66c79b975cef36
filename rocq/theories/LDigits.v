(** How long printed numbers and strings are. *)
From Coq Require Import List NArith ZArith Bool Lia String Ascii Decimal Hexadecimal DecimalFacts DecimalPos DecimalN DecimalString
  HexadecimalFacts HexadecimalPos HexadecimalN HexadecimalString.
From Verif Require Import Base Deku Utils Types Physical Link Network Session Data Query
  Interface File Operation Action Command Frames Display Cli Debug.
Import ListNotations.
Open Scope string_scope.
Open Scope nat_scope.

Lemma str_app a b : String.length (a ++ b)%string = String.length a + String.length b.
Proof. induction a as [|c a IH]; cbn [append String.length]; [reflexivity|]. rewrite IH. reflexivity. Qed.

(** ** Decimal *)
Definition digit (n : N) (d : Decimal.uint) : Decimal.uint :=
  match n with
  | 0%N => Decimal.D0 d | 1%N => Decimal.D1 d | 2%N => Decimal.D2 d | 3%N => Decimal.D3 d | 4%N => Decimal.D4 d
  | 5%N => Decimal.D5 d | 6%N => Decimal.D6 d | 7%N => Decimal.D7 d | 8%N => Decimal.D8 d | _ => Decimal.D9 d
  end.
Fixpoint digits (k : nat) (n : N) : Decimal.uint :=
  match k with O => Decimal.Nil | S j => digit (n mod 10) (digits j (n / 10)) end.
Lemma digits_value k : forall n, (n < 10 ^ N.of_nat k)%N -> DecimalPos.Unsigned.of_lu (digits k n) = n.
Proof.
  induction k as [|k IH]; intros n H; [cbn in *; lia|]. cbn [digits].
  assert (H1 : (n / 10 < 10 ^ N.of_nat k)%N).
  { apply N.div_lt_upper_bound; [lia|]. rewrite Nat2N.inj_succ, N.pow_succ_r' in H. exact H. }
  specialize (IH _ H1). pose proof (N.div_mod n 10) as D. pose proof (N.mod_lt n 10) as M.
  set (q := (n / 10)%N) in *. set (r := (n mod 10)%N) in *.
  assert (r < 10)%N as R by (apply M; lia). clear M.
  assert (C : (r = 0 \/ r = 1 \/ r = 2 \/ r = 3 \/ r = 4 \/ r = 5 \/ r = 6 \/ r = 7 \/ r = 8 \/ r = 9)%N) by lia.
  repeat (destruct C as [C|C]); rewrite C in *; cbn [digit DecimalPos.Unsigned.of_lu]; rewrite IH; lia.
Qed.
Lemma digits_count k : forall n, Decimal.nb_digits (digits k n) = k.
Proof.
  induction k as [|k IH]; intros n; [reflexivity|]. cbn [digits]. unfold digit. specialize (IH (n / 10)%N).
  destruct (n mod 10)%N as [|p]; [cbn; rewrite IH; reflexivity|].
  do 4 (try (destruct p as [p|p|])); cbn [Decimal.nb_digits]; rewrite IH; reflexivity.
Qed.
Lemma dec_text d : String.length (DecimalString.NilEmpty.string_of_uint d) = Decimal.nb_digits d.
Proof. induction d; cbn; try rewrite IHd; reflexivity. Qed.
Lemma to_uint_count n k : (n < 10 ^ N.of_nat (S k))%N -> Decimal.nb_digits (N.to_uint n) <= S k.
Proof.
  intros H. pose proof (digits_value _ _ H) as V. rewrite <- DecimalPos.Unsigned.of_lu_rev in V.
  assert (E : N.to_uint n = Decimal.unorm (Decimal.rev (digits (S k) n))) by (rewrite <- V at 1; apply DecimalPos.Unsigned.to_of).
  rewrite E. rewrite <- (digits_count (S k) n) at 2. rewrite <- (DecimalFacts.nb_digits_rev (digits (S k) n)).
  apply DecimalFacts.nb_digits_unorm. apply DecimalFacts.nb_digits_n0. rewrite DecimalFacts.nb_digits_rev, digits_count. discriminate.
Qed.
Lemma show_N_length n k : (n < 10 ^ N.of_nat (S k))%N -> String.length (show_N n) <= S k.
Proof.
  intros H. apply to_uint_count in H. unfold show_N, DecimalString.NilZero.string_of_uint.
  destruct (N.to_uint n) eqn:Q; [cbn; lia| | | | | | | | | |]; rewrite dec_text; exact H.
Qed.
Lemma show_Z_N n : show_Z (Z.of_N n) = show_N n.
Proof. destruct n; reflexivity. Qed.
Lemma show_i8 z : (-128 <= z < 128)%Z -> String.length (show_Z z) <= 4.
Proof.
  intros H. destruct z as [|p|p]; [cbn; lia| |].
  - change (Zpos p) with (Z.of_N (Npos p)). rewrite show_Z_N. pose proof (show_N_length (Npos p) 2). cbn in *. lia.
  - unfold show_Z. cbn [Z.to_int]. pose proof (show_N_length (Npos p) 2) as P. unfold show_N in P. cbn [N.to_uint] in P.
    unfold DecimalString.NilZero.string_of_int. cbn [String.length].
    assert (N.pos p < 10 ^ N.of_nat 3)%N as Q by (cbn; lia). specialize (P Q). lia.
Qed.

(** ** Hexadecimal *)
Definition hdigit (n : N) (d : Hexadecimal.uint) : Hexadecimal.uint :=
  match n with
  | 0%N => Hexadecimal.D0 d | 1%N => Hexadecimal.D1 d | 2%N => Hexadecimal.D2 d | 3%N => Hexadecimal.D3 d | 4%N => Hexadecimal.D4 d
  | 5%N => Hexadecimal.D5 d | 6%N => Hexadecimal.D6 d | 7%N => Hexadecimal.D7 d | 8%N => Hexadecimal.D8 d | 9%N => Hexadecimal.D9 d
  | 10%N => Hexadecimal.Da d | 11%N => Hexadecimal.Db d | 12%N => Hexadecimal.Dc d | 13%N => Hexadecimal.Dd d | 14%N => Hexadecimal.De d
  | _ => Hexadecimal.Df d
  end.
Fixpoint hdigits (k : nat) (n : N) : Hexadecimal.uint :=
  match k with O => Hexadecimal.Nil | S j => hdigit (n mod 16) (hdigits j (n / 16)) end.
Lemma hdigits_value k : forall n, (n < 16 ^ N.of_nat k)%N -> HexadecimalPos.Unsigned.of_lu (hdigits k n) = n.
Proof.
  induction k as [|k IH]; intros n H; [cbn in *; lia|]. cbn [hdigits].
  assert (H1 : (n / 16 < 16 ^ N.of_nat k)%N).
  { apply N.div_lt_upper_bound; [lia|]. rewrite Nat2N.inj_succ, N.pow_succ_r' in H. exact H. }
  specialize (IH _ H1). pose proof (N.div_mod n 16) as D. pose proof (N.mod_lt n 16) as M.
  set (q := (n / 16)%N) in *. set (r := (n mod 16)%N) in *.
  assert (r < 16)%N as R by (apply M; lia). clear M.
  assert (C : (r = 0 \/ r = 1 \/ r = 2 \/ r = 3 \/ r = 4 \/ r = 5 \/ r = 6 \/ r = 7 \/ r = 8 \/ r = 9 \/ r = 10 \/ r = 11 \/ r = 12 \/ r = 13
    \/ r = 14 \/ r = 15)%N) by lia.
  repeat (destruct C as [C|C]); rewrite C in *; cbn [hdigit HexadecimalPos.Unsigned.of_lu]; rewrite IH; lia.
Qed.
Lemma hdigits_count k : forall n, Hexadecimal.nb_digits (hdigits k n) = k.
Proof.
  induction k as [|k IH]; intros n; [reflexivity|]. cbn [hdigits]. unfold hdigit. specialize (IH (n / 16)%N).
  destruct (n mod 16)%N as [|p]; [cbn; rewrite IH; reflexivity|].
  do 4 (try (destruct p as [p|p|])); cbn [Hexadecimal.nb_digits]; rewrite IH; reflexivity.
Qed.
Lemma hex_text d : String.length (HexadecimalString.NilEmpty.string_of_uint d) = Hexadecimal.nb_digits d.
Proof. induction d; cbn; try rewrite IHd; reflexivity. Qed.
Lemma to_hex_count n k : (n < 16 ^ N.of_nat (S k))%N -> Hexadecimal.nb_digits (N.to_hex_uint n) <= S k.
Proof.
  intros H. pose proof (hdigits_value _ _ H) as V. rewrite <- HexadecimalPos.Unsigned.of_lu_rev in V.
  assert (E : N.to_hex_uint n = Hexadecimal.unorm (Hexadecimal.rev (hdigits (S k) n))) by (rewrite <- V at 1; apply HexadecimalPos.Unsigned.to_of).
  rewrite E. rewrite <- (hdigits_count (S k) n) at 2. rewrite <- (HexadecimalFacts.nb_digits_rev (hdigits (S k) n)).
  apply HexadecimalFacts.nb_digits_unorm. apply HexadecimalFacts.nb_digits_n0. rewrite HexadecimalFacts.nb_digits_rev, hdigits_count. discriminate.
Qed.
Lemma escape_length n k : (n < 16 ^ N.of_nat (S k))%N -> String.length (escape_unicode n) <= 5 + k.
Proof.
  intros H. apply to_hex_count in H. unfold escape_unicode, HexadecimalString.NilZero.string_of_uint. rewrite !str_app.
  destruct (N.to_hex_uint n) eqn:Q; [cbn; lia| | | | | | | | | | | | | | | |]; rewrite hex_text; cbn [String.length] in *; lia.
Qed.

(** ** Strings: at most six characters for each byte. *)
Lemma bytes_text_length l : String.length (bytes_text l) = List.length l.
Proof. induction l as [|b l IH]; cbn [bytes_text List.length]; [reflexivity|]. rewrite str_app, IH. reflexivity. Qed.
Lemma ascii_length b : (b < 128)%N -> String.length (escape_ascii b) <= 6.
Proof.
  intros H. unfold escape_ascii. do 6 (match goal with |- context [if (b =? ?k)%N then _ else _] => destruct (b =? k)%N; [cbn; lia|] end).
  destruct (_ || _)%bool; [|cbn; lia]. apply (escape_length b 1). change (16 ^ N.of_nat 2)%N with 256%N. lia.
Qed.
Lemma wide_length plain c l k : (c < 16 ^ N.of_nat (S k))%N -> 5 + k <= 6 * List.length l ->
  String.length (escape_wide plain c l) <= 6 * List.length l.
Proof. intros H L. unfold escape_wide. destruct (plain c); [rewrite bytes_text_length; lia|]. apply escape_length in H. lia. Qed.
Lemma escape_str_length plain : forall l, bytes l -> String.length (escape_str plain l) <= 6 * List.length l.
Proof.
  assert (P : forall k l, List.length l <= k -> bytes l -> String.length (escape_str plain l) <= 6 * List.length l);
    [|intros l H; exact (P _ l (Nat.le_refl _) H)].
  induction k as [|k IH]; intros l L H; [destruct l; [cbn; lia|cbn in L; lia]|].
  destruct l as [|a l]; [cbn; lia|]. cbn [List.length] in L.
  assert (step : forall s h t, bytes t -> List.length t <= k -> String.length s <= 6 * List.length h ->
    String.length (s ++ escape_str plain t)%string <= 6 * List.length (h ++ t)%list).
  { intros s h t Ht Lt Hs. rewrite str_app, app_length. specialize (IH t Lt Ht). lia. }
  inversion H as [|x y B1 B2]; subst. unfold byte in *. cbn [escape_str].
  destruct (N.ltb_spec a 128).
  { apply (step _ [a] l B2); [lia|]. apply ascii_length. assumption. }
  destruct l as [|b l]; [cbn; lia|]. inversion B2 as [|x y B3 B4]; subst. unfold byte in *. cbn [List.length] in L.
  destruct (N.ltb_spec a 224).
  { apply (step _ [a; b] l B4); [lia|]. apply (wide_length _ _ _ 2); [|cbn; lia]. change (16 ^ N.of_nat 3)%N with 4096%N. lia. }
  destruct l as [|c l]; [cbn; lia|]. inversion B4 as [|x y B5 B6]; subst. unfold byte in *. cbn [List.length] in L.
  destruct (N.ltb_spec a 240).
  { apply (step _ [a; b; c] l B6); [lia|]. apply (wide_length _ _ _ 4); [|cbn; lia]. change (16 ^ N.of_nat 5)%N with 1048576%N. lia. }
  destruct l as [|d l]; [cbn; lia|]. inversion B6 as [|x y B7 B8]; subst. unfold byte in *. cbn [List.length] in L.
  apply (step _ [a; b; c; d] l B8); [lia|]. apply (wide_length _ _ _ 5); [|cbn; lia]. change (16 ^ N.of_nat 6)%N with 16777216%N. lia.
Qed.
