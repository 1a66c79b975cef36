(** Lemmas about bit strings, byte strings and numbers. *)
From Coq Require Import List NArith ZArith Bool Lia ZifyBool ZifyNat ZifyN Arith.
From Verif Require Import Base.
Import ListNotations.
Open Scope N_scope.

Arguments N.add : simpl never.
Arguments N.mul : simpl never.
Arguments N.pow : simpl never.

Lemma pow2_pos n : 0 < 2 ^ n.
Proof. apply N.neq_0_lt_0, N.pow_nonzero. lia. Qed.

Lemma pow2_S k : 2 ^ N.of_nat (S k) = 2 * 2 ^ N.of_nat k.
Proof. rewrite Nat2N.inj_succ, N.pow_succ_r'. reflexivity. Qed.

Lemma bits_of_length n v : length (bits_of n v) = n.
Proof. induction n as [|n IH]; cbn [bits_of length]; congruence. Qed.

Lemma N_of_bits_acc l a :
  fold_left (fun a b => 2 * a + b2n b) l a = a * 2 ^ N.of_nat (length l) + N_of_bits l.
Proof.
  unfold N_of_bits. revert a. induction l as [|b l IH]; intros a.
  - cbn [fold_left length]. rewrite N.pow_0_r. lia.
  - cbn [fold_left length]. rewrite IH. rewrite (IH (2 * 0 + b2n b)).
    rewrite pow2_S. nia.
Qed.

Lemma N_of_bits_cons b l :
  N_of_bits (b :: l) = b2n b * 2 ^ N.of_nat (length l) + N_of_bits l.
Proof. unfold N_of_bits at 1. cbn [fold_left]. rewrite N_of_bits_acc. lia. Qed.

Lemma N_of_bits_nil : N_of_bits [] = 0.
Proof. reflexivity. Qed.

Lemma N_of_bits_app a b :
  N_of_bits (a ++ b) = N_of_bits a * 2 ^ N.of_nat (length b) + N_of_bits b.
Proof. unfold N_of_bits at 1. rewrite fold_left_app. rewrite N_of_bits_acc. reflexivity. Qed.

Lemma N_of_bits_lt l : N_of_bits l < 2 ^ N.of_nat (length l).
Proof.
  induction l as [|b l IH].
  - cbn. lia.
  - rewrite N_of_bits_cons. cbn [length]. rewrite pow2_S. destruct b; cbn [b2n]; lia.
Qed.

Lemma bits_of_mod n v : bits_of n v = bits_of n (v mod 2 ^ N.of_nat n).
Proof.
  assert (H : forall k m, (k <= m)%nat -> bits_of k v = bits_of k (v mod 2 ^ N.of_nat m)).
  { induction k as [|k IH]; intros m Hm; [reflexivity|]. cbn [bits_of].
    rewrite N.mod_pow2_bits_low by lia. f_equal. apply IH. lia. }
  apply H. lia.
Qed.

Lemma testbit_top k v : v < 2 ^ N.of_nat (S k) ->
  b2n (N.testbit v (N.of_nat k)) = v / 2 ^ N.of_nat k.
Proof.
  intros H. rewrite N.testbit_eqb. rewrite pow2_S in H.
  assert (v / 2 ^ N.of_nat k < 2).
  { apply N.div_lt_upper_bound; [apply N.pow_nonzero; lia|lia]. }
  rewrite N.mod_small by assumption. clear H.
  generalize dependent (v / 2 ^ N.of_nat k). intros q Hq.
  destruct (N.eqb_spec q 1) as [e|e]; cbn [b2n]; lia.
Qed.

Lemma N_of_bits_bits_of_small n v : v < 2 ^ N.of_nat n -> N_of_bits (bits_of n v) = v.
Proof.
  revert v. induction n as [|n IH]; intros v H.
  - cbn in *. lia.
  - cbn [bits_of]. rewrite N_of_bits_cons, bits_of_length, testbit_top by assumption.
    rewrite bits_of_mod, IH.
    + rewrite (N.div_mod' v (2 ^ N.of_nat n)) at 3. lia.
    + apply N.mod_lt, N.pow_nonzero. lia.
Qed.

Lemma N_of_bits_bits_of n v : N_of_bits (bits_of n v) = v mod 2 ^ N.of_nat n.
Proof.
  rewrite bits_of_mod. apply N_of_bits_bits_of_small, N.mod_lt, N.pow_nonzero. lia.
Qed.

Lemma N_of_bits_inj a b : length a = length b -> N_of_bits a = N_of_bits b -> a = b.
Proof.
  revert b. induction a as [|x a IH]; intros [|y b] Hl H; try discriminate; [reflexivity|].
  injection Hl as Hl. rewrite !N_of_bits_cons, Hl in H.
  pose proof (N_of_bits_lt a) as Ha. pose proof (N_of_bits_lt b) as Hb. rewrite Hl in Ha.
  destruct x, y; cbn [b2n] in H; try lia; f_equal; apply IH; auto; lia.
Qed.

Lemma bits_of_N_of_bits l : bits_of (length l) (N_of_bits l) = l.
Proof.
  apply N_of_bits_inj; [apply bits_of_length|].
  apply N_of_bits_bits_of_small, N_of_bits_lt.
Qed.

Lemma bits_of_app n m v :
  bits_of (n + m) v = bits_of n (v / 2 ^ N.of_nat m) ++ bits_of m v.
Proof.
  apply N_of_bits_inj.
  - rewrite app_length, !bits_of_length. lia.
  - rewrite N_of_bits_app, !N_of_bits_bits_of, bits_of_length.
    rewrite Nat2N.inj_add, N.pow_add_r, (N.mul_comm (2 ^ N.of_nat n)).
    rewrite N.mod_mul_r by (apply N.pow_nonzero; lia). lia.
Qed.

Lemma bits_of_join n m a b : b < 2 ^ N.of_nat m ->
  bits_of (n + m) (a * 2 ^ N.of_nat m + b) = bits_of n a ++ bits_of m b.
Proof.
  intros H. rewrite bits_of_app. f_equal.
  - f_equal. rewrite N.div_add_l by (apply N.pow_nonzero; lia).
    rewrite N.div_small by assumption. lia.
  - rewrite bits_of_mod. rewrite N.add_comm, N.mod_add by (apply N.pow_nonzero; lia).
    rewrite <- bits_of_mod. reflexivity.
Qed.

Lemma bits_of_inj n a b : a < 2 ^ N.of_nat n -> b < 2 ^ N.of_nat n ->
  bits_of n a = bits_of n b -> a = b.
Proof.
  intros Ha Hb H. rewrite <- (N_of_bits_bits_of_small n a Ha).
  rewrite <- (N_of_bits_bits_of_small n b Hb). congruence.
Qed.

Lemma bits_of_1 b : bits_of 1 (b2n b) = [b].
Proof. destruct b; reflexivity. Qed.

Lemma bits_of_0 n : bits_of n 0 = repeat false n.
Proof.
  induction n as [|n IH]; cbn [bits_of repeat]; [reflexivity|].
  rewrite N.bits_0, IH. reflexivity.
Qed.

(** ** bytes *)
Lemma bits_of_bytes_length l : length (bits_of_bytes l) = (8 * length l)%nat.
Proof.
  induction l as [|b l IH]; cbn [bits_of_bytes]; [reflexivity|].
  rewrite app_length, bits_of_length, IH. cbn [length]. lia.
Qed.

Lemma bits_of_bytes_app a b : bits_of_bytes (a ++ b) = bits_of_bytes a ++ bits_of_bytes b.
Proof.
  induction a as [|x a IH]; cbn [bits_of_bytes app]; [reflexivity|].
  rewrite IH, app_assoc. reflexivity.
Qed.

Lemma bits_of_bytes_cons x a : bits_of_bytes (x :: a) = bits_of 8 x ++ bits_of_bytes a.
Proof. reflexivity. Qed.

Lemma bytes_of_bits_cons8 x l : length x = 8%nat ->
  bytes_of_bits (x ++ l) = N_of_bits x :: bytes_of_bits l.
Proof.
  intros H. do 8 (destruct x as [|? x]; [discriminate|]). destruct x; [|discriminate].
  reflexivity.
Qed.

Lemma bytes_of_bits_of_bytes l : bytes l -> bytes_of_bits (bits_of_bytes l) = l.
Proof.
  induction l as [|b l IH]; intros H; [reflexivity|].
  apply Forall_cons_iff in H as [Hb Hl].
  cbn [bits_of_bytes]. rewrite bytes_of_bits_cons8 by apply bits_of_length.
  rewrite IH by assumption. f_equal. apply N_of_bits_bits_of_small. exact Hb.
Qed.

Lemma bytes_of_bits_of_bytes_app l t : bytes l ->
  bytes_of_bits (bits_of_bytes l ++ t) = l ++ bytes_of_bits t.
Proof.
  induction l as [|b l IH]; intros H; [reflexivity|].
  apply Forall_cons_iff in H as [Hb Hl].
  cbn [bits_of_bytes app]. rewrite <- app_assoc, bytes_of_bits_cons8 by apply bits_of_length.
  rewrite IH by assumption. f_equal. apply N_of_bits_bits_of_small. exact Hb.
Qed.

(** Induction eight bits at a time. *)
Lemma octet_ind (P : list bool -> Prop) :
  (forall l, (length l < 8)%nat -> P l) ->
  (forall x l, length x = 8%nat -> P l -> P (x ++ l)) -> forall l, P l.
Proof.
  intros H0 H1 l. remember (length l) as n eqn:En. revert l En.
  induction n as [n IH] using (well_founded_induction lt_wf); intros l En.
  destruct (Nat.lt_ge_cases (length l) 8) as [H|H]; [apply H0; assumption|].
  rewrite <- (firstn_skipn 8 l). apply H1.
  - rewrite firstn_length. lia.
  - apply (IH (length (skipn 8 l))); [|reflexivity]. rewrite skipn_length. lia.
Qed.

Lemma short_bits_octet (l : list bool) k : (length l < 8)%nat -> length l = (8 * k)%nat -> l = [].
Proof. intros. assert (k = 0)%nat by lia. subst k. destruct l; [reflexivity|discriminate]. Qed.

Lemma bits_of_bytes_of_bits l k : length l = (8 * k)%nat -> bits_of_bytes (bytes_of_bits l) = l.
Proof.
  revert k. induction l as [l Hl|x l Hx IH] using octet_ind; intros k H.
  - rewrite (short_bits_octet l k); auto.
  - rewrite bytes_of_bits_cons8 by assumption. rewrite bits_of_bytes_cons.
    rewrite app_length in H. rewrite (IH (k - 1)%nat) by lia. f_equal.
    rewrite <- Hx. apply bits_of_N_of_bits.
Qed.

Lemma bytes_of_bits_length l k : length l = (8 * k)%nat -> length (bytes_of_bits l) = k.
Proof.
  intros H. pose proof (f_equal (@length bool) (bits_of_bytes_of_bits l k H)) as E.
  rewrite bits_of_bytes_length in E. lia.
Qed.

Lemma bytes_of_bits_bytes l : bytes (bytes_of_bits l).
Proof.
  induction l as [l Hl|x l Hx IH] using octet_ind.
  - assert (Hs : l = [] \/ bytes_of_bits l = [N_of_bits (l ++ repeat false (8 - length l))]).
    { do 8 (destruct l as [|? l]; [auto|]). cbn in Hl. lia. }
    destruct Hs as [Hs|Hs]; [subst l; constructor|]. rewrite Hs. constructor; [|constructor].
    pose proof (N_of_bits_lt (l ++ repeat false (8 - length l))) as Hb.
    rewrite app_length, repeat_length in Hb.
    replace (length l + (8 - length l))%nat with 8%nat in Hb by lia. exact Hb.
  - rewrite bytes_of_bits_cons8 by assumption. constructor; [|assumption].
    pose proof (N_of_bits_lt x) as Hb. rewrite Hx in Hb. exact Hb.
Qed.

Lemma bits_of_bytes_inj a b : bytes a -> bytes b ->
  bits_of_bytes a = bits_of_bytes b -> a = b.
Proof.
  intros Ha Hb H. rewrite <- (bytes_of_bits_of_bytes a Ha), <- (bytes_of_bits_of_bytes b Hb).
  congruence.
Qed.

(** ** byte order *)
Lemma be_bytes_length n v : length (be_bytes n v) = n.
Proof. induction n; cbn [be_bytes length]; congruence. Qed.

Lemma be_bytes_bytes n v : bytes (be_bytes n v).
Proof.
  induction n; cbn [be_bytes]; constructor; [|assumption].
  apply N.mod_lt. lia.
Qed.

Lemma pow256 k : 256 ^ N.of_nat k = 2 ^ N.of_nat (8 * k).
Proof. rewrite Nat2N.inj_mul, N.pow_mul_r. reflexivity. Qed.

Lemma bits_of_be n v : bits_of_bytes (be_bytes n v) = bits_of (8 * n) v.
Proof.
  induction n as [|n IH]; [reflexivity|].
  cbn [be_bytes]. rewrite bits_of_bytes_cons, IH.
  replace (8 * S n)%nat with (8 + 8 * n)%nat by lia. rewrite bits_of_app. f_equal.
  rewrite pow256. rewrite bits_of_mod. cbn [N.of_nat]. rewrite N.mod_mod by lia.
  change 256 with (2 ^ N.of_nat 8). rewrite <- bits_of_mod. reflexivity.
Qed.

Lemma N_of_be_acc l a :
  fold_left (fun a b => 256 * a + b) l a = a * 256 ^ N.of_nat (length l) + N_of_be l.
Proof.
  unfold N_of_be. revert a. induction l as [|b l IH]; intros a.
  - cbn [fold_left length]. rewrite N.pow_0_r. lia.
  - cbn [fold_left length]. rewrite IH. rewrite (IH (256 * 0 + b)).
    rewrite Nat2N.inj_succ, N.pow_succ_r'. nia.
Qed.

Lemma N_of_be_cons b l : N_of_be (b :: l) = b * 256 ^ N.of_nat (length l) + N_of_be l.
Proof. unfold N_of_be at 1. cbn [fold_left]. rewrite N_of_be_acc. lia. Qed.

Lemma N_of_be_bits l : bytes l -> N_of_be l = N_of_bits (bits_of_bytes l).
Proof.
  induction l as [|b l IH]; intros H; [reflexivity|].
  apply Forall_cons_iff in H as [Hb Hl].
  rewrite N_of_be_cons, bits_of_bytes_cons, N_of_bits_app, IH by assumption.
  rewrite bits_of_bytes_length, pow256. f_equal. f_equal. symmetry.
  apply N_of_bits_bits_of_small. exact Hb.
Qed.

Lemma N_of_be_be n v : N_of_be (be_bytes n v) = v mod 256 ^ N.of_nat n.
Proof.
  rewrite N_of_be_bits by apply be_bytes_bytes.
  rewrite bits_of_be, N_of_bits_bits_of, pow256. reflexivity.
Qed.

Lemma be_N_of_be l : bytes l -> be_bytes (length l) (N_of_be l) = l.
Proof.
  intros H. apply bits_of_bytes_inj; [apply be_bytes_bytes|assumption|].
  rewrite bits_of_be, N_of_be_bits by assumption. rewrite <- bits_of_bytes_length.
  apply bits_of_N_of_bits.
Qed.

Lemma N_of_be_lt l : bytes l -> N_of_be l < 256 ^ N.of_nat (length l).
Proof.
  intros H. rewrite N_of_be_bits by assumption. rewrite pow256, <- bits_of_bytes_length.
  apply N_of_bits_lt.
Qed.

(** ** assoc *)
Lemma assoc_in {A} k (l : list (N * A)) v : assoc k l = Some v -> In (k, v) l.
Proof.
  induction l as [|[k' a] l IH]; cbn [assoc]; [discriminate|].
  destruct (N.eqb_spec k k') as [->|Hk]; intros H.
  - injection H as ->. left. reflexivity.
  - right. apply IH. assumption.
Qed.
