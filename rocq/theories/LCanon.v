(** Canonical input: the pieces. *)
From Coq Require Import List NArith ZArith Bool Lia ZifyBool ZifyNat ZifyN Arith.
From Verif Require Import Base Deku Utils Types Physical Link Network Session Data Query
  Interface File Operation Action Command WellFormed SpecLayout SpecDecode SpecCanonical LBits LReader
  LNumbers LDecode.
Import ListNotations.
Open Scope N_scope.

(** [D] with [pre] already written: what it accepts is written as [t], which is read back, and [S]
    accepts exactly if [t] is what was read. *)
Definition CanP {A} (pre : list N) (D S : dec A) (e : A -> list N) : Prop := forall l, bytes l ->
  match D l with
  | Some (v, rest) => bytes rest /\ exists t, e v = pre ++ t /\ (forall r, D (t ++ r) = Some (v, r)) /\
      (S l = Some (v, rest) /\ l = t ++ rest \/ S l = None /\ l <> t ++ rest)
  | None => S l = None
  end.
Definition Can {A} (D S : dec A) (e : A -> list N) : Prop := CanP [] D S e.

Lemma Can_bind {A B} pre (D1 S1 : dec A) e1 (D2 S2 : A -> dec B) e :
  Can D1 S1 e1 -> (forall x, CanP (pre ++ e1 x) (D2 x) (S2 x) e) -> CanP pre (andthen D1 D2) (andthen S1 S2) e.
Proof.
  intros H1 H2 l Hl. specialize (H1 l Hl). unfold andthen. destruct (D1 l) as [[x l1]|] eqn:E1.
  2:{ rewrite H1. reflexivity. }
  destruct H1 as (B1 & t1 & T1 & R1 & C1). cbn [app] in T1. subst t1. specialize (H2 x l1 B1).
  destruct (D2 x l1) as [[v rest]|] eqn:E2.
  - destruct H2 as (B2 & t2 & T2 & R2 & C2). split; [exact B2|]. exists (e1 x ++ t2).
    split; [rewrite T2, app_assoc; reflexivity|]. split.
    { intros r. rewrite <- app_assoc, R1. apply R2. }
    destruct C1 as [(-> & C1)|(-> & C1)].
    + destruct C2 as [(-> & C2)|(-> & C2)].
      * left. split; [reflexivity|]. rewrite <- app_assoc, <- C2. exact C1.
      * right. split; [reflexivity|]. rewrite C1, <- app_assoc. intros G. apply app_inv_head in G. auto.
    + right. split; [reflexivity|]. intros G. apply C1. rewrite <- app_assoc in G.
      pose proof (R1 (t2 ++ rest)) as R. rewrite <- G, E1 in R. injection R as ->. exact G.
  - destruct C1 as [(-> & C1)|(-> & C1)]; [exact H2|reflexivity].
Qed.
Lemma Can_give {A} pre (v : A) e : e v = pre -> CanP pre (give v) (give v) e.
Proof.
  intros H l Hl. unfold give. split; [exact Hl|]. exists []. rewrite app_nil_r. split; [exact H|].
  split; [reflexivity|]. left. split; reflexivity.
Qed.
Lemma Can_reject {A} pre S (e : A -> list N) : (forall l, S l = None) -> CanP pre reject S e.
Proof. intros H l Hl. apply H. Qed.
(** A byte whose ignored bits are written as zeros: [w b] is written for [b]. *)
Lemma Can_pad {B} (w : N -> N) (ok : N -> bool) pre (K K' : N -> dec B) e :
  (forall b, b < 256 -> ok b = (w b =? b)) -> (forall b l, b < 256 -> K (w b) l = K b l) ->
  (forall b, b < 256 -> CanP (pre ++ [w b]) (K b) (K' b) e) ->
  CanP pre (andthen one K) (andthen one (fun b => only (ok b) (K' b))) e.
Proof.
  intros Ho Hw H l Hl. unfold andthen, one. destruct l as [|b l]; [reflexivity|].
  apply Forall_cons_iff in Hl as [Hb Hl]. specialize (H b Hb l Hl). rewrite (Ho b Hb).
  destruct (K b l) as [[v rest]|] eqn:E1.
  - destruct H as (BR & t & T & R & C). split; [exact BR|]. exists (w b :: t).
    split; [rewrite T, <- app_assoc; reflexivity|]. split.
    { intros r. cbn [app]. rewrite Hw by exact Hb. apply R. }
    unfold only. destruct (N.eqb_spec (w b) b) as [Q|Q].
    + destruct C as [(-> & C)|(-> & C)]; [left|right]; (split; [reflexivity|]); cbn [app]; rewrite Q.
      * rewrite C. reflexivity.
      * intros G. injection G as G. auto.
    + right. split; [reflexivity|]. cbn [app]. intros G. injection G as G _. apply Q. symmetry. exact G.
  - unfold only. destruct (w b =? b); [exact H|reflexivity].
Qed.
Lemma Can_byte {B} pre (K K' : N -> dec B) e :
  (forall b, b < 256 -> CanP (pre ++ [b]) (K b) (K' b) e) -> CanP pre (andthen one K) (andthen one K') e.
Proof.
  intros H. apply (Can_pad (fun b => b) (fun _ => true) pre K K' e); [|reflexivity|exact H].
  intros b _. symmetry. apply N.eqb_refl.
Qed.
Lemma Can_named {A B} pre code all c (K K' : A -> dec B) e :
  (forall x, code x = c -> CanP pre (K x) (K' x) e) ->
  CanP pre (andthen (named code all c) K) (andthen (named code all c) K') e.
Proof.
  intros H. unfold named. destruct (find _ all) as [x|] eqn:F.
  - apply find_some in F as [_ F]. apply N.eqb_eq in F. exact (H x F).
  - intros l _. reflexivity.
Qed.
Lemma Can_ext {A} pre (D D' S S' : dec A) e : CanP pre D S e -> (forall l, D' l = D l) -> (forall l, S' l = S l) -> CanP pre D' S' e.
Proof.
  intros H HD HS l Hl. rewrite HD, HS. specialize (H l Hl). destruct (D l) as [[v rest]|]; [|exact H].
  destruct H as (BR & t & T & R & C). split; [exact BR|]. exists t. split; [exact T|]. split; [|exact C].
  intros r. rewrite HD. apply R.
Qed.
Lemma Can_if {A} pre (c : bool) (D1 D2 S1 S2 : dec A) e :
  (c = true -> CanP pre D1 S1 e) -> (c = false -> CanP pre D2 S2 e) ->
  CanP pre (if c then D1 else D2) (if c then S1 else S2) e.
Proof. destruct c; auto. Qed.
Lemma Can_enc {A} pre (D S : dec A) e e' : CanP pre D S e -> (forall v, e' v = e v) -> CanP pre D S e'.
Proof.
  intros H He l Hl. specialize (H l Hl). destruct (D l) as [[v rest]|]; [|exact H].
  destruct H as (BR & t & T & H). split; [exact BR|]. exists t. rewrite He. split; assumption.
Qed.
(** The last piece. *)
Lemma Can_tail {A B} pre (D S : dec A) e1 (f : A -> B) e :
  Can D S e1 -> (forall x, e (f x) = pre ++ e1 x) ->
  CanP pre (let* x := D in give (f x)) (let* x := S in give (f x)) e.
Proof. intros H He. eapply Can_bind; [exact H|]. intros x. apply Can_give. apply He. Qed.

(** ** Plain pieces *)
Lemma Can_one : Can one one (fun b => [b]).
Proof.
  intros l Hl. destruct l as [|b l]; [reflexivity|]. apply Forall_cons_iff in Hl as [_ Hl]. cbn [one].
  split; [exact Hl|]. exists [b]. split; [reflexivity|]. split; [reflexivity|]. left. split; reflexivity.
Qed.
Lemma some_app n t r : length t = N.to_nat n -> some_bytes n (t ++ r) = Some (t, r).
Proof.
  intros H. unfold some_bytes. rewrite app_length.
  destruct (N.leb_spec n (N.of_nat (length t + length r))); [|lia].
  rewrite <- H, firstn_app, Nat.sub_diag, firstn_all, firstn_O, app_nil_r, skipn_app, Nat.sub_diag, skipn_all.
  reflexivity.
Qed.
Lemma some_bytes_inv n l t rest : some_bytes n l = Some (t, rest) -> l = t ++ rest /\ length t = N.to_nat n.
Proof.
  unfold some_bytes. destruct (N.leb_spec n (N.of_nat (length l))); [|discriminate]. intros G.
  injection G as <- <-. split; [symmetry; apply firstn_skipn|]. rewrite firstn_length. lia.
Qed.
Lemma Can_some n : Can (some_bytes n) (some_bytes n) (fun l => l).
Proof.
  intros l Hl. destruct (some_bytes n l) as [[t rest]|] eqn:H; [|reflexivity].
  apply some_bytes_inv in H as [-> L]. apply Forall_app in Hl as [_ Hl]. split; [exact Hl|]. exists t.
  split; [reflexivity|]. split; [|left; split; reflexivity]. intros r. apply some_app. exact L.
Qed.
Lemma Can_num k : Can (num k) (num k) (be_bytes (N.to_nat k)).
Proof.
  intros l Hl. unfold num, andthen, give. destruct (some_bytes k l) as [[t rest]|] eqn:H; [|reflexivity].
  apply some_bytes_inv in H as [-> L]. apply Forall_app in Hl as [Ht Hl]. split; [exact Hl|]. exists t.
  rewrite <- L. split; [apply be_N_of_be; exact Ht|]. split; [|left; split; reflexivity].
  intros r. rewrite some_app by exact L. reflexivity.
Qed.
Lemma Can_host {E : Env} k : Can (host_num k) (host_num k) (enc_native (N.to_nat k)).
Proof.
  intros l Hl. unfold host_num, andthen, give. destruct (some_bytes k l) as [[t rest]|] eqn:H; [|reflexivity].
  apply some_bytes_inv in H as [-> L]. apply Forall_app in Hl as [Ht Hl]. split; [exact Hl|]. exists t.
  split; [|split; [intros r; rewrite some_app by exact L; reflexivity|left; split; reflexivity]].
  unfold enc_native. cbn [app]. destruct e_host; rewrite <- L.
  - rewrite <- rev_length, be_N_of_be by (apply Forall_rev; exact Ht). apply rev_involutive.
  - apply be_N_of_be. exact Ht.
Qed.
Lemma Can_signed : Can signed signed (fun z => [enc_i8 z]).
Proof.
  apply Can_byte. intros b Hb. apply Can_give. cbn [app]. f_equal. unfold enc_i8.
  destruct (N.ltb_spec b 128).
  - destruct (Z.ltb_spec (Z.of_N b) 0); lia.
  - destruct (Z.ltb_spec (Z.of_N b - 256) 0); lia.
Qed.
Lemma Can_times {A} n (D S : dec A) e : Can D S e -> Can (times n D) (times n S) (flat_map e).
Proof.
  intros H. induction n as [|n IH]; cbn [times]; [apply Can_give; reflexivity|].
  eapply Can_bind; [exact H|]. intros x. eapply Can_bind; [exact IH|]. intros xs. apply Can_give. reflexivity.
Qed.

(** ** Numbers *)
Lemma dec_enc_length v r : v < 2 ^ 30 -> dec_length (enc_length v ++ r) = Some (v, r).
Proof.
  intros H. destruct (enc_length_shape v H) as (k & Hk & -> & Hv & _).
  replace (N.to_nat (1 + k)) with (S (N.to_nat k)) by lia. cbn [be_bytes app].
  unfold dec_length, andthen, one. rewrite N2Nat.id.
  assert (P : 2 ^ (6 + 8 * k) = 64 * 256 ^ k) by (rewrite N.pow_add_r, N.pow_mul_r; reflexivity).
  rewrite P in *. assert (Z : 256 ^ k <> 0) by (apply N.pow_nonzero; discriminate).
  assert (Q : (k * (64 * 256 ^ k) + v) / 256 ^ k = 64 * k + v / 256 ^ k).
  { replace (k * (64 * 256 ^ k) + v) with (v + (64 * k) * 256 ^ k) by lia. rewrite N.div_add by exact Z. lia. }
  assert (L : v / 256 ^ k < 64) by (apply N.div_lt_upper_bound; lia).
  rewrite Q. rewrite (N.mod_small (64 * k + v / 256 ^ k) 256) by lia.
  assert (G : forall q, q < 64 -> (64 * k + q) / 64 = k /\ (64 * k + q) mod 64 = q) by (intros q Hq; divlia).
  destruct (G _ L) as [-> ->].
  unfold num, andthen, give. rewrite some_app by apply be_bytes_length.
  rewrite N_of_be_be, N2Nat.id. do 2 f_equal.
  replace (k * (64 * 256 ^ k) + v) with (v + (64 * k) * 256 ^ k) by lia. rewrite N.mod_add by exact Z.
  pose proof (N.div_mod v (256 ^ k) Z). lia.
Qed.
Lemma dec_length_cons b l : dec_length (b :: l) =
  match some_bytes (b / 64) l with
  | Some (t, rest) => Some (b mod 64 * 256 ^ (b / 64) + N_of_be t, rest)
  | None => None
  end.
Proof. unfold dec_length, num, andthen, one, give. destruct (some_bytes _ l) as [[t rest]|]; reflexivity. Qed.
Lemma strict_length_cons b l : strict_length (b :: l) =
  match some_bytes (b / 64) l with
  | Some (t, rest) => let v := b mod 64 * 256 ^ (b / 64) + N_of_be t in
      if (b / 64 =? 0) || (64 * 256 ^ (b / 64 - 1) <=? v) then Some (v, rest) else None
  | None => None
  end.
Proof.
  unfold strict_length, num, andthen, one, give, only. destruct (some_bytes _ l) as [[t rest]|]; [|reflexivity].
  cbv zeta. destruct (_ || _); reflexivity.
Qed.
Lemma Can_length : Can dec_length strict_length enc_length.
Proof.
  intros l Hl. destruct l as [|b l]; [reflexivity|]. rewrite dec_length_cons, strict_length_cons.
  pose proof Hl as Hbl. apply Forall_cons_iff in Hl as [Hb Hl]. unfold byte in Hb. cbv zeta.
  set (k := b / 64) in *. assert (Hk : k < 4) by (unfold k; divlia).
  destruct (some_bytes k l) as [[t rest]|] eqn:H; [|reflexivity].
  apply some_bytes_inv in H as [-> L]. apply Forall_app in Hl as [Ht Hl]. split; [exact Hl|].
  set (v := b mod 64 * 256 ^ k + N_of_be t) in *.
  assert (P : 2 ^ (6 + 8 * k) = 64 * 256 ^ k) by (rewrite N.pow_add_r, N.pow_mul_r; reflexivity).
  pose proof (N_of_be_lt t Ht) as Bt. rewrite L, N2Nat.id in Bt.
  assert (V : v < 64 * 256 ^ k).
  { unfold v. assert (b mod 64 <= 63) by divlia. nia. }
  assert (W : v < 2 ^ 30).
  { eapply N.lt_le_trans; [exact V|]. rewrite <- P. apply N.pow_le_mono_r; lia. }
  exists (enc_length v). split; [reflexivity|]. split; [intros r; apply dec_enc_length; exact W|].
  assert (F : N_of_be (b :: t) = k * (64 * 256 ^ k) + v).
  { rewrite N_of_be_cons, L, N2Nat.id. unfold v, k. pose proof (N.div_mod b 64 ltac:(discriminate)). nia. }
  destruct ((k =? 0) || (64 * 256 ^ (k - 1) <=? v)) eqn:C; [apply orb_true_iff in C|apply orb_false_iff in C].
  - left. split; [reflexivity|]. destruct (enc_length_shape v W) as (j & Hj & -> & Vj & Mj).
    assert (j = k) as ->.
    { assert (Pj : 2 ^ (6 + 8 * j) = 64 * 256 ^ j) by (rewrite N.pow_add_r, N.pow_mul_r; reflexivity).
      destruct (N.lt_trichotomy j k) as [Q|[Q|Q]]; [|exact Q|].
      - destruct C as [C|C]; [apply N.eqb_eq in C; lia|]. apply N.leb_le in C.
        assert (256 ^ j <= 256 ^ (k - 1)) by (apply N.pow_le_mono_r; lia). lia.
      - specialize (Mj k Q). lia. }
    rewrite P, <- F. change (b :: t ++ rest) with ((b :: t) ++ rest). f_equal.
    replace (N.to_nat (1 + k)) with (length (b :: t)) by (cbn [length]; lia).
    symmetry. apply be_N_of_be. apply Forall_cons; assumption.
  - right. split; [reflexivity|]. destruct C as [C1 C2]. apply N.eqb_neq in C1. apply N.leb_gt in C2.
    intros G. apply (f_equal (@List.length N)) in G. rewrite app_length, enc_length_size in G. cbn [length] in G.
    rewrite app_length in G.
    assert (k = 1 \/ k = 2 \/ k = 3) as [K|[K|K]] by lia; rewrite K in *.
    + change (64 * 256 ^ (1 - 1)) with 64 in C2. change (2 ^ 6) with 64 in G.
      rewrite (proj2 (N.ltb_lt _ _) C2) in G. lia.
    + change (64 * 256 ^ (2 - 1)) with 16384 in C2. change (2 ^ 14) with 16384 in G.
      rewrite (proj2 (N.ltb_lt _ _) C2) in G. destruct (v <? 2 ^ 6); lia.
    + change (64 * 256 ^ (3 - 1)) with 4194304 in C2. change (2 ^ 22) with 4194304 in G.
      rewrite (proj2 (N.ltb_lt _ _) C2) in G. destruct (v <? 2 ^ 6), (v <? 2 ^ 14); lia.
Qed.
