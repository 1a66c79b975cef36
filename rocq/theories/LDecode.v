(** The readers of the model against the decoder of SpecDecode.v. *)
From Coq Require Import List NArith ZArith Bool Lia ZifyBool ZifyNat ZifyN Arith.
From Verif Require Import Base Deku Utils Types Physical Link Network Session Data Query
  Interface File Operation Action Command SpecLayout SpecDecode LBits LReader LLayout LNiceOps.
Import ListNotations.
Open Scope N_scope.

(** ** The complete bytes of a bit string *)
Fixpoint octets (l : list bool) : list N :=
  match l with
  | a :: b :: c :: d :: e :: f :: g :: h :: tl => N_of_bits [a; b; c; d; e; f; g; h] :: octets tl
  | _ => []
  end.

Lemma octets_short l : (length l < 8)%nat -> octets l = [].
Proof. intros H. do 8 (destruct l as [|? l]; [reflexivity|]). cbn [length] in H. lia. Qed.
Lemma octets_cons x l : length x = 8%nat -> octets (x ++ l) = N_of_bits x :: octets l.
Proof.
  intros H. do 8 (destruct x as [|? x]; [discriminate|]). destruct x; [|discriminate]. reflexivity.
Qed.
Lemma octets_length l : length (octets l) = Nat.div (length l) 8.
Proof.
  induction l as [l Hl|x l Hx IH] using octet_ind.
  - rewrite octets_short by assumption. symmetry. apply Nat.div_small. assumption.
  - rewrite octets_cons by assumption. cbn [length]. rewrite IH, app_length, Hx. divlia.
Qed.
Lemma octets_bytes l : bytes (octets l).
Proof.
  induction l as [l Hl|x l Hx IH] using octet_ind.
  - rewrite octets_short by assumption. constructor.
  - rewrite octets_cons by assumption. constructor; [|exact IH].
    pose proof (N_of_bits_lt x) as L. rewrite Hx in L. exact L.
Qed.
Lemma octets_skip k l : (8 * k <= length l)%nat -> octets (skipn (8 * k) l) = skipn k (octets l).
Proof.
  revert l. induction k as [|k IH]; intros l H; [reflexivity|].
  replace (8 * S k)%nat with (8 + 8 * k)%nat by lia. rewrite <- skipn_skipn.
  rewrite <- (firstn_skipn 8 l) at 2. rewrite octets_cons by (rewrite firstn_length; lia).
  rewrite skipn_cons. apply IH. rewrite skipn_length. lia.
Qed.
Lemma octets_first k l : (8 * k <= length l)%nat -> bits_of_bytes (firstn k (octets l)) = firstn (8 * k) l.
Proof.
  revert l. induction k as [|k IH]; intros l H; [reflexivity|].
  replace (8 * S k)%nat with (8 + 8 * k)%nat by lia. rewrite firstn_add.
  rewrite <- (firstn_skipn 8 l) at 1.
  assert (L : length (firstn 8 l) = 8%nat) by (rewrite firstn_length; lia).
  rewrite octets_cons by assumption. rewrite firstn_cons, bits_of_bytes_cons.
  rewrite IH by (rewrite skipn_length; lia). f_equal.
  pose proof (bits_of_N_of_bits (firstn 8 l)) as G. rewrite L in G. exact G.
Qed.
Lemma octets_bits l : bytes l -> octets (bits_of_bytes l) = l.
Proof.
  induction l as [|b l IH]; intros H; [reflexivity|]. apply Forall_cons_iff in H as [Hb Hl].
  rewrite bits_of_bytes_cons, octets_cons by apply bits_of_length. rewrite IH by assumption.
  rewrite N_of_bits_bits_of_small by exact Hb. reflexivity.
Qed.

Lemma octets_first_bytes k l : bytes (firstn k (octets l)).
Proof. pose proof (octets_bytes l) as H. rewrite <- (firstn_skipn k (octets l)) in H. apply Forall_app in H. apply H. Qed.

(** ** Readers that decode whole bytes, wherever they start *)
Definition DecAt {A} (m : reader A) (D : dec A) (r : rd) : Prop :=
  match D (octets (view r)) with
  | Some (v, rest) =>
      exists k, (8 * k <= length (view r))%nat /\ rest = skipn k (octets (view r))
                /\ m r = Ok (v, adv r (8 * k))
  | None => exists e, m r = Err e
  end.
Definition Dec {A} (m : reader A) (D : dec A) : Prop := forall r, RWf r -> DecAt m D r.

Lemma Dec_ext {A} (m m' : reader A) (D D' : dec A) :
  Dec m D -> (forall r, RWf r -> m' r = m r) -> (forall l, D' l = D l) -> Dec m' D'.
Proof. intros H Hm HD r Hr. specialize (H r Hr). unfold DecAt in *. rewrite HD, Hm by assumption. exact H. Qed.
Lemma Dec_ret {A} (v : A) : Dec (ret v) (give v).
Proof. intros r Hr. exists 0%nat. split; [lia|]. split; [reflexivity|]. rewrite adv_0. reflexivity. Qed.
Lemma Dec_fail {A} e : Dec (@fail A e) reject.
Proof. intros r Hr. exists e. reflexivity. Qed.
Lemma DecAt_bind {A B} (m : reader A) (f : A -> reader B) D K r : RWf r -> DecAt m D r ->
  (forall v k rest, D (octets (view r)) = Some (v, rest) -> (8 * k <= length (view r))%nat ->
     rest = skipn k (octets (view r)) -> m r = Ok (v, adv r (8 * k)) ->
     RWf (adv r (8 * k)) -> DecAt (f v) (K v) (adv r (8 * k))) ->
  DecAt (bind m f) (andthen D K) r.
Proof.
  intros Hr H G. unfold DecAt, andthen, bind in *.
  destruct (D (octets (view r))) as [[v rest]|] eqn:E.
  2: { destruct H as [e H]. exists e. rewrite H. reflexivity. }
  destruct H as (k & Hk & -> & Hm). rewrite Hm.
  specialize (G v k _ eq_refl Hk eq_refl Hm (RWf_adv _ _ Hr Hk)). unfold DecAt in G.
  rewrite view_adv, octets_skip in G by assumption.
  destruct (K v (skipn k (octets (view r)))) as [[w rest]|]; [|exact G].
  destruct G as (j & Hj & -> & G). rewrite skipn_length in Hj.
  exists (k + j)%nat. split; [lia|]. rewrite <- skipn_skipn. split; [reflexivity|].
  rewrite G, adv_adv by assumption. do 3 f_equal. lia.
Qed.
Lemma Dec_bind {A B} (m : reader A) (f : A -> reader B) D K :
  Dec m D -> (forall v, Dec (f v) (K v)) -> Dec (bind m f) (andthen D K).
Proof. intros H G r Hr. apply DecAt_bind; [exact Hr|apply H; exact Hr|]. intros. apply G. assumption. Qed.
Lemma Dec_if {A} (c : bool) (m m' : reader A) D D' :
  Dec m D -> Dec m' D' -> Dec (if c then m else m') (if c then D else D').
Proof. destruct c; auto. Qed.

Lemma Dec_num k : Dec (read_uint (8 * k)) (num (N.of_nat k)).
Proof.
  intros r Hr. unfold DecAt, num, andthen, some_bytes, give. rewrite octets_length.
  destruct (N.leb_spec (N.of_nat k) (N.of_nat (Nat.div (length (view r)) 8))) as [L|L].
  - assert (Hk : (8 * k <= length (view r))%nat) by divlia. exists k. rewrite Nat2N.id.
    split; [exact Hk|]. split; [reflexivity|]. rewrite read_uint_ok by assumption. do 2 f_equal.
    rewrite N_of_be_bits by apply octets_first_bytes.
    rewrite octets_first by assumption. reflexivity.
  - exists EIncomplete. apply read_uint_err; [assumption|]. divlia.
Qed.
Lemma num_1 l : bytes l -> num 1 l = one l.
Proof.
  intros H. destruct l as [|b l]; [reflexivity|]. unfold num, andthen, some_bytes, give, one.
  destruct (N.leb_spec 1 (N.of_nat (length (b :: l)))) as [L|L]; [|cbn [length] in L; lia].
  change (N.to_nat 1) with 1%nat. cbn [firstn skipn]. rewrite N_of_be_cons. cbn [length].
  f_equal. f_equal. change (N_of_be []) with 0. change (256 ^ N.of_nat 0) with 1. lia.
Qed.
Lemma Dec_u8 : Dec read_u8 one.
Proof.
  intros r Hr. pose proof (Dec_num 1 r Hr) as H. change (N.of_nat 1) with 1 in H. unfold DecAt in *.
  rewrite num_1 in H by apply octets_bytes. exact H.
Qed.
Lemma Dec_u16 : Dec read_u16be (num 2). Proof. exact (Dec_num 2). Qed.
Lemma Dec_u32 : Dec read_u32be (num 4). Proof. exact (Dec_num 4). Qed.
Lemma Dec_u64 : Dec read_u64be (num 8). Proof. exact (Dec_num 8). Qed.
Lemma Dec_i8 : Dec read_i8 signed.
Proof. apply Dec_bind; [exact Dec_u8|]. intros v. apply Dec_ret. Qed.
Lemma Dec_pad k : Dec (skip_bits (8 * k)) (let* l := some_bytes (N.of_nat k) in give tt).
Proof.
  intros r Hr. unfold DecAt, andthen, some_bytes, give, skip_bits, bind. rewrite octets_length.
  destruct (N.leb_spec (N.of_nat k) (N.of_nat (Nat.div (length (view r)) 8))) as [L|L].
  - assert (Hk : (8 * k <= length (view r))%nat) by divlia. exists k. rewrite Nat2N.id.
    split; [exact Hk|]. split; [reflexivity|]. rewrite read_bits_ok by assumption. reflexivity.
  - exists EIncomplete. rewrite read_bits_err; [reflexivity|assumption|]. divlia.
Qed.
Lemma Dec_native {E : Env} k : Dec (read_native k) (host_num (N.of_nat k)).
Proof.
  intros r Hr. unfold DecAt, host_num, andthen, some_bytes, give, read_native, bind. rewrite octets_length.
  destruct (N.leb_spec (N.of_nat k) (N.of_nat (Nat.div (length (view r)) 8))) as [L|L].
  - assert (Hk : (8 * k <= length (view r))%nat) by divlia. exists k. rewrite Nat2N.id.
    split; [exact Hk|]. split; [reflexivity|]. rewrite read_bits_ok by assumption.
    rewrite <- octets_first by assumption.
    rewrite bytes_of_bits_of_bytes by apply octets_first_bytes.
    unfold of_host, N_of_le. destruct e_host; reflexivity.
  - exists EIncomplete. rewrite read_bits_err; [reflexivity|assumption|]. divlia.
Qed.
Lemma Dec_native_4 {E : Env} : Dec (read_native 4) (host_num 4). Proof. exact (Dec_native 4). Qed.
Lemma Dec_native_16 {E : Env} : Dec (read_native 16) (host_num 16). Proof. exact (Dec_native 16). Qed.
Lemma Dec_times {A} n (m : reader A) D : Dec m D -> Dec (read_list n m) (times n D).
Proof.
  intros H. induction n as [|n IH]; cbn [read_list times]; [apply Dec_ret|].
  apply Dec_bind; [exact H|]. intros x. apply Dec_bind; [exact IH|]. intros xs. apply Dec_ret.
Qed.
Lemma times_one n l : times n one l = some_bytes (N.of_nat n) l.
Proof.
  unfold some_bytes. rewrite Nat2N.id. revert l. induction n as [|n IH]; intros l.
  - cbn. destruct l; reflexivity.
  - cbn [times]. unfold andthen at 1. destruct l as [|b l]; [cbn [one length]; destruct (N.leb_spec (N.of_nat (S n)) (N.of_nat 0)); [lia|reflexivity]|].
    cbn [one]. unfold andthen. rewrite IH. cbn [length firstn skipn].
    destruct (N.leb_spec (N.of_nat n) (N.of_nat (length l)));
      destruct (N.leb_spec (N.of_nat (S n)) (N.of_nat (S (length l)))); try lia; reflexivity.
Qed.
Lemma Dec_bytes n : Dec (read_list n read_u8) (some_bytes (N.of_nat n)).
Proof.
  eapply Dec_ext; [apply (Dec_times n), Dec_u8|reflexivity|]. intros l. symmetry. apply times_one.
Qed.
Lemma Dec_bytes_5 : Dec (read_list 5 read_u8) (some_bytes 5). Proof. exact (Dec_bytes 5). Qed.
Lemma Dec_bytes_8 : Dec (read_list 8 read_u8) (some_bytes 8). Proof. exact (Dec_bytes 8). Qed.
Lemma Dec_vec n : Dec (read_vec_u8 n) (some_bytes n).
Proof.
  intros r Hr. pose proof (Dec_bytes (N.to_nat n) r Hr) as H. rewrite N2Nat.id in H.
  unfold DecAt, read_vec_u8 in *. unfold some_bytes in *. rewrite octets_length in *.
  destruct (N.leb_spec n (N.of_nat (Nat.div (length (view r)) 8))) as [L|L];
    destruct (N.leb_spec (8 * n) (N.of_nat (length (view r)))) as [G|G]; try (exfalso; divlia); [exact H|].
  exists EIncomplete. reflexivity.
Qed.

(** ** Readers inside a byte *)
Fixpoint cut (n : nat) (l : list bool) : option (list bool * list bool) :=
  match n with
  | O => Some ([], l)
  | S k => match l with
           | [] => None
           | x :: tl => match cut k tl with Some (a, b) => Some (x :: a, b) | None => None end
           end
  end.
Lemma cut_spec n l : cut n l = if Nat.leb n (length l) then Some (firstn n l, skipn n l) else None.
Proof.
  revert l. induction n as [|n IH]; intros [|x l]; try reflexivity. cbn [cut length firstn skipn Nat.leb].
  rewrite IH. destruct (Nat.leb n (length l)); reflexivity.
Qed.

Definition bp (A : Type) := list bool -> option (A * list bool).
Definition PB {A} (m : reader A) (P : bp A) : Prop := forall r, RWf r ->
  match P (view r) with
  | Some (v, l) => exists k, (k <= length (view r))%nat /\ l = skipn k (view r) /\ m r = Ok (v, adv r k)
  | None => exists e, m r = Err e
  end.
Definition p_ret {A} (v : A) : bp A := fun l => Some (v, l).
Definition p_none {A} : bp A := fun l => None.
Definition p_bind {A B} (P : bp A) (Q : A -> bp B) : bp B :=
  fun l => match P l with Some (v, l') => Q v l' | None => None end.
Definition p_uint (n : nat) : bp N :=
  fun l => match cut n l with Some (a, b) => Some (N_of_bits a, b) | None => None end.

Lemma PB_ret {A} (v : A) : PB (ret v) (p_ret v).
Proof. intros r Hr. exists 0%nat. split; [lia|]. split; [reflexivity|]. rewrite adv_0. reflexivity. Qed.
Lemma PB_fail {A} e : PB (@fail A e) p_none.
Proof. intros r Hr. exists e. reflexivity. Qed.
Lemma PB_bind {A B} (m : reader A) (f : A -> reader B) P Q :
  PB m P -> (forall v, PB (f v) (Q v)) -> PB (bind m f) (p_bind P Q).
Proof.
  intros H G r Hr. specialize (H r Hr). unfold p_bind, bind.
  destruct (P (view r)) as [[v l]|]. 2: { destruct H as [e H]. exists e. rewrite H. reflexivity. }
  destruct H as (k & Hk & -> & Hm). rewrite Hm. specialize (G v (adv r k) (RWf_adv _ _ Hr Hk)).
  rewrite view_adv in G by assumption.
  destruct (Q v (skipn k (view r))) as [[w l]|]; [|exact G].
  destruct G as (j & Hj & -> & G). rewrite skipn_length in Hj. exists (k + j)%nat. split; [lia|].
  rewrite skipn_skipn. split; [reflexivity|]. rewrite G, adv_adv by assumption. reflexivity.
Qed.
Lemma PB_uint n : PB (read_uint n) (p_uint n).
Proof.
  intros r Hr. unfold p_uint. rewrite cut_spec. destruct (Nat.leb_spec n (length (view r))) as [L|L].
  - exists n. split; [exact L|]. split; [reflexivity|]. apply read_uint_ok; assumption.
  - exists EIncomplete. apply read_uint_err; assumption.
Qed.
Lemma PB_skip n : PB (skip_bits n) (p_bind (p_uint n) (fun _ => p_ret tt)).
Proof.
  intros r Hr. unfold p_bind, p_ret, p_uint, skip_bits, bind. rewrite cut_spec.
  destruct (Nat.leb_spec n (length (view r))) as [L|L].
  - exists n. split; [exact L|]. split; [reflexivity|]. rewrite read_bits_ok by assumption. reflexivity.
  - exists EIncomplete. rewrite read_bits_err by assumption. reflexivity.
Qed.
Lemma PB_bool : PB read_bool (p_bind (p_uint 1) (fun x => p_ret (negb (x =? 0)))).
Proof. apply PB_bind; [apply PB_uint|]. intros v. apply PB_ret. Qed.
Lemma PB_enum {A} n (f : N -> option A) :
  PB (read_enum n f) (p_bind (p_uint n) (fun x => match f x with Some v => p_ret v | None => p_none end)).
Proof. apply PB_bind; [apply PB_uint|]. intros v. destruct (f v); [apply PB_ret|apply PB_fail]. Qed.

(** A reader of exactly one byte. *)
Definition group_ok {A} (P : bp A) (D : dec A) : Prop := forall l,
  match cut 8 l with
  | None => P l = None
  | Some (x, t) => exists o, P l = option_map (fun v => (v, t)) o
                             /\ forall tl, D (N_of_bits x :: tl) = option_map (fun v => (v, tl)) o
  end.
Lemma Dec_group {A} (m : reader A) P D : PB m P -> D [] = None -> group_ok P D -> Dec m D.
Proof.
  intros H H0 G r Hr. specialize (H r Hr). specialize (G (view r)). unfold DecAt. rewrite cut_spec in G.
  destruct (Nat.leb_spec 8 (length (view r))) as [L|L].
  - destruct G as (o & Go & Gd).
    assert (E : octets (view r) = N_of_bits (firstn 8 (view r)) :: octets (skipn 8 (view r))).
    { rewrite <- (firstn_skipn 8 (view r)) at 1. apply octets_cons. rewrite firstn_length. lia. }
    rewrite E, Gd. rewrite Go in H. destruct o as [v|]; cbn [option_map] in *; [|exact H].
    destruct H as (k & Hk & Hs & Hm). assert (k = 8)%nat.
    { pose proof (f_equal (@length bool) Hs) as Hl. rewrite !skipn_length in Hl. lia. }
    subst k. exists 1%nat. split; [lia|]. split; [reflexivity|]. exact Hm.
  - rewrite octets_short by assumption. rewrite H0. rewrite G in H. exact H.
Qed.
Ltac leaf :=
  match goal with
  | |- match cut 8 ?l with _ => _ end =>
      cbv beta iota delta [cut];
      match goal with
      | |- exists o, ?P _ = _ /\ _ =>
          let x := match goal with |- context [N_of_bits ?x] => x end in
          let o := eval vm_compute in (option_map fst (P x)) in exists o
      | _ => idtac
      end; vm_compute; try split; try intros; reflexivity
  end.
Ltac tree := intros l; do 8 (destruct l as [|[] l]; [vm_compute; reflexivity| |]); leaf.

(** A number of [n + m] bits is one of [n] bits and one of [m] bits. *)
Lemma read_uint_split n m r : RWf r ->
  read_uint (n + m) r = (a <- read_uint n ;; b <- read_uint m ;; ret (a * 2 ^ N.of_nat m + b)) r.
Proof.
  intros Hr. unfold bind. destruct (Nat.le_gt_cases (n + m) (length (view r))) as [L|L].
  - rewrite read_uint_ok by assumption. rewrite read_uint_ok by (auto; lia).
    assert (Hn : (n <= length (view r))%nat) by lia.
    rewrite (read_uint_ok m (adv r n)); [|apply RWf_adv; assumption|rewrite view_adv, skipn_length by assumption; lia].
    rewrite view_adv, adv_adv by assumption. unfold ret. rewrite firstn_add, N_of_bits_app.
    do 4 f_equal. rewrite firstn_length, skipn_length. f_equal. lia.
  - rewrite read_uint_err by assumption. destruct (Nat.le_gt_cases n (length (view r))) as [Hn|Hn].
    + rewrite read_uint_ok by assumption. rewrite read_uint_err; [reflexivity|apply RWf_adv; assumption|].
      rewrite view_adv, skipn_length by assumption. lia.
    + rewrite read_uint_err by assumption. reflexivity.
Qed.
