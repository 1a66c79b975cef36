(** The reader framework: what a reader does to the state, stated on the bits not read yet. *)
From Coq Require Import List NArith ZArith Bool Lia ZifyBool ZifyNat ZifyN Arith.
From Verif Require Import Base Deku LBits.
Import ListNotations.
Open Scope N_scope.

(** States a reader can be in. *)
Definition RWf (r : rd) : Prop :=
  (pos r <= length (data r) /\ length (left r) <= 8 /\ length (left r) <= 8 * pos r)%nat.

(** Bit position. *)
Definition BP (r : rd) : nat := (8 * pos r - length (left r))%nat.

Lemma RWf_new d : RWf (new_reader d).
Proof. unfold RWf, new_reader; cbn. lia. Qed.

Lemma view_new d : view (new_reader d) = bits_of_bytes d.
Proof. reflexivity. Qed.

Lemma need_0 r n : (n <= length (left r))%nat -> need r n = 0%nat.
Proof. intros H. unfold need. replace (n - length (left r))%nat with 0%nat by lia. reflexivity. Qed.

Lemma adv_0 r : adv r 0 = r.
Proof.
  unfold adv. rewrite need_0 by lia. cbn [firstn bits_of_bytes skipn].
  rewrite app_nil_r, !Nat.add_0_r. destruct r; reflexivity.
Qed.

Ltac divlia := Zify.zify; Z.div_mod_to_equations; lia.

Lemma need_bounds r n :
  (8 * need r n >= n - length (left r) /\ 8 * need r n <= n - length (left r) + 7
   /\ (n <= length (left r) -> need r n = 0))%nat.
Proof. repeat split; [| |apply need_0]; unfold need; divlia. Qed.

Lemma view_length r : RWf r ->
  length (view r) = (length (left r) + 8 * (length (data r) - pos r))%nat.
Proof. intros H. unfold view. rewrite app_length, bits_of_bytes_length, skipn_length. lia. Qed.

Lemma need_fits r n : RWf r -> (n <= length (view r))%nat ->
  (need r n <= length (data r) - pos r)%nat.
Proof.
  intros H. rewrite view_length by assumption. pose proof (need_bounds r n). lia.
Qed.

Lemma fresh_length r n : RWf r -> (n <= length (view r))%nat ->
  length (firstn (need r n) (skipn (pos r) (data r))) = need r n.
Proof.
  intros H Hn. rewrite firstn_length, skipn_length. pose proof (need_fits r n H Hn). lia.
Qed.

Lemma view_split r n :
  view r = (left r ++ bits_of_bytes (firstn n (skipn (pos r) (data r))))
           ++ bits_of_bytes (skipn (pos r + n) (data r)).
Proof.
  unfold view. rewrite <- app_assoc. f_equal. rewrite <- bits_of_bytes_app. f_equal.
  rewrite Nat.add_comm, <- (firstn_skipn n (skipn (pos r) (data r))) at 1.
  f_equal. revert r. intros [d p l b]. cbn [data pos]. revert d.
  induction p as [|p IH]; intros d; cbn [skipn]; [rewrite Nat.add_0_r; reflexivity|].
  rewrite Nat.add_succ_r. destruct d; cbn [skipn]; [apply skipn_nil|]. apply IH.
Qed.

Lemma taken_length r n : RWf r -> (n <= length (view r))%nat ->
  length (left r ++ bits_of_bytes (firstn (need r n) (skipn (pos r) (data r))))
  = (length (left r) + 8 * need r n)%nat.
Proof.
  intros H Hn. rewrite app_length, bits_of_bytes_length, fresh_length by assumption. reflexivity.
Qed.

Lemma read_bits_ok n r : RWf r -> (n <= length (view r))%nat ->
  read_bits n r = Ok (firstn n (view r), adv r n).
Proof.
  intros H Hn. unfold read_bits. pose proof (need_fits r n H Hn) as Hk.
  assert (E : Nat.leb (pos r + need r n) (length (data r)) = true).
  { apply Nat.leb_le. destruct H as (H & _). lia. }
  rewrite E. f_equal. f_equal. rewrite (view_split r (need r n)).
  pose proof (taken_length r n H Hn) as Ht. pose proof (need_bounds r n).
  set (A := left r ++ _) in *. rewrite firstn_app, Ht.
  replace (n - (length (left r) + 8 * need r n))%nat with 0%nat by lia.
  cbn [firstn]. rewrite app_nil_r. reflexivity.
Qed.

Lemma read_bits_err n r : RWf r -> (length (view r) < n)%nat -> read_bits n r = Err EIncomplete.
Proof.
  intros H Hn. unfold read_bits. rewrite view_length in Hn by assumption.
  pose proof (need_bounds r n).
  assert (E : Nat.leb (pos r + need r n) (length (data r)) = false).
  { apply Nat.leb_gt. destruct H as (H & _). lia. }
  rewrite E. reflexivity.
Qed.

Lemma read_uint_ok n r : RWf r -> (n <= length (view r))%nat ->
  read_uint n r = Ok (N_of_bits (firstn n (view r)), adv r n).
Proof. intros H Hn. unfold read_uint, bind. rewrite read_bits_ok by assumption. reflexivity. Qed.
Lemma read_uint_err n r : RWf r -> (length (view r) < n)%nat -> read_uint n r = Err EIncomplete.
Proof. intros H Hn. unfold read_uint, bind. rewrite read_bits_err by assumption. reflexivity. Qed.

Lemma view_adv r n : RWf r -> (n <= length (view r))%nat -> view (adv r n) = skipn n (view r).
Proof.
  intros H Hn. rewrite (view_split r (need r n)). unfold view, adv. cbn [left pos data].
  pose proof (taken_length r n H Hn) as Ht. pose proof (need_bounds r n).
  set (A := left r ++ _) in *. rewrite skipn_app, Ht. f_equal.
  replace (n - (length (left r) + 8 * need r n))%nat with 0%nat by lia. reflexivity.
Qed.

Lemma adv_left_length r n : RWf r -> (n <= length (view r))%nat ->
  length (left (adv r n)) = (length (left r) + 8 * need r n - n)%nat.
Proof.
  intros H Hn. unfold adv. cbn [left]. rewrite skipn_length, taken_length by assumption.
  reflexivity.
Qed.

Lemma RWf_adv r n : RWf r -> (n <= length (view r))%nat -> RWf (adv r n).
Proof.
  intros H Hn. pose proof (need_fits r n H Hn). pose proof (need_bounds r n).
  unfold RWf. rewrite adv_left_length by assumption. unfold adv; cbn [pos data].
  destruct H as (G1 & G2 & G3). repeat split; lia.
Qed.

Lemma BP_adv r n : RWf r -> (n <= length (view r))%nat -> BP (adv r n) = (BP r + n)%nat.
Proof.
  intros H Hn. pose proof (need_bounds r n). unfold BP. rewrite adv_left_length by assumption.
  unfold adv; cbn [pos]. destruct H as (G1 & G2 & G3). lia.
Qed.

Lemma skipn_skipn {A} a b (l : list A) : skipn a (skipn b l) = skipn (b + a) l.
Proof.
  revert l. induction b as [|b IH]; intros l; [reflexivity|].
  destruct l; cbn [skipn Nat.add]; [apply skipn_nil|apply IH].
Qed.

Lemma firstn_add {A} a b (l : list A) : firstn (a + b) l = firstn a l ++ firstn b (skipn a l).
Proof.
  revert l. induction a as [|a IH]; intros l; [reflexivity|].
  destruct l; cbn [firstn skipn Nat.add app]; [rewrite firstn_nil; reflexivity|].
  rewrite IH. reflexivity.
Qed.

Lemma need_adv r n m : RWf r -> (n <= length (view r))%nat ->
  (need r n + need (adv r n) m)%nat = need r (n + m).
Proof.
  intros H Hn. pose proof (adv_left_length r n H Hn) as L.
  pose proof (need_bounds r n) as (A & B & C).
  pose proof (need_bounds (adv r n) m) as (A' & B' & C').
  pose proof (need_bounds r (n + m)) as (A'' & B'' & C'').
  rewrite L in *. set (k := need r n) in *. set (k' := need (adv r n) m) in *.
  set (k'' := need r (n + m)) in *. clearbody k k' k''. clear L H Hn.
  destruct (Nat.le_gt_cases n (length (left r))) as [D|D].
  - specialize (C D). subst k.
    destruct (Nat.le_gt_cases (n + m) (length (left r))) as [F|F].
    + specialize (C'' F). specialize (C' ltac:(lia)). lia.
    + lia.
  - lia.
Qed.

Lemma adv_adv r n m : RWf r -> (n <= length (view r))%nat -> adv (adv r n) m = adv r (n + m).
Proof.
  intros H Hn. pose proof (need_adv r n m H Hn) as Hk.
  pose proof (taken_length r n H Hn) as Ht. pose proof (need_bounds r n).
  transitivity (mkRd (data r) (pos r + (need r n + need (adv r n) m))
    (skipn (n + m) (left r ++ bits_of_bytes
       (firstn (need r n + need (adv r n) m) (skipn (pos r) (data r)))))
    (bread r + (n + m))).
  2: { rewrite Hk. reflexivity. }
  unfold adv at 1. generalize (need (adv r n) m) as k'. intros k'.
  unfold adv. cbn [data pos left bread].
  rewrite firstn_add, bits_of_bytes_app, (app_assoc (left r)).
  set (A := left r ++ bits_of_bytes (firstn (need r n) _)) in *.
  rewrite (skipn_skipn (need r n)), <- (skipn_skipn m n (A ++ _)), (skipn_app n A), Ht.
  replace (n - (length (left r) + 8 * need r n))%nat with 0%nat by lia.
  cbn [skipn]. f_equal; lia.
Qed.

(** ** Reading a known bit string *)
Definition prefix {A} (p l : list A) : Prop := exists t, l = p ++ t.

Lemma prefix_length {A} (p l : list A) : prefix p l -> (length p <= length l)%nat.
Proof. intros [t ->]. rewrite app_length. lia. Qed.
Lemma prefix_firstn {A} (p l : list A) : prefix p l -> firstn (length p) l = p.
Proof. intros [t ->]. rewrite firstn_app, Nat.sub_diag, firstn_all. cbn. apply app_nil_r. Qed.
Lemma prefix_app_l {A} (a b l : list A) : prefix (a ++ b) l -> prefix a l.
Proof. intros [t ->]. rewrite <- app_assoc. eexists. reflexivity. Qed.
Lemma prefix_app_r {A} (a b l : list A) : prefix (a ++ b) l -> prefix b (skipn (length a) l).
Proof.
  intros [t ->]. rewrite <- app_assoc, skipn_app, Nat.sub_diag, skipn_all. cbn.
  eexists. reflexivity.
Qed.
Lemma prefix_nil {A} (l : list A) : prefix [] l.
Proof. exists l. reflexivity. Qed.

(** [Reads m bs v]: wherever [bs] is next, [m] returns [v] and consumes exactly [bs]. *)
Definition Reads {A} (m : reader A) (bs : list bool) (v : A) : Prop :=
  forall r, RWf r -> prefix bs (view r) -> m r = Ok (v, adv r (length bs)).

(** The same, when the reader is on a byte boundary. *)
Definition ReadsA {A} (m : reader A) (bs : list bool) (v : A) : Prop :=
  forall r, RWf r -> left r = [] -> prefix bs (view r) -> m r = Ok (v, adv r (length bs)).

Lemma Reads_A {A} (m : reader A) bs v : Reads m bs v -> ReadsA m bs v.
Proof. intros H r Hr _ Hp. apply H; assumption. Qed.

Lemma Reads_ret {A} (v : A) : Reads (ret v) [] v.
Proof. intros r _ _. cbn [length]. rewrite adv_0. reflexivity. Qed.

Lemma Reads_bind {A B} (m : reader A) (f : A -> reader B) a b x y :
  Reads m a x -> Reads (f x) b y -> Reads (bind m f) (a ++ b) y.
Proof.
  intros H1 H2 r Hr Hp. unfold bind.
  pose proof (prefix_app_l _ _ _ Hp) as Ha. pose proof (prefix_length _ _ Ha) as Hl.
  rewrite H1 by assumption.
  rewrite H2.
  - rewrite app_length, adv_adv by assumption. reflexivity.
  - apply RWf_adv; assumption.
  - rewrite view_adv by assumption. apply prefix_app_r with (1 := Hp).
Qed.

Lemma adv_aligned r n : RWf r -> left r = [] -> (8 * n <= length (view r))%nat ->
  adv r (8 * n) = mkRd (data r) (pos r + n) [] (bread r + 8 * n).
Proof.
  intros H Hl Hn. pose proof (need_bounds r (8 * n)) as Hb. rewrite Hl in Hb. cbn [length] in Hb.
  assert (Hk : need r (8 * n) = n) by lia.
  pose proof (adv_left_length r _ H Hn) as E. rewrite Hl, Hk in E. cbn [length] in E.
  replace (0 + 8 * n - 8 * n)%nat with 0%nat in E by lia.
  unfold adv in *. cbn [left] in E. rewrite Hk in *. f_equal.
  apply length_zero_iff_nil. exact E.
Qed.

Lemma ReadsA_bind {A B} (m : reader A) (f : A -> reader B) a b n x y :
  length a = (8 * n)%nat ->
  ReadsA m a x -> ReadsA (f x) b y -> ReadsA (bind m f) (a ++ b) y.
Proof.
  intros Hn H1 H2 r Hr Hal Hp. unfold bind.
  pose proof (prefix_app_l _ _ _ Hp) as Ha. pose proof (prefix_length _ _ Ha) as Hl.
  rewrite H1 by assumption.
  rewrite H2.
  - rewrite app_length, adv_adv by assumption. reflexivity.
  - apply RWf_adv; assumption.
  - rewrite Hn. rewrite adv_aligned; auto. lia.
  - rewrite view_adv by assumption. apply prefix_app_r with (1 := Hp).
Qed.

Lemma Reads_bits bs : Reads (read_bits (length bs)) bs bs.
Proof.
  intros r Hr Hp. rewrite read_bits_ok; [|assumption|apply prefix_length; assumption].
  rewrite prefix_firstn by assumption. reflexivity.
Qed.

Lemma Reads_map {A B} (m : reader A) (f : A -> B) bs x :
  Reads m bs x -> Reads (y <- m ;; ret (f y)) bs (f x).
Proof.
  intros H. rewrite <- (app_nil_r bs). eapply Reads_bind; [exact H|]. apply Reads_ret.
Qed.

Lemma Reads_uint n v : v < 2 ^ N.of_nat n -> Reads (read_uint n) (bits_of n v) v.
Proof.
  intros H. unfold read_uint.
  rewrite <- (N_of_bits_bits_of_small n v H) at 2.
  apply (Reads_map (read_bits n) N_of_bits).
  rewrite <- (bits_of_length n v) at 1. apply Reads_bits.
Qed.

(** ** Writer and reader agree on a value *)
Definition RT {A} (w : writer) (m : reader A) (v : A) : Prop :=
  exists bs, w = Ok bs /\ Reads m bs v.

Lemma RT_nil {A} (v : A) : RT wnil (ret v) v.
Proof. exists []. split; [reflexivity|apply Reads_ret]. Qed.

Lemma RT_bind {A B} w1 w2 (m : reader A) (f : A -> reader B) x y :
  RT w1 m x -> RT w2 (f x) y -> RT (w1 +++ w2) (bind m f) y.
Proof.
  intros (a & -> & Ha) (b & -> & Hb). exists (a ++ b). split; [reflexivity|].
  eapply Reads_bind; eassumption.
Qed.

Lemma RT_last {A B} w (m : reader A) (f : A -> reader B) x y :
  RT w m x -> f x = ret y -> RT w (bind m f) y.
Proof.
  intros (a & -> & Ha) Hf. exists a. split; [reflexivity|].
  rewrite <- (app_nil_r a). eapply Reads_bind; [eassumption|]. rewrite Hf. apply Reads_ret.
Qed.

(** A writer that writes nothing before a reader that reads nothing. *)
Lemma RT_skip_w {A} w (m : reader A) v : RT w m v -> RT (wnil +++ w) m v.
Proof. intros (b & -> & H). exists b. split; [reflexivity|assumption]. Qed.

Lemma RT_uint n v : v < 2 ^ N.of_nat n -> RT (write_uint n v) (read_uint n) v.
Proof. intros H. eexists. split; [reflexivity|]. apply Reads_uint. assumption. Qed.

Lemma RT_u8 v : v < 256 -> RT (write_u8 v) read_u8 v.
Proof. intros H. apply RT_uint. exact H. Qed.
Lemma RT_u16 v : v < 2 ^ 16 -> RT (write_u16be v) read_u16be v.
Proof. intros H. apply RT_uint. exact H. Qed.
Lemma RT_u32 v : v < 2 ^ 32 -> RT (write_u32be v) read_u32be v.
Proof. intros H. apply RT_uint. exact H. Qed.
Lemma RT_u64 v : v < 2 ^ 64 -> RT (write_u64be v) read_u64be v.
Proof. intros H. apply RT_uint. exact H. Qed.

Lemma RT_bool b : RT (write_bool b) read_bool b.
Proof.
  exists [b]. split; [reflexivity|]. unfold read_bool.
  replace b with (negb (b2n b =? 0)) at 2 by (destruct b; reflexivity).
  apply (Reads_map (read_uint 1) (fun x => negb (x =? 0))).
  rewrite <- bits_of_1. apply Reads_uint. destruct b; cbn; lia.
Qed.

Lemma RT_pad n : RT (write_pad n) (skip_bits n) tt.
Proof.
  exists (repeat false n). split; [reflexivity|].
  apply (Reads_map (read_bits n) (fun _ => tt) _ (repeat false n)).
  pose proof (Reads_bits (repeat false n)) as H. rewrite repeat_length in H. exact H.
Qed.

Lemma RT_i8 z : (-128 <= z < 128)%Z -> RT (write_i8 z) read_i8 z.
Proof.
  intros H. unfold write_i8, read_i8.
  eapply RT_last with (x := u8_of_i8 z).
  - apply RT_u8. unfold u8_of_i8. pose proof (Z.mod_pos_bound z 256). lia.
  - f_equal. unfold i8_of_u8, u8_of_i8.
    destruct (Z.lt_ge_cases z 0) as [Hz|Hz].
    + replace (z mod 256)%Z with (z + 256)%Z by divlia.
      destruct (N.ltb_spec (Z.to_N (z + 256)) 128); lia.
    + replace (z mod 256)%Z with z by divlia.
      destruct (N.ltb_spec (Z.to_N z) 128); lia.
Qed.

Lemma RT_enum {A} n (f : N -> option A) id (v : A) :
  id < 2 ^ N.of_nat n -> f id = Some v -> RT (write_uint n id) (read_enum n f) v.
Proof.
  intros H Hf. unfold read_enum. eapply RT_last; [apply RT_uint; exact H|].
  cbv beta. rewrite Hf. reflexivity.
Qed.

Lemma RT_list {A} (w : A -> writer) (m : reader A) l :
  Forall (fun x => RT (w x) m x) l -> RT (write_list w l) (read_list (length l) m) l.
Proof.
  induction l as [|x l IH]; intros H; cbn [write_list read_list length].
  - apply RT_nil.
  - apply Forall_cons_iff in H as [Hx Hl]. eapply RT_bind; [exact Hx|].
    eapply RT_last; [apply IH; assumption|]. reflexivity.
Qed.

Lemma RT_bytes n l : length l = n -> bytes l -> RT (write_list write_u8 l) (read_list n read_u8) l.
Proof.
  intros <- H. apply RT_list. eapply Forall_impl; [|exact H]. intros a Ha. apply RT_u8. exact Ha.
Qed.

Lemma RT_opt {A} (w : A -> writer) (m : reader A) c o :
  (c = match o with Some _ => true | None => false end) ->
  (forall x, o = Some x -> RT (w x) m x) ->
  RT (write_opt w o) (read_cond c m) o.
Proof.
  intros -> H. destruct o as [x|]; cbn [write_opt read_cond].
  - eapply RT_last; [apply H; reflexivity|]. reflexivity.
  - apply RT_nil.
Qed.

Lemma write_bytes l : write_list write_u8 l = Ok (bits_of_bytes l).
Proof.
  induction l as [|x l IH]; [reflexivity|].
  cbn [write_list]. rewrite IH. reflexivity.
Qed.

Lemma RT_vec_u8 n l : N.of_nat (length l) = n -> bytes l ->
  RT (write_vec_u8 l) (read_vec_u8 n) l.
Proof.
  intros Hn H. destruct (RT_bytes (length l) l eq_refl H) as (b & Hb & Hr).
  exists b. split; [exact Hb|]. intros r Hw Hp. unfold read_vec_u8.
  assert (E : (8 * n <=? N.of_nat (length (view r))) = true).
  { apply prefix_length in Hp. rewrite write_bytes in Hb. injection Hb as <-.
    rewrite bits_of_bytes_length in Hp. lia. }
  rewrite E. subst n. rewrite Nat2N.id. apply Hr; assumption.
Qed.

(** The guard of [read_vec_u8] changes nothing: reading one byte after the other runs out of
    input in exactly the same cases. *)
Lemma read_list_u8_short n r : RWf r -> (length (view r) < 8 * n)%nat ->
  read_list n read_u8 r = Err EIncomplete.
Proof.
  revert r. induction n as [|n IH]; intros r Hr H; [lia|].
  cbn [read_list]. unfold bind.
  destruct (Nat.lt_ge_cases (length (view r)) 8) as [Hs|Hs].
  - unfold read_u8 at 1. rewrite read_uint_err by assumption. reflexivity.
  - unfold read_u8 at 1. rewrite read_uint_ok by assumption. rewrite (IH (adv r 8)).
    + reflexivity.
    + apply RWf_adv; assumption.
    + rewrite view_adv by assumption. rewrite skipn_length. lia.
Qed.

Lemma read_vec_u8_unguarded n r : RWf r -> read_vec_u8 n r = read_list (N.to_nat n) read_u8 r.
Proof.
  intros Hr. unfold read_vec_u8.
  destruct (N.leb_spec (8 * n) (N.of_nat (length (view r)))) as [H|H]; [reflexivity|].
  rewrite read_list_u8_short; [reflexivity|assumption|lia].
Qed.

(** native integers *)
Lemma to_host_length {E : Env} k v : length (to_host k v) = k.
Proof. unfold to_host, le_bytes. destruct e_host; rewrite ?rev_length, be_bytes_length; reflexivity. Qed.
Lemma to_host_bytes {E : Env} k v : bytes (to_host k v).
Proof.
  unfold to_host, le_bytes. destruct e_host; [apply Forall_rev|]; apply be_bytes_bytes.
Qed.
Lemma of_host_to_host {E : Env} k v : v < 256 ^ N.of_nat k -> of_host (to_host k v) = v.
Proof.
  intros H. unfold of_host, to_host, N_of_le, le_bytes.
  destruct e_host; rewrite ?rev_involutive, N_of_be_be; apply N.mod_small; assumption.
Qed.
Lemma to_host_of_host {E : Env} l : bytes l -> to_host (length l) (of_host l) = l.
Proof.
  intros H. unfold of_host, to_host, N_of_le, le_bytes.
  destruct e_host; [|apply be_N_of_be; assumption].
  rewrite <- (rev_length l), be_N_of_be by (apply Forall_rev; assumption). apply rev_involutive.
Qed.
Lemma RT_native {E : Env} k v : v < 256 ^ N.of_nat k -> RT (write_native k v) (read_native k) v.
Proof.
  intros H. eexists. split; [reflexivity|]. unfold read_native.
  rewrite <- (of_host_to_host k v H) at 2.
  rewrite <- (bytes_of_bits_of_bytes (to_host k v)) by apply to_host_bytes.
  rewrite (bytes_of_bits_of_bytes (to_host k v)) at 1 by apply to_host_bytes.
  apply (Reads_map (read_bits (8 * k)) (fun l => of_host (bytes_of_bits l))).
  rewrite <- (to_host_length k v) at 1. rewrite <- bits_of_bytes_length. apply Reads_bits.
Qed.

(** ** Aligned version *)
Definition RTA {A} (w : writer) (m : reader A) (v : A) : Prop :=
  exists bs, w = Ok bs /\ ReadsA m bs v.
Lemma RT_A {A} w (m : reader A) v : RT w m v -> RTA w m v.
Proof. intros (b & Hb & H). exists b. split; [exact Hb|apply Reads_A; assumption]. Qed.

(** [w1] writes [8 * n] bits. *)
Lemma RTA_bind {A B} w1 w2 (m : reader A) (f : A -> reader B) b n x y :
  w1 = Ok b -> length b = (8 * n)%nat ->
  RTA w1 m x -> RTA w2 (f x) y -> RTA (w1 +++ w2) (bind m f) y.
Proof.
  intros -> Hn (a & Ha & H1) (c & -> & H2). injection Ha as <-. exists (b ++ c).
  split; [reflexivity|]. eapply ReadsA_bind; eassumption.
Qed.
Lemma RTA_last {A B} w (m : reader A) (f : A -> reader B) x y :
  RTA w m x -> f x = ret y -> RTA w (bind m f) y.
Proof.
  intros (a & -> & Ha) Hf. exists a. split; [reflexivity|].
  intros r Hr Hl Hp. unfold bind. rewrite Ha by assumption. rewrite Hf. reflexivity.
Qed.
