(** What every reader guarantees on every input: no panic, the value is well formed, the input is
    consumed from the front only, and more input behind it changes nothing. *)
From Coq Require Import List NArith ZArith Bool Lia ZifyBool ZifyNat ZifyN Arith.
From Verif Require Import Base Deku Utils Types Physical Link Network Session Data Query
  Interface File Operation WellFormed LBits LReader LTypes LUtf8 LApi.
Import ListNotations.
Open Scope N_scope.

(** The same state in front of a longer stream. *)
Definition ext (r : rd) (e : list N) : rd := mkRd (data r ++ e) (pos r) (left r) (bread r).

Definition Nice {A} (k : nat) (m : reader A) (P : A -> Prop) : Prop :=
  forall r, RWf r ->
  match m r with
  | Ok (v, r') => P v /\ RWf r' /\ data r' = data r /\ (BP r + k <= BP r')%nat /\
                  forall e, m (ext r e) = Ok (v, ext r' e)
  | Err e => e <> EFuel /\ (e <> EIncomplete -> forall x, m (ext r x) = Err e)
  | Panic => False
  end.

Lemma RWf_ext r e : RWf r -> RWf (ext r e).
Proof. unfold RWf, ext. cbn [data pos left]. rewrite app_length. lia. Qed.

Lemma Nice_weaken {A} k k' (m : reader A) (P Q : A -> Prop) :
  Nice k m P -> (k' <= k)%nat -> (forall v, P v -> Q v) -> Nice k' m Q.
Proof.
  intros H Hk HPQ r Hr. specialize (H r Hr). destruct (m r) as [[v r']| |]; auto.
  destruct H as (H1 & H2 & H3 & H4 & H5).
  split; [auto|]. split; [exact H2|]. split; [exact H3|]. split; [lia|exact H5].
Qed.
Lemma Nice_0 {A} k (m : reader A) P : Nice k m P -> Nice 0 m P.
Proof. intros H. eapply Nice_weaken; [exact H|lia|auto]. Qed.

Lemma Nice_ret {A} (v : A) (P : A -> Prop) : P v -> Nice 0 (ret v) P.
Proof.
  intros H r Hr. cbn. split; [exact H|]. split; [exact Hr|]. split; [reflexivity|]. split; [lia|].
  intros e. reflexivity.
Qed.
Lemma Nice_fail {A} e (P : A -> Prop) : e <> EFuel -> Nice 0 (fail e) P.
Proof. intros H r Hr. split; [exact H|]. reflexivity. Qed.
Lemma incomplete {A} (f : list N -> res A) (e : derr) :
  e = EIncomplete -> e <> EFuel /\ (e <> EIncomplete -> forall x, f x = Err e).
Proof. intros ->. split; [discriminate|]. intros H. contradiction H. reflexivity. Qed.

Lemma Nice_bindk {A B} k1 k2 (m : reader A) (f : A -> reader B) P Q :
  Nice k1 m P -> (forall x, P x -> Nice k2 (f x) Q) -> Nice (k1 + k2) (bind m f) Q.
Proof.
  intros Hm Hf r Hr. unfold bind. specialize (Hm r Hr). destruct (m r) as [[x r1]|er|]; auto.
  2: { destruct Hm as (F1 & F2). split; [exact F1|]. intros Hi y. rewrite (F2 Hi). reflexivity. }
  destruct Hm as (Hx & Hr1 & D1 & B1 & X1). specialize (Hf x Hx r1 Hr1).
  destruct (f x r1) as [[y r2]|er|]; auto.
  2: { destruct Hf as (F1 & F2). split; [exact F1|]. intros Hi y. rewrite X1. apply F2. exact Hi. }
  destruct Hf as (Hy & Hr2 & D2 & B2 & X2).
  split; [exact Hy|]. split; [exact Hr2|]. split; [congruence|]. split; [lia|].
  intros e. rewrite X1, X2. reflexivity.
Qed.
Lemma Nice_bind {A B} (m : reader A) (f : A -> reader B) P Q :
  Nice 0 m P -> (forall x, P x -> Nice 0 (f x) Q) -> Nice 0 (bind m f) Q.
Proof. intros. eapply (Nice_bindk 0 0); eassumption. Qed.

Lemma fresh_ext r e k : (pos r + k <= length (data r))%nat ->
  firstn k (skipn (pos r) (data r ++ e)) = firstn k (skipn (pos r) (data r)).
Proof.
  intros H. rewrite skipn_app, firstn_app, skipn_length.
  replace (k - (length (data r) - pos r))%nat with 0%nat by lia. cbn [firstn]. apply app_nil_r.
Qed.
Lemma adv_ext r e n : RWf r -> (n <= length (view r))%nat -> adv (ext r e) n = ext (adv r n) e.
Proof.
  intros Hr L. pose proof (need_fits r n Hr L) as K. destruct Hr as (R1 & _).
  unfold adv, ext. cbn [data pos left bread].
  assert (En : need (mkRd (data r ++ e) (pos r) (left r) (bread r)) n = need r n) by reflexivity.
  rewrite En, fresh_ext by lia. reflexivity.
Qed.
Lemma view_ext r e : RWf r -> view (ext r e) = view r ++ bits_of_bytes e.
Proof.
  intros (R1 & _). unfold view, ext. cbn [data pos left].
  rewrite skipn_app. replace (pos r - length (data r))%nat with 0%nat by lia. cbn [skipn].
  rewrite bits_of_bytes_app, app_assoc. reflexivity.
Qed.

Lemma Nice_bits n : Nice n (read_bits n) (fun l => length l = n).
Proof.
  intros r Hr. destruct (Nat.le_gt_cases n (length (view r))) as [L|L].
  - rewrite read_bits_ok by assumption. split; [apply firstn_length_le; exact L|].
    split; [apply RWf_adv; assumption|]. split; [reflexivity|]. split; [rewrite BP_adv by assumption; lia|].
    intros e. rewrite read_bits_ok.
    + rewrite adv_ext, view_ext by assumption. rewrite firstn_app.
      replace (n - length (view r))%nat with 0%nat by lia. cbn [firstn]. rewrite app_nil_r. reflexivity.
    + apply RWf_ext. exact Hr.
    + rewrite view_ext by assumption. rewrite app_length. lia.
  - rewrite read_bits_err by assumption. apply incomplete. reflexivity.
Qed.

Create HintDb nice.

(** Base readers *)
Lemma Nice_skip n : Nice n (skip_bits n) (fun _ => True).
Proof.
  unfold skip_bits. replace n with (n + 0)%nat at 1 by lia.
  eapply Nice_bindk; [apply Nice_bits|]. intros. apply Nice_ret. exact I.
Qed.
Lemma Nice_uint n : Nice n (read_uint n) (fun v => v < 2 ^ N.of_nat n).
Proof.
  unfold read_uint. replace n with (n + 0)%nat at 1 by lia.
  eapply Nice_bindk; [apply Nice_bits|]. intros l Hl. apply Nice_ret. rewrite <- Hl. apply N_of_bits_lt.
Qed.
Lemma Nice_skip0 n : Nice 0 (skip_bits n) (fun _ => True).
Proof. eapply Nice_0, Nice_skip. Qed.
Lemma Nice_uint0 n : Nice 0 (read_uint n) (fun v => v < 2 ^ N.of_nat n).
Proof. eapply Nice_0, Nice_uint. Qed.
Lemma Nice_uint_is n b : b = 2 ^ N.of_nat n -> Nice 0 (read_uint n) (fun v => v < b).
Proof. intros ->. apply Nice_uint0. Qed.
Lemma Nice_u8 : Nice 0 read_u8 u8.
Proof. apply Nice_uint_is. reflexivity. Qed.
Lemma Nice_u16 : Nice 0 read_u16be u16.
Proof. apply Nice_uint_is. reflexivity. Qed.
Lemma Nice_u32 : Nice 0 read_u32be u32.
Proof. apply Nice_uint_is. reflexivity. Qed.
Lemma Nice_u64 : Nice 0 read_u64be u64.
Proof. apply Nice_uint_is. reflexivity. Qed.
Lemma Nice_bool1 : Nice 1 read_bool (fun _ => True).
Proof.
  unfold read_bool. change 1%nat with (1 + 0)%nat. eapply Nice_bindk; [apply Nice_uint|].
  intros. apply Nice_ret. exact I.
Qed.
Lemma Nice_bool : Nice 0 read_bool (fun _ => True).
Proof. eapply Nice_0, Nice_bool1. Qed.
#[export] Hint Resolve Nice_skip0 Nice_u8 Nice_u16 Nice_u32 Nice_u64 Nice_bool : nice.

Lemma Nice_i8 : Nice 0 read_i8 i8.
Proof.
  unfold read_i8. eapply Nice_bind; [apply Nice_u8|]. intros x Hx. apply Nice_ret.
  unfold i8, i8_of_u8, u8 in *. destruct (N.ltb_spec x 128); lia.
Qed.
Lemma bytes_of_bits_is l k : length l = (8 * k)%nat -> wf_fixed k (bytes_of_bits l).
Proof. intros H. split; [apply bytes_of_bits_bytes|apply bytes_of_bits_length; exact H]. Qed.
Lemma of_host_lt {E : Env} l : bytes l -> of_host l < 256 ^ N.of_nat (length l).
Proof.
  intros H. unfold of_host, N_of_le. destruct e_host; [|apply N_of_be_lt; exact H].
  rewrite <- rev_length. apply N_of_be_lt, Forall_rev. exact H.
Qed.
Lemma Nice_native {E : Env} k b : b = 256 ^ N.of_nat k -> Nice 0 (read_native k) (fun v => v < b).
Proof.
  intros ->. unfold read_native. eapply Nice_bind; [eapply Nice_0, Nice_bits|]. intros l Hl. apply Nice_ret.
  destruct (bytes_of_bits_is l k Hl) as (H1 & H2). rewrite <- H2. apply of_host_lt. exact H1.
Qed.
Lemma Nice_list {A} n (m : reader A) P : Nice 0 m P -> Nice 0 (read_list n m) (fun l => Forall P l /\ length l = n).
Proof.
  intros H. induction n as [|n IH]; cbn [read_list].
  - apply Nice_ret. split; [constructor|reflexivity].
  - eapply Nice_bind; [exact H|]. intros x Hx. eapply Nice_bind; [exact IH|]. intros l (H1 & H2).
    apply Nice_ret. split; [constructor; assumption|cbn; congruence].
Qed.
Lemma Nice_fixed n : Nice 0 (read_list n read_u8) (wf_fixed n).
Proof. apply (Nice_list n read_u8 u8), Nice_u8. Qed.
Lemma Nice_vec n : Nice 0 (read_vec_u8 n) (fun l => bytes l /\ N.of_nat (length l) = n).
Proof.
  intros r Hr. unfold read_vec_u8.
  assert (V : forall e, (length (view r) <= length (view (ext r e)))%nat).
  { intros e. rewrite view_ext, app_length by exact Hr. lia. }
  destruct (N.leb_spec (8 * n) (N.of_nat (length (view r)))) as [H|H]; [|apply incomplete; reflexivity].
  pose proof (Nice_fixed (N.to_nat n) r Hr) as G.
  destruct (read_list (N.to_nat n) read_u8 r) as [[v r']|er|]; auto.
  2: { destruct G as (F1 & F2). split; [exact F1|]. intros Hi y. specialize (V y).
       destruct (N.leb_spec (8 * n) (N.of_nat (length (view (ext r y))))); [apply F2; exact Hi|lia]. }
  destruct G as ((G1 & G2) & G3 & G4 & G5 & G6). split; [split; [exact G1|lia]|].
  split; [exact G3|]. split; [exact G4|]. split; [exact G5|]. intros e.
  rewrite view_ext by exact Hr. rewrite app_length.
  destruct (N.leb_spec (8 * n) (N.of_nat (length (view r) + length (bits_of_bytes e)))); [apply G6|lia].
Qed.
Lemma Nice_cond {A} c (m : reader A) P : Nice 0 m P ->
  Nice 0 (read_cond c m) (fun o => match o with Some x => c = true /\ P x | None => c = false end).
Proof.
  intros H. unfold read_cond. destruct c.
  - eapply Nice_bind; [exact H|]. intros x Hx. apply Nice_ret. auto.
  - apply Nice_ret. reflexivity.
Qed.
Lemma Nice_enum {A} n (f : N -> option A) : Nice n (read_enum n f) (fun _ => True).
Proof.
  unfold read_enum. replace n with (n + 0)%nat at 1 by lia. eapply Nice_bindk; [apply Nice_uint|].
  intros x _. cbv beta. destruct (f x); [apply Nice_ret; exact I|apply Nice_fail; discriminate].
Qed.
Lemma Nice_enum0 {A} n (f : N -> option A) : Nice 0 (read_enum n f) (fun _ => True).
Proof. eapply Nice_0, Nice_enum. Qed.
#[export] Hint Resolve Nice_i8 Nice_fixed Nice_vec Nice_cond Nice_enum0 : nice.

Ltac nstep := first
  [ eapply Nice_bind; [solve [eauto 3 with nice]|cbv beta; intros ? ?]
  | apply Nice_ret | apply Nice_fail; discriminate ].
Ltac nice := repeat nstep.
Ltac done := cbn; repeat match goal with |- _ /\ _ => split end; cbn; auto; try (intuition fail); try tauto.

Lemma Nice_varint : Nice 0 read_varint wf_varint.
Proof.
  unfold read_varint. eapply Nice_bind; [apply (Nice_uint_is 3 8); reflexivity|]. intros e He.
  eapply Nice_bind; [apply (Nice_uint_is 5 32); reflexivity|]. intros m Hm. cbv beta in *.
  rewrite decompress_ok by assumption. apply Nice_ret. split; [reflexivity|]. exists e, m. auto.
Qed.
Lemma Nice_length : Nice 0 read_length wf_length.
Proof.
  unfold read_length. eapply Nice_bind; [apply (Nice_uint_is 2 4); reflexivity|]. intros k Hk. cbv beta in *.
  eapply Nice_weaken; [apply Nice_uint0|lia|]. cbv beta. intros v Hv. unfold wf_length.
  rewrite N2Nat.id in Hv. eapply N.lt_le_trans; [exact Hv|]. apply N.pow_le_mono_r; lia.
Qed.
#[export] Hint Resolve Nice_varint Nice_length : nice.
Lemma Nice_file_offset : Nice 0 read_file_offset wf_file_offset.
Proof. unfold read_file_offset. nice. split; assumption. Qed.

(** physical, link *)
Lemma Nice_channel_header : Nice 0 read_channel_header (fun _ => True).
Proof. unfold read_channel_header, read_channel_band, read_channel_class, read_channel_coding. nice. exact I. Qed.
#[export] Hint Resolve Nice_file_offset Nice_channel_header : nice.
Lemma Nice_channel : Nice 0 read_channel wf_channel.
Proof. unfold read_channel. nice. assumption. Qed.
Lemma Nice_csi : Nice 0 read_channel_status_identifier (fun v => csi_index v < 2 ^ 11).
Proof.
  unfold read_channel_status_identifier, read_channel_band, read_bandwidth. nice.
  eapply Nice_bind; [apply (Nice_uint_is 11 (2 ^ 11)); reflexivity|]. intros. apply Nice_ret. assumption.
Qed.
#[export] Hint Resolve Nice_channel Nice_csi : nice.
Lemma Nice_channel_status : Nice 0 read_channel_status wf_channel_status.
Proof. unfold read_channel_status. nice. split; assumption. Qed.
Lemma Nice_sub_band : Nice 0 read_sub_band wf_sub_band.
Proof. unfold read_sub_band. nice. unfold wf_sub_band. cbn. auto. Qed.
Lemma Nice_sub_profile : Nice 0 read_sub_profile wf_sub_profile.
Proof. unfold read_sub_profile. nice. split; assumption. Qed.
Lemma Nice_access_class : Nice 0 read_access_class wf_access_class.
Proof.
  unfold read_access_class. eapply Nice_bind; [apply (Nice_uint_is 4 16); reflexivity|]. intros.
  eapply Nice_bind; [apply (Nice_uint_is 4 16); reflexivity|]. intros. apply Nice_ret. split; assumption.
Qed.
#[export] Hint Resolve Nice_channel_status Nice_sub_band Nice_sub_profile Nice_access_class : nice.
Lemma Nice_access_profile : Nice 0 read_access_profile wf_access_profile.
Proof.
  unfold read_access_profile, read_array. nice.
  eapply Nice_bind; [apply Nice_list, Nice_sub_profile|]. intros p (P1 & P2).
  eapply Nice_bind; [apply Nice_list, Nice_sub_band|]. intros b (B1 & B2).
  apply Nice_ret. unfold wf_access_profile. cbn [ap_sub_profiles ap_sub_bands]. auto.
Qed.

(** network *)
Lemma Nice_address t : Nice 0 (read_address t) (fun a => address_matches t a /\ wf_address a).
Proof. destruct t; cbn [read_address]; nice; cbn; auto. Qed.
Lemma Nice_nls_state m : Nice 0 (read_nls_state m) (fun s => nls_matches m s /\ wf_nls_state s).
Proof. destruct m; cbn [read_nls_state]; nice; cbn; auto. Qed.
#[export] Hint Resolve Nice_access_profile Nice_address Nice_nls_state : nice.
Lemma Nice_addressee {E : Env} : Nice 0 read_addressee wf_addressee.
Proof.
  unfold read_addressee.
  eapply Nice_bind with (P := fun g => e_feat = Wizzilab \/ g = GcAny).
  { unfold is_wizzilab. destruct e_feat; unfold read_group_condition.
    - nice. auto.
    - nice. auto.
    - eapply Nice_weaken; [apply Nice_enum0|lia|auto]. }
  intros g Hg. eapply Nice_bind; [apply Nice_enum0|]. intros t _.
  eapply Nice_bind with (P := fun u => e_feat = Wizzilab \/ u = false).
  { unfold is_wizzilab. destruct e_feat; nice; auto.
    eapply Nice_weaken; [apply Nice_bool|lia|auto]. }
  intros u Hu. eapply Nice_bind; [apply Nice_enum0|]. intros n _. nice.
  unfold wf_addressee. cbn [ad_group ad_type ad_use_vid ad_nls ad_access ad_address ad_state]. tauto.
Qed.
#[export] Hint Resolve Nice_addressee : nice.

(** session *)
Lemma Nice_id_unit_after {E : Env} : Nice 8 (x <- read_u8 ;; ret x) u8.
Proof.
  change 8%nat with (8 + 0)%nat. eapply Nice_bindk; [apply Nice_uint|]. intros x Hx. apply Nice_ret. exact Hx.
Qed.
Lemma Nice_qos : Nice 0 read_qos (fun _ => True).
Proof. unfold read_qos, read_retry_mode, read_response_mode. nice. exact I. Qed.
#[export] Hint Resolve Nice_qos : nice.
Lemma Nice_dash7_status {E : Env} : Nice 0 read_dash7_status wf_dash7_status.
Proof. unfold read_dash7_status. nice. unfold wf_dash7_status. cbn. tauto. Qed.
#[export] Hint Resolve Nice_dash7_status : nice.
