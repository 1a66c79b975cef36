(** LNice.v continued: operands and actions. *)
From Coq Require Import List NArith ZArith Bool Lia ZifyBool ZifyNat ZifyN Arith.
From Verif Require Import Base Deku Utils Types Physical Link Network Session Data Query
  Interface File Operation Action WellFormed SpecLayout SpecAction LBits LReader LTypes LUtf8 LLayout LApi LAction LNice
  LNiceFile.
Import ListNotations.
Open Scope N_scope.

Definition NiceR {A} (k : nat) (m : reader A) (P : A -> Prop) (r : rd) : Prop :=
  match m r with
  | Ok (v, r') => P v /\ RWf r' /\ data r' = data r /\ (BP r + k <= BP r')%nat /\
                  forall e, m (ext r e) = Ok (v, ext r' e)
  | Err e => e <> EFuel /\ (e <> EIncomplete -> forall x, m (ext r x) = Err e)
  | Panic => False
  end.
Lemma Nice_R {A} k (m : reader A) P r : Nice k m P -> RWf r -> NiceR k m P r.
Proof. intros H Hr. exact (H r Hr). Qed.
Lemma NiceR_weaken {A} k k' (m : reader A) (P Q : A -> Prop) r :
  NiceR k m P r -> (k' <= k)%nat -> (forall v, P v -> Q v) -> NiceR k' m Q r.
Proof.
  unfold NiceR. intros H Hk HPQ. destruct (m r) as [[v r']| |]; auto.
  destruct H as (H1 & H2 & H3 & H4 & H5).
  split; [auto|]. split; [exact H2|]. split; [exact H3|]. split; [lia|exact H5].
Qed.
Lemma NiceR_bind {A B} k1 k2 (m : reader A) (f : A -> reader B) P Q r :
  NiceR k1 m P r ->
  (forall x r1, m r = Ok (x, r1) -> (forall e, m (ext r e) = Ok (x, ext r1 e)) -> P x -> RWf r1 ->
     data r1 = data r -> NiceR k2 (f x) Q r1) ->
  NiceR (k1 + k2) (bind m f) Q r.
Proof.
  intros Hm Hf. unfold NiceR, bind in *. destruct (m r) as [[x r1]|er|]; auto.
  2: { destruct Hm as (F1 & F2). split; [exact F1|]. intros Hi y. rewrite (F2 Hi). reflexivity. }
  destruct Hm as (Hx & Hr1 & D1 & B1 & X1). specialize (Hf x r1 eq_refl X1 Hx Hr1 D1).
  destruct (f x r1) as [[y r2]|er|]; auto.
  2: { destruct Hf as (F1 & F2). split; [exact F1|]. intros Hi y. rewrite X1. apply F2. exact Hi. }
  destruct Hf as (Hy & Hr2 & D2 & B2 & X2).
  split; [exact Hy|]. split; [exact Hr2|]. split; [congruence|]. split; [lia|].
  intros e. rewrite X1, X2. reflexivity.
Qed.
Lemma NiceR_ret {A} (v : A) (P : A -> Prop) r : RWf r -> P v -> NiceR 0 (ret v) P r.
Proof. intros Hr H. apply Nice_R; [apply Nice_ret; exact H|exact Hr]. Qed.

(** On a byte boundary. *)
Definition NiceA {A} (m : reader A) (P : A -> Prop) : Prop :=
  forall r, RWf r -> left r = [] -> NiceR 0 m P r.
Lemma Nice_A {A} (m : reader A) P : Nice 0 m P -> NiceA m P.
Proof. intros H r Hr _. apply Nice_R; assumption. Qed.

Lemma read_u8_aligned r x r1 : RWf r -> left r = [] -> read_u8 r = Ok (x, r1) ->
  r1 = mkRd (data r) (S (pos r)) [] (bread r + 8) /\ (8 <= length (view r))%nat /\ x < 256.
Proof.
  intros Hr Hl H. destruct (view_bits_bound 8 r x r1 Hr H) as (L & -> & _ & B).
  pose proof (adv_aligned r 1 Hr Hl L) as Ea. change (8 * 1)%nat with 8%nat in Ea. rewrite Ea.
  replace (pos r + 1)%nat with (S (pos r)) by lia. auto.
Qed.
Lemma id_unit_aligned {E : Env} r x r1 : RWf r -> left r = [] -> read_u8 r = Ok (x, r1) ->
  read_id_unit r1 = Ok (tt, if e_rewind then r else r1).
Proof.
  intros Hr Hl H. destruct (read_u8_aligned _ _ _ Hr Hl H) as (-> & _). unfold read_id_unit.
  destruct e_rewind; [|reflexivity]. unfold seek_last_read8. cbn [pos data bread].
  replace (bread r + 8 - 8)%nat with (bread r) by lia. destruct r as [d p l b]. cbn in *. subst l. reflexivity.
Qed.
Lemma id_field_aligned {E : Env} r x r1 : RWf r -> left r = [] -> read_u8 r = Ok (x, r1) ->
  read_id_field x r1 = Ok (x, r1).
Proof.
  intros Hr Hl H. pose proof (id_unit_aligned r x r1 Hr Hl H) as U. unfold read_id_field, read_id_unit in *.
  destruct e_rewind; [|reflexivity]. unfold bind. rewrite U. exact H.
Qed.

Lemma NiceA_interface_config {E : Env} : NiceA read_interface_config wf_interface_config.
Proof.
  intros r Hr Hl. change 0%nat with (0 + 0)%nat. unfold read_interface_config.
  eapply NiceR_bind; [apply Nice_R; [apply Nice_u8|exact Hr]|]. intros x r1 Hx Xx Hu Hr1 D1. cbn [assoc].
  destruct (N.eqb_spec x 0); [apply NiceR_ret; [exact Hr1|exact I]|].
  destruct (N.eqb_spec x 1); [apply NiceR_ret; [exact Hr1|exact I]|].
  destruct (N.eqb_spec x 2); [apply Nice_R; [eapply Nice_map; [apply Nice_abp|auto]|exact Hr1]|].
  destruct (N.eqb_spec x 3); [apply Nice_R; [eapply Nice_map; [apply Nice_otaa|auto]|exact Hr1]|].
  destruct (N.eqb_spec x 0xD7); [apply Nice_R; [eapply Nice_map; [apply Nice_dash7_config|auto]|exact Hr1]|].
  unfold NiceR, bind. rewrite (id_field_aligned r x r1 Hr Hl Hx). cbn [ret].
  split. { split; [exact Hu|]. cbn. intuition congruence. }
  split; [exact Hr1|]. split; [reflexivity|]. split; [lia|]. intros e.
  rewrite (id_field_aligned (ext r e) x (ext r1 e)); [reflexivity|apply RWf_ext; exact Hr|exact Hl|apply Xx].
Qed.
Lemma NiceA_indirect_interface {E : Env} : NiceA read_indirect_interface wf_indirect_interface.
Proof.
  intros r Hr Hl. change 0%nat with (0 + 0)%nat. unfold read_indirect_interface.
  eapply NiceR_bind; [apply Nice_R; [apply Nice_u8|exact Hr]|]. intros x r1 Hx Xx Hu Hr1 D1. cbn [assoc].
  destruct (N.eqb_spec x 0); [apply NiceR_ret; [exact Hr1|exact I]|].
  destruct (N.eqb_spec x 1); [apply NiceR_ret; [exact Hr1|exact I]|].
  destruct (N.eqb_spec x 0xD7); [apply Nice_R; [eapply Nice_map; [apply Nice_addressee|auto]|exact Hr1]|].
  unfold NiceR, bind. rewrite (id_field_aligned r x r1 Hr Hl Hx). cbn [ret].
  split. { split; [exact Hu|]. cbn. intuition congruence. }
  split; [exact Hr1|]. split; [reflexivity|]. split; [lia|]. intros e.
  rewrite (id_field_aligned (ext r e) x (ext r1 e)); [reflexivity|apply RWf_ext; exact Hr|exact Hl|apply Xx].
Qed.
Lemma NiceA_interface_type {E : Env} : NiceA read_interface_type (fun _ => True).
Proof.
  intros r Hr Hl. unfold read_interface_type, NiceR, bind.
  pose proof (Nice_u8 r Hr) as H. destruct (read_u8 r) as [[x r1]|er|] eqn:Hx; [| |exact H].
  2: { destruct H as (F1 & F2). split; [exact F1|]. intros Hi y. rewrite (F2 Hi). reflexivity. }
  destruct H as (Hu & Hr1 & D1 & B1 & X1).
  destruct (assoc x interface_type_tbl) eqn:Ha.
  - cbn [ret]. split; [exact I|]. split; [exact Hr1|]. split; [exact D1|]. split; [lia|].
    intros e. rewrite X1, Ha. reflexivity.
  - rewrite (id_unit_aligned r x r1 Hr Hl Hx). cbn [ret]. split; [exact I|].
    assert (G : forall e, match read_u8 (ext r e) with
      | Ok (a, r') => match assoc a interface_type_tbl with
        | Some v => ret v
        | None => fun r0 => match read_id_unit r0 with
            | Ok (_, r'0) => ret ItUnknown r'0 | Err e0 => Err e0 | Panic => Panic end end r'
      | Err e0 => Err e0 | Panic => Panic end = Ok (ItUnknown, ext (if e_rewind then r else r1) e)).
    { intros e. rewrite X1, Ha.
      rewrite (id_unit_aligned (ext r e) x (ext r1 e)); [|apply RWf_ext; exact Hr|exact Hl|apply X1].
      destruct e_rewind; reflexivity. }
    destruct e_rewind.
    + split; [exact Hr|]. split; [reflexivity|]. split; [lia|exact G].
    + split; [exact Hr1|]. split; [exact D1|]. split; [lia|exact G].
Qed.

Lemma NiceA_itf_status_op {E : Env} :
  NiceA read_itf_status_op (fun v => wf_itf_status_op v \/ unknown_itf_status v).
Proof.
  intros r Hr Hl. unfold read_itf_status_op. change 0%nat with (0 + 0)%nat.
  eapply NiceR_bind; [apply NiceA_interface_type; assumption|]. intros t r1 _ _ _ Hr1 _.
  apply Nice_R; [|exact Hr1]. eapply Nice_bind; [apply Nice_length|]. intros l Hw.
  destruct t; cbn [read_interface_status].
  - eapply Nice_bind with (P := fun s => s = IsHost); [apply Nice_ret; reflexivity|]. intros ? ->.
    apply Nice_ret. left. exact I.
  - eapply Nice_bind with (P := fun s => s = IsSerial); [apply Nice_ret; reflexivity|]. intros ? ->.
    apply Nice_ret. left. exact I.
  - eapply Nice_bind with (P := fun _ => False); [apply Nice_fail; discriminate|]. contradiction.
  - eapply Nice_bind with (P := fun _ => False); [apply Nice_fail; discriminate|]. contradiction.
  - eapply Nice_bind with (P := fun s => exists v, s = IsDash7 v /\ wf_dash7_status v).
    { eapply Nice_map; [apply Nice_dash7_status|]. eauto. }
    intros ? (v & -> & Hv). apply Nice_ret. left. exact Hv.
  - eapply Nice_bind with (P := fun s => exists k, s = IsOther k /\ wf_payload k).
    { eapply Nice_map; [apply Nice_vec|]. cbv beta. intros k (H1 & H2). exists k. split; [reflexivity|].
      unfold wf_payload. rewrite H2. auto. }
    intros ? (v & -> & Hv). apply Nice_ret. right. exists v. auto.
Qed.

(** ** Operands

    [Adv n m]: where [m] succeeds it consumes exactly [n] bits. *)
Definition Adv {A} (n : nat) (m : reader A) : Prop :=
  forall r v r', RWf r -> m r = Ok (v, r') -> (n <= length (view r))%nat /\ r' = adv r n.
Lemma Adv_bits n : Adv n (read_bits n).
Proof.
  intros r v r' Hr H. destruct (Nat.le_gt_cases n (length (view r))) as [L|L].
  - rewrite read_bits_ok in H by assumption. injection H as _ <-. auto.
  - rewrite read_bits_err in H by assumption. discriminate.
Qed.
Lemma Adv_ret {A} (v : A) : Adv 0 (ret v).
Proof. intros r x r' Hr H. injection H as _ <-. rewrite adv_0. split; [lia|reflexivity]. Qed.
Lemma Adv_fail {A} n e : Adv n (@fail A e).
Proof. intros r x r' Hr H. discriminate. Qed.
Lemma Adv_bind {A B} n k (m : reader A) (f : A -> reader B) : Adv n m -> (forall x, Adv k (f x)) ->
  Adv (n + k) (bind m f).
Proof.
  intros Hm Hf r v r' Hr H. unfold bind in H. destruct (m r) as [[x r1]| |] eqn:E1; try discriminate.
  destruct (Hm r x r1 Hr E1) as (L1 & ->).
  destruct (Hf x (adv r n) v r') as (L2 & ->); [apply RWf_adv; assumption|exact H|].
  rewrite view_adv, skipn_length in L2 by assumption. split; [lia|]. rewrite adv_adv by assumption. reflexivity.
Qed.
Lemma Adv_eq {A} n k (m : reader A) : Adv n m -> n = k -> Adv k m.
Proof. intros H <-. exact H. Qed.
Lemma Adv_uint n : Adv n (read_uint n).
Proof. eapply Adv_eq; [apply Adv_bind; [apply Adv_bits|intros; apply Adv_ret]|lia]. Qed.
Lemma Adv_bool : Adv 1 read_bool.
Proof. eapply (Adv_eq (1 + 0)); [apply Adv_bind; [apply Adv_uint|intros; apply Adv_ret]|lia]. Qed.
Lemma Adv_skip n : Adv n (skip_bits n).
Proof. eapply Adv_eq; [apply Adv_bind; [apply Adv_bits|intros; apply Adv_ret]|lia]. Qed.
Lemma Adv_enum {A} n (f : N -> option A) : Adv n (read_enum n f).
Proof.
  eapply (Adv_eq (n + 0)); [|lia]. apply Adv_bind; [apply Adv_uint|].
  intros x. destruct (f x); [apply Adv_ret|apply Adv_fail].
Qed.

(** With the byte [b] next on a byte boundary. *)
Definition NiceAt {A} (b : N) (m : reader A) (P : A -> Prop) : Prop :=
  forall r, RWf r -> left r = [] -> nth_error (data r) (pos r) = Some b -> NiceR 8 m P r.

Lemma view_next r b : RWf r -> left r = [] -> nth_error (data r) (pos r) = Some b ->
  view r = bits_of 8 b ++ bits_of_bytes (skipn (S (pos r)) (data r)).
Proof.
  intros Hr Hl Hb. unfold view. rewrite Hl. cbn [app].
  assert (Es : skipn (pos r) (data r) = b :: skipn (S (pos r)) (data r)).
  { clear - Hb. destruct r as [d p l n]. cbn [data pos] in *. clear l n. revert d Hb.
    induction p as [|p IH]; intros [|x d] Hb; cbn in Hb; try discriminate.
    - injection Hb as ->. reflexivity.
    - cbn [skipn]. apply IH in Hb. exact Hb. }
  rewrite Es. reflexivity.
Qed.

Lemma NiceAt_op {A H} b (hdr : reader H) (k : H -> N -> reader A) Ph P :
  Adv 2 hdr -> Nice 0 hdr Ph -> (forall h, Ph h -> NiceA (k h (b mod 64)) P) ->
  NiceAt b (h <- hdr ;; o <- read_opcode ;; k h o) P.
Proof.
  intros HA HN HK r Hr Hl Hb. pose proof (view_next r b Hr Hl Hb) as Hv.
  assert (L : (8 <= length (view r))%nat) by (rewrite Hv, app_length, bits_of_length; lia).
  unfold NiceR, bind at 1. pose proof (HN r Hr) as N1. destruct (hdr r) as [[h r1]|er|] eqn:E1; auto.
  2: { destruct N1 as (F1 & F2). split; [exact F1|]. intros Hi y. unfold bind. rewrite (F2 Hi). reflexivity. }
  destruct N1 as (Hh & Hr1 & D1 & B1 & X1). destruct (HA r h r1 Hr E1) as (_ & Er1).
  assert (L1 : (6 <= length (view r1))%nat) by (rewrite Er1, view_adv, skipn_length by (assumption || lia); lia).
  assert (E2 : read_opcode r1 = Ok (b mod 64, adv r 8)).
  { unfold read_opcode. rewrite read_uint_ok by assumption. rewrite Er1, view_adv, adv_adv by (assumption || lia).
    cbn [Nat.add]. do 2 f_equal. rewrite Hv. change 64 with (2 ^ N.of_nat 6).
    rewrite <- N_of_bits_bits_of. reflexivity. }
  pose proof (adv_aligned r 1 Hr Hl L) as Ea. change (8 * 1)%nat with 8%nat in Ea.
  assert (R2 : RWf (adv r 8)) by (apply RWf_adv; assumption).
  assert (Hl2 : left (adv r 8) = []) by (rewrite Ea; reflexivity).
  pose proof (HK h Hh (adv r 8) R2 Hl2) as N3.
  pose proof (Nice_uint0 6 r1 Hr1) as N2. change (read_uint 6) with read_opcode in N2. rewrite E2 in N2.
  destruct N2 as (_ & _ & _ & _ & X2).
  unfold bind. rewrite E2. unfold NiceR in N3.
  destruct (k h (b mod 64) (adv r 8)) as [[v r3]|er|]; auto.
  2: { destruct N3 as (F1 & F2). split; [exact F1|]. intros Hi y. rewrite X1, X2. apply F2. exact Hi. }
  destruct N3 as (P3 & R3 & D3 & B3 & X3). split; [exact P3|]. split; [exact R3|].
  split; [rewrite D3; reflexivity|]. split; [rewrite BP_adv in B3 by assumption; lia|].
  intros e. rewrite X1, X2. apply X3.
Qed.
Lemma NiceAt_eq {A} b (m m' : reader A) P : (forall r, m r = m' r) -> NiceAt b m' P -> NiceAt b m P.
Proof.
  intros H N1 r Hr Hl Hb. specialize (N1 r Hr Hl Hb). unfold NiceR in *. rewrite H.
  destruct (m' r) as [[v r']|er|]; auto.
  2: { destruct N1 as (F1 & F2). split; [exact F1|]. intros Hi y. rewrite H. apply F2. exact Hi. }
  destruct N1 as (H1 & H2 & H3 & H4 & H5).
  split; [exact H1|]. split; [exact H2|]. split; [exact H3|]. split; [exact H4|]. intros e. rewrite H. apply H5.
Qed.
Lemma NiceAt_weaken {A} b (m : reader A) (P Q : A -> Prop) : NiceAt b m P -> (forall v, P v -> Q v) -> NiceAt b m Q.
Proof. intros H HQ r Hr Hl Hb. eapply NiceR_weaken; [apply H; assumption|lia|exact HQ]. Qed.
Lemma NiceAt_map {A B} b (m : reader A) (f : A -> B) P (Q : B -> Prop) : NiceAt b m P -> (forall v, P v -> Q (f v)) ->
  NiceAt b (x <- m ;; ret (f x)) Q.
Proof.
  intros H HQ r Hr Hl Hb. change 8%nat with (8 + 0)%nat. eapply NiceR_bind; [apply H; assumption|].
  intros. apply NiceR_ret; auto.
Qed.
(** Two header bits read one by one. *)
Lemma two_bits {A B C} (m : reader A) (n : reader B) (k : A -> B -> reader C) r :
  (x <- m ;; y <- n ;; k x y) r = (p <- (x <- m ;; y <- n ;; ret (x, y)) ;; k (fst p) (snd p)) r.
Proof.
  unfold bind. destruct (m r) as [[x r1]| |]; auto. destruct (n r1) as [[y r2]| |]; auto.
Qed.
Lemma Adv_two {A B} (m : reader A) (n : reader B) : Adv 1 m -> Adv 1 n -> Adv 2 (x <- m ;; y <- n ;; ret (x, y)).
Proof.
  intros H1 H2. apply (Adv_bind 1 1 m); [exact H1|]. intros x. apply (Adv_bind 1 0 n); [exact H2|].
  intros y. apply Adv_ret.
Qed.
Lemma Nice_two {A B} (m : reader A) (n : reader B) : Nice 0 m (fun _ => True) -> Nice 0 n (fun _ => True) ->
  Nice 0 (x <- m ;; y <- n ;; ret (x, y)) (fun _ => True).
Proof.
  intros H1 H2. eapply Nice_bind; [exact H1|]. intros. eapply Nice_bind; [exact H2|]. intros. apply Nice_ret. exact I.
Qed.

Lemma Adv_header : Adv 2 read_header.
Proof.
  apply (Adv_bind 1 1); [apply Adv_bool|]. intros. apply (Adv_bind 1 0); [apply Adv_bool|]. intros. apply Adv_ret.
Qed.
Lemma Nice_header : Nice 0 read_header (fun _ => True).
Proof. unfold read_header. nice. exact I. Qed.

Ltac op_hdr := eapply NiceAt_op with (Ph := fun _ => True);
  [first [apply Adv_header | apply Adv_enum | apply Adv_two; first [apply Adv_bool|apply Adv_skip]]
  |first [apply Nice_header | apply Nice_enum0 | apply Nice_two; eauto 2 with nice]
  |intros ? _].
Ltac op_nice := op_hdr; apply Nice_A; nice.

Lemma At_nop b : NiceAt b read_nop (fun v => nop_opcode v = b mod 64).
Proof. unfold read_nop. op_nice. reflexivity. Qed.
Lemma At_file_id_op b : NiceAt b read_file_id_op (wf_file_id_op (b mod 64)).
Proof. unfold read_file_id_op. op_nice. split; [reflexivity|assumption]. Qed.
Lemma Nice_file_payload {E : Env} o : wf_file_offset o -> Nice 0 (read_file_payload o) (wf_file (fo_file_id o)).
Proof.
  intros (H1 & H2). unfold read_file_payload. eapply Nice_bind; [apply Nice_length|]. intros l Hl.
  intros r Hr. rewrite file_id_try_from_ok by exact H1. apply (Nice_file _ _ H1 Hl r Hr).
Qed.
Lemma At_file_data {E : Env} b : NiceAt b read_file_data (wf_file_data (b mod 64)).
Proof.
  unfold read_file_data. op_nice. eapply Nice_bind; [apply Nice_file_payload; assumption|]. intros f Hf.
  apply Nice_ret. split; [reflexivity|]. split; assumption.
Qed.
Lemma At_file_properties b : NiceAt b read_file_properties (wf_file_properties (b mod 64)).
Proof. unfold read_file_properties. op_nice. split; [reflexivity|]. split; assumption. Qed.
Lemma At_read_file_data b : NiceAt b read_read_file_data
  (fun v => rf_opcode v = b mod 64 /\ wf_file_offset (rf_offset v) /\ wf_length (rf_length v)).
Proof. unfold read_read_file_data. op_nice. split; [reflexivity|]. split; assumption. Qed.
Lemma At_action_query b : NiceAt b read_action_query (wf_action_query (b mod 64)).
Proof. unfold read_action_query. op_nice. split; [reflexivity|assumption]. Qed.
Lemma Nice_permission : Nice 0 read_permission (fun p => match p with PermDash7 k => wf_fixed 8 k end).
Proof. unfold read_permission. nstep. destruct (N.eqb _ _); nice. assumption. Qed.
#[export] Hint Resolve Nice_permission : nice.
Lemma At_permission_request b : NiceAt b read_permission_request
  (fun v => prq_opcode v = b mod 64 /\ match prq_permission v with PermDash7 k => wf_fixed 8 k end).
Proof. unfold read_permission_request, read_permission_level. op_nice. split; [reflexivity|assumption]. Qed.
Lemma At_copy_file b : NiceAt b read_copy_file (fun v => cf_opcode v = b mod 64 /\ u8 (cf_src v) /\ u8 (cf_dst v)).
Proof. unfold read_copy_file. op_nice. split; [reflexivity|]. split; assumption. Qed.
Lemma At_response_tag b : NiceAt b read_response_tag (fun v => rt_opcode v = b mod 64 /\ u8 (rt_id v)).
Proof.
  unfold read_response_tag. eapply NiceAt_eq; [intros; apply two_bits|].
  op_nice. split; [reflexivity|assumption].
Qed.
Lemma At_request_tag b : NiceAt b read_request_tag (fun v => rq_opcode v = b mod 64 /\ u8 (rq_id v)).
Proof.
  unfold read_request_tag. eapply NiceAt_eq; [intros; apply two_bits|].
  op_nice. split; [reflexivity|assumption].
Qed.
Lemma At_chunk b : NiceAt b read_chunk (fun v => ck_opcode v = b mod 64).
Proof. unfold read_chunk, read_chunk_step. op_nice. reflexivity. Qed.
Lemma At_logic b : NiceAt b read_logic (fun v => lg_opcode v = b mod 64).
Proof. unfold read_logic, read_logic_op. op_nice. reflexivity. Qed.
Lemma At_forward {E : Env} b : NiceAt b read_forward (wf_forward (b mod 64)).
Proof.
  unfold read_forward. eapply NiceAt_eq; [intros; apply two_bits|]. op_hdr.
  intros r Hr Hl. change 0%nat with (0 + 0)%nat. eapply NiceR_bind; [apply NiceA_interface_config; assumption|].
  intros c r1 _ _ Hc Hr1 _. apply NiceR_ret; [exact Hr1|]. split; [reflexivity|exact Hc].
Qed.
Lemma At_indirect_forward {E : Env} b : NiceAt b read_indirect_forward (wf_indirect_forward (b mod 64)).
Proof.
  unfold read_indirect_forward. eapply NiceAt_eq; [intros; apply two_bits|]. op_hdr.
  destruct h as [[] r]; cbn [fst snd read_cond].
  - intros r0 Hr Hl. change 0%nat with (0 + 0)%nat.
    eapply NiceR_bind with (P := fun o => exists c, o = Some c /\ wf_indirect_interface c).
    + change 0%nat with (0 + 0)%nat. eapply NiceR_bind; [apply NiceA_indirect_interface; assumption|].
      intros. apply NiceR_ret; eauto.
    + intros o r1 _ _ (c & -> & Hc) Hr1 _. apply NiceR_ret; [exact Hr1|]. split; [reflexivity|exact Hc].
  - apply Nice_A. eapply Nice_bind with (P := fun o => o = None); [apply Nice_ret; reflexivity|].
    intros ? ->. apply Nice_ret. split; [reflexivity|exact I].
Qed.
Lemma Nice_action_status : Nice 0 read_action_status (fun s => u8 (as_action_id s) /\ u8 (as_status s)).
Proof. unfold read_action_status. nice. split; assumption. Qed.
Definition unknown_status_operand (op : N) (v : status_operand) : Prop :=
  so_opcode v = op /\ so_type v = StInterface /\
  exists i, so_status v = StatusInterface i /\ unknown_itf_status i.
Lemma At_status_operand {E : Env} b : NiceAt b read_status_operand
  (fun v => wf_status_operand (b mod 64) v \/ unknown_status_operand (b mod 64) v).
Proof.
  unfold read_status_operand, read_status_type. op_hdr. destruct h; cbn [read_status].
  - apply Nice_A. eapply Nice_bind with (P := fun s => exists v, s = StatusAction v /\ u8 (as_action_id v) /\ u8 (as_status v)).
    { eapply Nice_map; [apply Nice_action_status|]. eauto. }
    intros ? (v & -> & Hv). apply Nice_ret. left. split; [reflexivity|exact Hv].
  - intros r0 Hr Hl. change 0%nat with (0 + 0)%nat.
    eapply NiceR_bind with (P := fun o => exists c, o = StatusInterface c /\ (wf_itf_status_op c \/ unknown_itf_status c)).
    + change 0%nat with (0 + 0)%nat. eapply NiceR_bind; [apply NiceA_itf_status_op; assumption|].
      intros. apply NiceR_ret; eauto.
    + intros o r1 _ _ (c & -> & Hc) Hr1 _. apply NiceR_ret; [exact Hr1|].
      destruct Hc as [Hc|Hc]; [left|right].
      * split; [reflexivity|exact Hc].
      * split; [reflexivity|]. split; [reflexivity|]. exists c. auto.
  - apply Nice_A. unfold is_wizzilab. destruct e_feat eqn:Hf.
    + eapply Nice_bind with (P := fun _ => False); [apply Nice_fail; discriminate|contradiction].
    + eapply Nice_bind with (P := fun _ => False); [apply Nice_fail; discriminate|contradiction].
    + eapply Nice_bind with (P := fun s => exists v, s = StatusInterfaceFinal v /\ wf_itf_final_op v).
      { eapply Nice_map; [apply Nice_itf_final_op|]. eauto. }
      intros ? (v & -> & Hv). apply Nice_ret. left. split; [reflexivity|split; assumption].
Qed.
Lemma Nice_interface_tx_status {E : Env} i l : wf_length l ->
  Nice 0 (read_interface_tx_status i l)
    (fun s => match s with TxDash7 v => i = 0xD7 /\ wf_tx_status v | TxOther k => i <> 0xD7 /\ wf_payload k end).
Proof.
  intros Hl. unfold read_interface_tx_status. destruct (N.eqb_spec i 0xD7); nice; auto.
  destruct H as (H1 & H2). unfold wf_payload. rewrite H2. auto.
Qed.
Lemma Nice_tx_status_op {E : Env} : Nice 8 read_tx_status_op parsed_tx_status.
Proof.
  unfold read_tx_status_op. change 8%nat with (2 + (6 + 0))%nat.
  eapply Nice_bindk; [apply Nice_enum|]. intros _ _. eapply Nice_bindk; [apply Nice_skip|]. intros _ _.
  eapply Nice_bind with (P := fun o => o < 64); [apply (Nice_uint_is 6); reflexivity|]. intros o Ho.
  nice. eapply Nice_bind; [apply Nice_interface_tx_status; assumption|]. intros s Hs. apply Nice_ret.
  split; [exact Ho|]. split; [assumption|]. exact Hs.
Qed.

(** ** Actions *)
Definition arm_ok {E : Env} (op : N) (a : action) (b : N) : Prop :=
  opcode_of a = op /\ (is_tx_status a = false -> stored_opcode a = b mod 64) /\
  parsed_action (if is_tx_status a then a else with_opcode op a).

Lemma arms {E : Env} op m : In (op, m) action_readers ->
  In op assigned_opcodes /\ forall b, NiceAt b m (fun a => arm_ok op a b).
Proof.
  unfold action_readers, assigned_opcodes, is_wizzilab. rewrite !in_app_iff.
  assert (Hi : forall l (x : N), List.existsb (N.eqb x) l = true -> In x l).
  { intros l x H. apply existsb_exists in H as (y & H1 & H2). apply N.eqb_eq in H2. subst. exact H1. }
  intros [H|[H|H]].
  - cbn [In] in H.
    repeat (destruct H as [H|H]; [injection H as <- <-; split; [left; apply Hi; reflexivity|]; intros b|]);
      try contradiction; (eapply NiceAt_map; [eauto using At_nop, At_read_file_data, At_file_id_op, At_file_data,
        At_file_properties, At_action_query, At_permission_request, At_copy_file, At_response_tag|]);
      cbv beta; intros v Hv; (split; [reflexivity|]; split; [intros _; apply Hv|left]); cbn;
      unfold wf_file_id_op, wf_file_data, wf_file_properties, wf_action_query in *; cbn; intuition auto.
  - destruct e_feat eqn:Hf; cbn [In] in H; try contradiction. destruct H as [H|[]]. injection H as <- <-.
    split; [right; left; left; reflexivity|]. intros b. eapply NiceAt_map.
    + intros r Hr Hl Hb. apply Nice_R; [apply Nice_tx_status_op|exact Hr].
    + intros v Hv. split; [reflexivity|]. split; [discriminate|]. right. right. split; [exact Hf|]. exists v. split; [reflexivity|exact Hv].
  - cbn [In] in H.
    repeat (destruct H as [H|H]; [injection H as <- <-; split; [first [left; apply Hi; reflexivity|right; right; apply Hi; reflexivity]|]; intros b|]);
      try contradiction;
      lazymatch goal with
      | |- NiceAt _ (bind read_status_operand _) _ => idtac
      | |- _ => (eapply NiceAt_map; [eauto using At_nop, At_chunk, At_logic, At_request_tag, At_forward,
                 At_indirect_forward|]);
      cbv beta; intros v Hv; (split; [reflexivity|]; split; [intros _; apply Hv|left]); cbn;
      unfold wf_forward, wf_indirect_forward in *; cbn; intuition auto
      end.
    eapply NiceAt_map; [apply At_status_operand|]. cbv beta. intros v Hv. split; [reflexivity|]. split.
    { intros _. destruct Hv as [Hv|Hv]; apply Hv. }
    destruct Hv as [Hv|(Hv & Ht & i & Hs & l & Hi2 & Hp)].
    + left. cbn. unfold wf_status_operand in *. cbn. intuition auto.
    + right. left. exists l. cbn. rewrite Hs, Ht, Hi2. split; [reflexivity|exact Hp].
Qed.

Lemma assoc_In {A} x (l : list (N * A)) v : assoc x l = Some v -> In (x, v) l.
Proof.
  induction l as [|[n w] l IH]; cbn [assoc]; [discriminate|]. destruct (N.eqb_spec x n) as [->|].
  - intros H. injection H as ->. left. reflexivity.
  - intros H. right. auto.
Qed.
Lemma assoc_not_In {A} x (l : list (N * A)) : assoc x l = None -> forall v, ~ In (x, v) l.
Proof.
  induction l as [|[n w] l IH]; cbn [assoc]; [auto|]. destruct (N.eqb_spec x n) as [->|Hn]; [discriminate|].
  intros H v [Hi|Hi]; [congruence|]. exact (IH H v Hi).
Qed.
Lemma assigned_reader {E : Env} op : In op assigned_opcodes <-> exists m, assoc op action_readers = Some m.
Proof.
  split.
  - intros H. destruct (assoc op action_readers) eqn:Ha; [eauto|].
    exfalso. unfold assigned_opcodes, action_readers, is_wizzilab in *.
    destruct e_feat; cbn [In app] in H;
      repeat (destruct H as [<-|H]; [cbv [assoc app N.eqb Pos.eqb] in Ha; discriminate|]); contradiction.
  - intros (m & Hm). apply assoc_In in Hm. apply (arms op m Hm).
Qed.

(** What [read_action] does first, in any state with eight bits left. *)
Lemma read_action_any {E : Env} r : RWf r -> (8 <= length (view r))%nat ->
  read_action r =
    match assoc (N_of_bits (firstn 6 (skipn 2 (view r)))) action_readers with
    | Some m => m (mkRd (data r) (pos (adv r 8) - 1) [] (bread r + 8))
    | None => Err EInvalidParam
    end.
Proof.
  intros Hr Hl. unfold read_action, bind at 1, skip_bits, bind at 1. rewrite read_bits_ok by (assumption || lia).
  unfold ret at 1, bind at 1. unfold read_opcode. rewrite read_uint_ok.
  2: { apply RWf_adv; [assumption|lia]. } 2: { rewrite view_adv, skipn_length by (assumption || lia). lia. }
  rewrite adv_adv by (assumption || lia). cbn [Nat.add]. rewrite view_adv by (assumption || lia).
  unfold bind, seek_back1.
  pose proof (need_bounds r 8) as B. destruct Hr as (R1 & R2 & R3).
  destruct (pos (adv r 8)) as [|q] eqn:Ep.
  { exfalso. unfold adv in Ep. cbn [pos] in Ep. lia. }
  replace (S q - 1)%nat with q by lia. destruct (assoc _ action_readers); reflexivity.
Qed.

Lemma read_action_short {E : Env} r : RWf r -> (length (view r) < 8)%nat -> read_action r = Err EIncomplete.
Proof.
  intros Hr L. unfold read_action, bind at 1, skip_bits, bind at 1.
  destruct (Nat.le_gt_cases 2 (length (view r))) as [L2|L2].
  - rewrite read_bits_ok by (assumption || lia). unfold ret at 1, bind, read_opcode. rewrite read_uint_err; [reflexivity| |].
    + apply RWf_adv; [assumption|lia].
    + rewrite view_adv, skipn_length by (assumption || lia). lia.
  - rewrite read_bits_err by assumption. reflexivity.
Qed.
Lemma Nice_action {E : Env} : Nice 8 read_action
  (fun a => parsed_action (if is_tx_status a then a else with_opcode (opcode_of a) a)).
Proof.
  intros r Hr. destruct (Nat.le_gt_cases 8 (length (view r))) as [L|L].
  2: { rewrite read_action_short by assumption. apply incomplete. reflexivity. }
  pose proof (need_bounds r 8) as B. pose proof (need_fits r 8 Hr L) as F.
  assert (Ep : pos (adv r 8) = (pos r + need r 8)%nat) by reflexivity.
  assert (R1 : (1 <= pos (adv r 8) <= length (data r))%nat).
  { destruct Hr as (R1 & R2 & R3). lia. }
  set (q := (pos (adv r 8) - 1)%nat) in *.
  assert (RW : RWf (mkRd (data r) q [] (bread r + 8))) by (unfold RWf; cbn [data pos left length]; unfold q; lia).
  assert (X : forall e, read_action (ext r e) =
    match assoc (N_of_bits (firstn 6 (skipn 2 (view r)))) action_readers with
    | Some m => m (ext (mkRd (data r) q [] (bread r + 8)) e)
    | None => Err EInvalidParam
    end).
  { intros e. rewrite read_action_any; [|apply RWf_ext; exact Hr|rewrite view_ext, app_length by exact Hr; lia].
    rewrite adv_ext by assumption. rewrite view_ext by exact Hr. rewrite skipn_app, firstn_app.
    replace (6 - length (skipn 2 (view r)))%nat with 0%nat by (rewrite skipn_length; lia).
    rewrite firstn_O, app_nil_r. reflexivity. }
  rewrite read_action_any by assumption.
  destruct (assoc (N_of_bits (firstn 6 (skipn 2 (view r)))) action_readers) as [m|] eqn:Ha.
  2: { split; [discriminate|]. intros _. exact X. }
  destruct (arms _ _ (assoc_In _ _ _ Ha)) as (_ & Hm).
  destruct (nth_error (data r) q) as [b|] eqn:Hb; [|apply nth_error_None in Hb; lia].
  pose proof (Hm b _ RW eq_refl Hb) as N1. unfold NiceR in N1. fold q.
  destruct (m (mkRd (data r) q [] (bread r + 8))) as [[a r']|er|] eqn:Em; auto.
  2: { destruct N1 as (F1 & F2). split; [exact F1|]. intros Hi y. rewrite X. apply F2. exact Hi. }
  destruct N1 as ((P1 & P2 & P3) & R' & D' & B' & X'). split; [rewrite P1; exact P3|].
  split; [exact R'|]. split; [exact D'|]. split.
  { unfold BP in *. cbn [pos left length] in B'. destruct Hr as (Q1 & Q2 & Q3). lia. }
  intros e. rewrite X. apply X'.
Qed.

(** On a byte boundary the stored opcode is the right one. *)
Lemma with_opcode_same a : with_opcode (stored_opcode a) a = a.
Proof. destruct a as [[]|[]|[]|[]|[]|[]|[]|[]|[]|[]|[]|[]|[]|[]|[]|[]|[]|[]|[]|[]|[]|[]|[]|[]|[]|[]|[]|[]]; reflexivity. Qed.
Lemma read_action_parsed {E : Env} r p b t a r' : At r p -> skipn p (data r) = b :: t ->
  read_action r = Ok (a, r') ->
  In (b mod 64) assigned_opcodes /\ opcode_of a = b mod 64 /\
  (is_tx_status a = false -> stored_opcode a = b mod 64) /\ parsed_action a.
Proof.
  intros Hr Hs H. rewrite (read_action_at r p b t Hr Hs) in H.
  destruct (assoc (b mod 64) action_readers) as [m|] eqn:Ha; [|discriminate].
  destruct (arms _ _ (assoc_In _ _ _ Ha)) as (Hin & Hm). destruct Hr as (Hr & Hp & _).
  destruct (skipn_cons_nth _ _ _ _ Hs) as (Hn & _).
  pose proof (At_start (data r) p (bread r + 8) Hp) as (RW & _).
  pose proof (Hm b _ RW eq_refl Hn) as N1. unfold NiceR in N1. rewrite H in N1.
  destruct N1 as ((P1 & P2 & P3) & _). split; [exact Hin|]. split; [exact P1|]. split; [exact P2|].
  destruct (is_tx_status a) eqn:Ht; [exact P3|]. rewrite <- (P2 eq_refl), with_opcode_same in P3. exact P3.
Qed.
Lemma read_action_unassigned {E : Env} r p b t : At r p -> skipn p (data r) = b :: t ->
  ~ In (b mod 64) assigned_opcodes -> read_action r = Err EInvalidParam.
Proof.
  intros Hr Hs Hn. rewrite (read_action_at r p b t Hr Hs).
  destruct (assoc (b mod 64) action_readers) as [m|] eqn:Ha; [|reflexivity].
  exfalso. apply Hn, assigned_reader. eauto.
Qed.
