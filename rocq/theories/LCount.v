(** How many bits each reader consumes, modulo whole bytes, and that [bits_read] counts them. *)
From Coq Require Import List NArith ZArith Bool Lia ZifyBool ZifyNat ZifyN Arith.
From Verif Require Import Base Deku Utils Types Physical Link Network Session Data Query
  Interface File Operation Action WellFormed SpecLayout SpecAction LBits LReader LTypes LUtf8 LLayout LApi
  LAction LNice LNiceFile LNiceOps.
Import ListNotations.
Open Scope N_scope.

Definition moved (c : nat) (r r' : rd) : Prop :=
  RWf r' /\ data r' = data r /\ (length (left r) < 8 -> length (left r') < 8)%nat /\
  exists k, BP r' = (BP r + (c + 8 * k))%nat /\ bread r' = (bread r + (c + 8 * k))%nat.
Definition Count {A} (c : nat) (m : reader A) : Prop :=
  forall r v r', RWf r -> m r = Ok (v, r') -> moved c r r'.

Lemma moved_trans c1 c2 r r1 r2 : moved c1 r r1 -> moved c2 r1 r2 -> moved (c1 + c2) r r2.
Proof.
  intros (A1 & A2 & A5 & k1 & A3 & A4) (B1 & B2 & B5 & k2 & B3 & B4). split; [exact B1|]. split; [congruence|].
  split; [auto|]. exists (k1 + k2)%nat. lia.
Qed.
Lemma moved_refl r : RWf r -> moved 0 r r.
Proof. intros H. split; [exact H|]. split; [reflexivity|]. split; [auto|]. exists 0%nat. lia. Qed.
Lemma moved_weaken c c' r r' : moved c r r' -> (exists j, c = c' + 8 * j)%nat -> moved c' r r'.
Proof.
  intros (A1 & A2 & A5 & k & A3 & A4) (j & ->). split; [exact A1|]. split; [exact A2|]. split; [exact A5|].
  exists (j + k)%nat. lia.
Qed.
Lemma Count_weaken {A} c c' (m : reader A) : Count c m -> (exists j, c = c' + 8 * j)%nat -> Count c' m.
Proof. intros H J r v r' Hr E1. eapply moved_weaken; [eapply H; eassumption|exact J]. Qed.
Lemma Count_bind {A B} c1 c2 (m : reader A) (f : A -> reader B) :
  Count c1 m -> (forall x, Count c2 (f x)) -> Count (c1 + c2) (bind m f).
Proof.
  intros Hm Hf r v r' Hr H. unfold bind in H. destruct (m r) as [[x r1]| |] eqn:E1; try discriminate.
  pose proof (Hm _ _ _ Hr E1) as M1. eapply moved_trans; [exact M1|]. eapply Hf; [apply M1|exact H].
Qed.
Lemma Count_ret {A} (v : A) : Count 0 (ret v).
Proof. intros r x r' Hr H. injection H as _ <-. apply moved_refl. exact Hr. Qed.
Lemma Count_fail {A} c e : Count c (@fail A e).
Proof. intros r x r' Hr H. discriminate. Qed.
Lemma moved_adv c r : RWf r -> (c <= length (view r))%nat -> moved c r (adv r c).
Proof.
  intros Hr L. split; [apply RWf_adv; assumption|]. split; [reflexivity|]. split.
  - intros H. rewrite adv_left_length by assumption. pose proof (need_bounds r c).
    destruct (Nat.le_gt_cases c (length (left r))) as [G|G]; lia.
  - exists 0%nat. rewrite BP_adv by assumption. unfold adv. cbn [bread]. lia.
Qed.
Lemma Count_Adv {A} c (m : reader A) : Adv c m -> Count c m.
Proof.
  intros H r v r' Hr E1. destruct (H r v r' Hr E1) as (L & ->). apply moved_adv; assumption.
Qed.
Lemma Count_uint n : Count n (read_uint n). Proof. apply Count_Adv, Adv_uint. Qed.
Lemma Count_skip n : Count n (skip_bits n). Proof. apply Count_Adv, Adv_skip. Qed.
Lemma Count_enum {A} n (f : N -> option A) : Count n (read_enum n f). Proof. apply Count_Adv, Adv_enum. Qed.
Lemma Count_bool : Count 1 read_bool. Proof. apply Count_Adv, Adv_bool. Qed.
Create HintDb cnt.
#[export] Hint Resolve Count_ret Count_fail Count_uint Count_skip Count_enum Count_bool : cnt.

Ltac count_done := match goal with |- exists j, ?C = (?c + 8 * j)%nat => exists (Nat.div (C - c) 8); reflexivity end.
Ltac count_steps := lazymatch goal with
  | |- Count _ (bind _ _) => eapply Count_bind; [count_steps|intros; count_steps]
  | |- _ => solve [eauto 3 with cnt]
  end.
Ltac count := eapply Count_weaken; [count_steps|count_done].

Lemma Count_u8 : Count 0 read_u8. Proof. eapply Count_weaken; [apply Count_uint|count_done]. Qed.
Lemma Count_u16 : Count 0 read_u16be. Proof. eapply Count_weaken; [apply Count_uint|count_done]. Qed.
Lemma Count_u32 : Count 0 read_u32be. Proof. eapply Count_weaken; [apply Count_uint|count_done]. Qed.
Lemma Count_u64 : Count 0 read_u64be. Proof. eapply Count_weaken; [apply Count_uint|count_done]. Qed.
Lemma Count_native {E : Env} k : Count 0 (read_native k).
Proof.
  eapply Count_weaken; [eapply Count_bind; [apply Count_Adv, Adv_bits|intros; apply Count_ret]|]. exists k. lia.
Qed.
#[export] Hint Resolve Count_u8 Count_u16 Count_u32 Count_u64 Count_native : cnt.
Lemma Count_i8 : Count 0 read_i8. Proof. unfold read_i8. count. Qed.
Lemma Count_list {A} n (m : reader A) : Count 0 m -> Count 0 (read_list n m).
Proof.
  intros H. induction n as [|n IH]; cbn [read_list]; [apply Count_ret|].
  eapply (Count_weaken (0 + (0 + 0))); [apply Count_bind; [exact H|intros; apply Count_bind; [exact IH|intros; apply Count_ret]]|count_done].
Qed.
Lemma Count_vec n : Count 0 (read_vec_u8 n).
Proof.
  intros r v r' Hr H. unfold read_vec_u8 in H. destruct (N.leb _ _); [|discriminate].
  eapply Count_list; [apply Count_u8|exact Hr|exact H].
Qed.
Lemma Count_cond {A} c (m : reader A) : Count 0 m -> Count 0 (read_cond c m).
Proof. intros H. unfold read_cond. destruct c; [eapply (Count_weaken (0 + 0)); [apply Count_bind; [exact H|intros; apply Count_ret]|count_done]|apply Count_ret]. Qed.
Lemma Count_cond_vec c n : Count 0 (read_cond_vec c n).
Proof. unfold read_cond_vec. destruct c; [apply Count_vec|apply Count_ret]. Qed.
#[export] Hint Resolve Count_i8 Count_list Count_vec Count_cond Count_cond_vec : cnt.
Lemma Count_varint : Count 0 read_varint.
Proof.
  unfold read_varint. eapply (Count_weaken (3 + (5 + 0))); [|count_done].
  apply Count_bind; [apply Count_uint|]. intros e. apply Count_bind; [apply Count_uint|]. intros m.
  destruct (decompress e m); [apply Count_ret|apply Count_fail].
Qed.
Lemma Count_length : Count 0 read_length.
Proof.
  unfold read_length. intros r v r' Hr H. unfold bind in H.
  destruct (read_uint 2 r) as [[k r1]| |] eqn:E1; try discriminate.
  pose proof (Count_uint 2 _ _ _ Hr E1) as M1.
  pose proof (Count_uint _ _ _ _ (proj1 M1) H) as M2.
  eapply moved_weaken; [eapply moved_trans; [exact M1|exact M2]|]. exists (N.to_nat k + 1)%nat. lia.
Qed.
#[export] Hint Resolve Count_varint Count_length : cnt.
Lemma Count_file_offset : Count 0 read_file_offset. Proof. unfold read_file_offset. count. Qed.
#[export] Hint Resolve Count_file_offset : cnt.
Lemma Count_channel_header : Count 0 read_channel_header.
Proof. unfold read_channel_header, read_channel_band, read_channel_class, read_channel_coding. count. Qed.
#[export] Hint Resolve Count_channel_header : cnt.
Lemma Count_channel : Count 0 read_channel. Proof. unfold read_channel. count. Qed.
Lemma Count_csi : Count 0 read_channel_status_identifier.
Proof. unfold read_channel_status_identifier, read_channel_band, read_bandwidth. count. Qed.
#[export] Hint Resolve Count_channel Count_csi : cnt.
Lemma Count_channel_status : Count 0 read_channel_status. Proof. unfold read_channel_status. count. Qed.
Lemma Count_sub_band : Count 0 read_sub_band. Proof. unfold read_sub_band. count. Qed.
Lemma Count_sub_profile : Count 0 read_sub_profile. Proof. unfold read_sub_profile. count. Qed.
Lemma Count_access_class : Count 0 read_access_class. Proof. unfold read_access_class. count. Qed.
#[export] Hint Resolve Count_channel_status Count_sub_band Count_sub_profile Count_access_class : cnt.
Lemma Count_access_profile : Count 0 read_access_profile. Proof. unfold read_access_profile, read_array. count. Qed.
Lemma Count_address t : Count 0 (read_address t).
Proof. destruct t; cbn [read_address]; count. Qed.
Lemma Count_nls_state m : Count 0 (read_nls_state m).
Proof. destruct m; cbn [read_nls_state]; count. Qed.
#[export] Hint Resolve Count_access_profile Count_address Count_nls_state : cnt.
Lemma Count_addressee {E : Env} : Count 0 read_addressee.
Proof.
  unfold read_addressee, is_wizzilab. destruct e_feat eqn:Hf; unfold read_group_condition, read_address_type, read_nls_method, nls_bits, is_wizzilab;
    rewrite ?Hf; count.
Qed.
#[export] Hint Resolve Count_addressee : cnt.
Lemma Count_qos : Count 0 read_qos. Proof. unfold read_qos, read_retry_mode, read_response_mode. count. Qed.
Lemma Count_dash7_status {E : Env} : Count 0 read_dash7_status. Proof. unfold read_dash7_status. count. Qed.
Lemma Count_user_permissions : Count 3 read_user_permissions. Proof. unfold read_user_permissions. count. Qed.
#[export] Hint Resolve Count_qos Count_dash7_status Count_user_permissions : cnt.
Lemma Count_file_permissions : Count 0 read_file_permissions. Proof. unfold read_file_permissions. count. Qed.
Lemma Count_fs_properties : Count 0 read_fs_properties.
Proof. unfold read_fs_properties, read_action_condition, read_storage_class. count. Qed.
#[export] Hint Resolve Count_file_permissions Count_fs_properties : cnt.
Lemma Count_file_header : Count 0 read_file_header. Proof. unfold read_file_header. count. Qed.
Lemma Count_arith_params : Count 4 read_arith_params. Proof. unfold read_arith_params, read_arith_cmp. count. Qed.
Lemma Count_range_params : Count 4 read_range_params. Proof. unfold read_range_params, read_range_cmp. count. Qed.
#[export] Hint Resolve Count_file_header Count_arith_params Count_range_params : cnt.
Lemma Count_assoc {A} c (x : N) (l : list (N * reader A)) e :
  Forall (fun p => Count c (snd p)) l -> Count c (match assoc x l with Some m => m | None => fail e end).
Proof.
  intros H. induction H as [|[n m] l Hm _ IH]; cbn [assoc]; [apply Count_fail|].
  destruct (N.eqb x n); [exact Hm|exact IH].
Qed.
Lemma Count_query : Count 0 read_query.
Proof.
  unfold read_query. eapply (Count_weaken (3 + 5)); [|count_done]. apply Count_bind; [apply Count_uint|].
  intros x. apply Count_assoc. unfold query_readers. repeat apply Forall_cons; try apply Forall_nil; cbn [snd].
  - eapply (Count_weaken (5 + 0)); [eapply Count_bind; [unfold read_non_void; count|intros; apply Count_ret]|count_done].
  - eapply (Count_weaken (5 + 0)); [eapply Count_bind; [unfold read_cmp_zero; count|intros; apply Count_ret]|count_done].
  - eapply (Count_weaken (5 + 0)); [eapply Count_bind; [unfold read_cmp_value; count|intros; apply Count_ret]|count_done].
  - eapply (Count_weaken (5 + 0)); [eapply Count_bind; [unfold read_cmp_other; count|intros; apply Count_ret]|count_done].
  - eapply (Count_weaken (5 + 0)); [eapply Count_bind; [unfold read_bitmap_range; count|intros; apply Count_ret]|count_done].
  - eapply (Count_weaken (5 + 0)); [eapply Count_bind; [unfold read_string_search; count|intros; apply Count_ret]|count_done].
Qed.
#[export] Hint Resolve Count_query : cnt.
Lemma Count_dll_config : Count 0 read_dll_config. Proof. unfold read_dll_config. count. Qed.
Lemma Count_dll_status : Count 0 read_dll_status. Proof. unfold read_dll_status. count. Qed.
Lemma Count_engineering_mode : Count 0 read_engineering_mode. Proof. unfold read_engineering_mode, read_eng_method. count. Qed.
Lemma Count_factory_settings : Count 0 read_factory_settings. Proof. unfold read_factory_settings. count. Qed.
Lemma Count_string n : Count 0 (read_string n).
Proof.
  unfold read_string. eapply (Count_weaken (0 + 0)); [|count_done]. apply Count_bind; [eauto with cnt|].
  intros l. destruct (utf8_valid l); [apply Count_ret|apply Count_fail].
Qed.
#[export] Hint Resolve Count_dll_config Count_dll_status Count_engineering_mode Count_factory_settings Count_string : cnt.
Lemma Count_firmware_version : Count 0 read_firmware_version. Proof. unfold read_firmware_version. count. Qed.
Lemma Count_phy_status : Count 0 read_phy_status. Proof. unfold read_phy_status. count. Qed.
#[export] Hint Resolve Count_firmware_version Count_phy_status : cnt.
Lemma Count_file {E : Env} id l : Count 0 (read_file id l).
Proof. destruct id; cbn [read_file]; count. Qed.
Lemma Count_file_payload {E : Env} o : Count 0 (read_file_payload o).
Proof.
  unfold read_file_payload. eapply (Count_weaken (0 + 0)); [|count_done]. apply Count_bind; [apply Count_length|].
  intros l r v r' Hr H. destruct (file_id_try_from _); try discriminate. eapply Count_file; eassumption.
Qed.
Lemma Count_dash7_config {E : Env} : Count 0 read_dash7_config.
Proof. unfold read_dash7_config. destruct is_subiot; count. Qed.
Lemma Count_lorawan_config : Count 0 read_lorawan_config. Proof. unfold read_lorawan_config. count. Qed.
#[export] Hint Resolve Count_file Count_file_payload Count_dash7_config Count_lorawan_config : cnt.
Lemma Count_otaa : Count 0 read_otaa. Proof. unfold read_otaa. count. Qed.
Lemma Count_abp {E : Env} : Count 0 read_abp. Proof. unfold read_abp. count. Qed.
#[export] Hint Resolve Count_otaa Count_abp : cnt.
Lemma Count_interface_final_status i l : Count 0 (read_interface_final_status i l).
Proof. unfold read_interface_final_status, read_final_status_code. destruct (N.eqb i 0xD7); count. Qed.
#[export] Hint Resolve Count_interface_final_status : cnt.
Lemma Count_itf_final_op : Count 0 read_itf_final_op. Proof. unfold read_itf_final_op. count. Qed.
Lemma Count_dash7_tx_status {E : Env} : Count 0 read_dash7_tx_status.
Proof. unfold read_dash7_tx_status, read_final_status_code. count. Qed.
#[export] Hint Resolve Count_itf_final_op Count_dash7_tx_status : cnt.
Lemma Count_interface_tx_status {E : Env} i l : Count 0 (read_interface_tx_status i l).
Proof. unfold read_interface_tx_status. destruct (N.eqb i 0xD7); count. Qed.
#[export] Hint Resolve Count_interface_tx_status : cnt.

(** Readers that seek back: only on a byte boundary. *)
Definition CountA {A} (m : reader A) : Prop :=
  forall r v r', RWf r -> left r = [] -> m r = Ok (v, r') -> moved 0 r r'.
Lemma Count_A {A} (m : reader A) : Count 0 m -> CountA m.
Proof. intros H r v r' Hr _ E1. eapply H; eassumption. Qed.
Lemma moved_left r r' : RWf r -> left r = [] -> moved 0 r r' -> left r' = [].
Proof.
  intros (R1 & R2 & R3) Hl ((Q1 & Q2 & Q3) & _ & L & k & B & _). unfold BP in B. rewrite Hl in *. cbn [length] in *.
  specialize (L ltac:(lia)). destruct (left r') as [|x l] eqn:E1; [reflexivity|]. cbn [length] in *. lia.
Qed.
Lemma CountA_interface_config {E : Env} : CountA read_interface_config.
Proof.
  intros r v r' Hr Hl H. unfold read_interface_config, bind in H.
  destruct (read_u8 r) as [[x r1]| |] eqn:E1; try discriminate.
  pose proof (Count_u8 _ _ _ Hr E1) as M1. cbn [assoc] in H.
  assert (T : forall m : reader interface_config, Count 0 m -> m r1 = Ok (v, r') -> moved 0 r r').
  { intros m Hm Em. change 0%nat with (0 + 0)%nat. eapply moved_trans; [exact M1|]. eapply Hm; [apply M1|exact Em]. }
  destruct (N.eqb x 0); [eapply T, H; apply Count_ret|].
  destruct (N.eqb x 1); [eapply T, H; apply Count_ret|].
  destruct (N.eqb x 2); [eapply (T (c <- read_abp ;; ret (IcAbp c))), H; count|].
  destruct (N.eqb x 3); [eapply (T (c <- read_otaa ;; ret (IcOtaa c))), H; count|].
  destruct (N.eqb x 0xD7); [eapply (T (c <- read_dash7_config ;; ret (IcDash7 c))), H; count|].
  rewrite (id_field_aligned r x r1 Hr Hl E1) in H. injection H as _ <-. exact M1.
Qed.
Lemma CountA_indirect_interface {E : Env} : CountA read_indirect_interface.
Proof.
  intros r v r' Hr Hl H. unfold read_indirect_interface, bind in H.
  destruct (read_u8 r) as [[x r1]| |] eqn:E1; try discriminate.
  pose proof (Count_u8 _ _ _ Hr E1) as M1. cbn [assoc] in H.
  assert (T : forall m : reader indirect_interface, Count 0 m -> m r1 = Ok (v, r') -> moved 0 r r').
  { intros m Hm Em. change 0%nat with (0 + 0)%nat. eapply moved_trans; [exact M1|]. eapply Hm; [apply M1|exact Em]. }
  destruct (N.eqb x 0); [eapply T, H; apply Count_ret|].
  destruct (N.eqb x 1); [eapply T, H; apply Count_ret|].
  destruct (N.eqb x 0xD7); [eapply (T (c <- read_addressee ;; ret (IiDash7 c))), H; count|].
  rewrite (id_field_aligned r x r1 Hr Hl E1) in H. injection H as _ <-. exact M1.
Qed.
Lemma CountA_itf_status_op {E : Env} : CountA read_itf_status_op.
Proof.
  intros r v r' Hr Hl H. unfold read_itf_status_op, bind at 1 in H.
  destruct (read_interface_type r) as [[t r1]| |] eqn:E1; try discriminate.
  assert (M1 : moved 0 r r1).
  { unfold read_interface_type, bind in E1. destruct (read_u8 r) as [[x r2]| |] eqn:E2; try discriminate.
    pose proof (Count_u8 _ _ _ Hr E2) as M2. destruct (assoc x interface_type_tbl).
    - injection E1 as _ <-. exact M2.
    - rewrite (id_unit_aligned r x r2 Hr Hl E2) in E1. injection E1 as _ <-.
      destruct e_rewind; [apply moved_refl; exact Hr|exact M2]. }
  change 0%nat with (0 + 0)%nat. eapply moved_trans; [exact M1|].
  revert H. apply (fun C => C r1 v r' (proj1 M1)). change (Count 0
    (l <- read_length ;; s <- read_interface_status t l ;; ret (mkItfStatusOp t s))).
  eapply (Count_weaken (0 + (0 + 0))); [|count_done]. apply Count_bind; [apply Count_length|]. intros l.
  apply Count_bind; [|intros; apply Count_ret]. destruct t; cbn [read_interface_status]; eauto with cnt; count.
Qed.

(** Operands: whole bytes, except for TxStatus. *)
Lemma op_moved {A H} (hdr : reader H) (k : H -> N -> reader A) r v r' :
  Adv 2 hdr -> RWf r -> left r = [] -> (forall h o, CountA (k h o)) ->
  (h <- hdr ;; o <- read_opcode ;; k h o) r = Ok (v, r') -> moved 0 r r'.
Proof.
  intros HA Hr Hl Hk E0. unfold bind in E0. destruct (hdr r) as [[h r1]| |] eqn:E1; try discriminate.
  destruct (HA _ _ _ Hr E1) as (L1 & ->).
  destruct (read_opcode (adv r 2)) as [[o r2]| |] eqn:E2; try discriminate.
  destruct (Adv_uint 6 _ _ _ (RWf_adv _ _ Hr L1) E2) as (L2 & ->).
  rewrite view_adv, skipn_length in L2 by assumption. rewrite adv_adv in E0 by assumption. cbn [Nat.add] in E0.
  assert (L8 : (8 <= length (view r))%nat) by lia.
  pose proof (adv_aligned r 1 Hr Hl L8) as Ea. change (8 * 1)%nat with 8%nat in Ea.
  eapply (moved_weaken (8 + 0)); [|count_done]. apply moved_trans with (r1 := adv r 8).
  - apply moved_adv; assumption.
  - eapply Hk; [apply RWf_adv; assumption|rewrite Ea; reflexivity|exact E0].
Qed.
Lemma map_moved {A B} (m : reader A) (f : A -> B) r v r' :
  (forall v r', m r = Ok (v, r') -> moved 0 r r') -> (x <- m ;; ret (f x)) r = Ok (v, r') -> moved 0 r r'.
Proof.
  intros Hm H. unfold bind in H. destruct (m r) as [[x r1]| |] eqn:E1; try discriminate.
  injection H as _ <-. eapply Hm. reflexivity.
Qed.
Lemma CountA_map {A B} (m : reader A) (f : A -> B) : CountA m -> CountA (x <- m ;; ret (f x)).
Proof. intros H r v r' Hr Hl E1. eapply map_moved; [|exact E1]. intros. eapply H; eassumption. Qed.

Lemma arms_moved {E : Env} op m r a r' : In (op, m) action_readers -> op <> 38 -> RWf r -> left r = [] ->
  m r = Ok (a, r') -> moved 0 r r'.
Proof.
  intros Hin Hop Hr Hl. unfold action_readers in Hin. rewrite !in_app_iff in Hin.
  destruct Hin as [H|[H|H]].
  - cbn [In] in H.
    repeat (destruct H as [H|H]; [injection H as <- <-|]); try contradiction; apply map_moved; intros v0 r0;
      unfold read_nop, read_read_file_data, read_file_id_op, read_file_data, read_file_properties, read_action_query,
        read_permission_request, read_permission_level, read_copy_file, read_response_tag;
      (first [eapply op_moved; [apply Adv_header|exact Hr|exact Hl|]
             |rewrite two_bits; eapply op_moved; [apply Adv_two; apply Adv_bool|exact Hr|exact Hl|]];
       intros; apply Count_A).
    all: try count.
    eapply Count_weaken; [eapply Count_bind; [apply Count_enum|]; intros; eapply Count_bind; [|intros; apply Count_ret]|].
    + unfold read_permission. instantiate (1 := 0%nat). eapply (Count_weaken (0 + 0)); [|count_done].
      apply Count_bind; [apply Count_u8|]. intros. destruct (N.eqb _ _); [count|apply Count_fail].
    + count_done.
  - destruct is_wizzilab; [|contradiction]. destruct H as [H|[]]. injection H as <- _. congruence.
  - cbn [In] in H.
    repeat (destruct H as [H|H]; [injection H as <- <-|]); try contradiction; apply map_moved; intros v0 r0;
      unfold read_nop, read_chunk, read_chunk_step, read_logic, read_logic_op, read_request_tag, read_status_operand,
        read_status_type, read_forward, read_indirect_forward;
      (first [eapply op_moved; [first [apply Adv_header|apply Adv_enum]|exact Hr|exact Hl|]
             |rewrite two_bits; eapply op_moved; [apply Adv_two; first [apply Adv_bool|apply Adv_skip]|exact Hr|exact Hl|]];
       intros h o); try (apply Count_A; count).
    + apply CountA_map. destruct h; cbn [read_status].
      * apply Count_A. unfold read_action_status.
        eapply (Count_weaken (0 + 0)); [apply Count_bind; [count|intros; apply Count_ret]|count_done].
      * apply CountA_map, CountA_itf_status_op.
      * apply Count_A. destruct is_wizzilab; [count|apply Count_fail].
    + apply CountA_map, CountA_interface_config.
    + apply CountA_map. destruct h as [[] ?]; cbn [fst read_cond].
      * apply CountA_map, CountA_indirect_interface.
      * apply Count_A, Count_ret.
Qed.

(** Where an action that is not a TxStatus ends. *)
Lemma read_action_moved {E : Env} r p b t a r' : At r p -> skipn p (data r) = b :: t ->
  read_action r = Ok (a, r') -> is_tx_status a = false ->
  exists q, (p < q)%nat /\ At r' q /\ data r' = data r /\ (bread r' = bread r + 8 + 8 * (q - p))%nat.
Proof.
  intros Hr Hs H Ht. pose proof (read_action_parsed r p b t a r' Hr Hs H) as (_ & Hop & _).
  assert (Hr0 : RWf r) by apply Hr. assert (HB : BP r = (8 * p)%nat) by apply Hr. assert (Hpl : (p <= length (data r))%nat) by apply Hr.
  pose proof (Nice_action r Hr0) as N8. rewrite H in N8. destruct N8 as (_ & R' & D' & B' & _).
  rewrite (read_action_at r p b t Hr Hs) in H.
  destruct (assoc (b mod 64) action_readers) as [m|] eqn:Ha; [|discriminate].
  pose proof (At_start (data r) p (bread r + 8) Hpl) as (RW & _ & HB' & _).
  assert (Ho : b mod 64 <> 38).
  { rewrite <- Hop. destruct a; cbn in *; discriminate. }
  pose proof (arms_moved _ _ _ _ _ (assoc_In _ _ _ Ha) Ho RW eq_refl H) as M.
  pose proof (moved_left _ _ RW eq_refl M) as Hl'.
  destruct M as (_ & D1 & _ & k & B1 & C1).
  rewrite HB' in B1. cbn [bread data Nat.add] in *. exists (p + k)%nat.
  assert (Ep : pos r' = (p + k)%nat) by (unfold BP in B1; rewrite Hl' in B1; cbn [length] in B1; lia).
  split; [lia|]. split; [|split; [exact D'|lia]].
  destruct r' as [d q l n]. cbn [data pos left bread] in *. subst d q l. apply At_start. destruct R' as (Q1 & _). exact Q1.
Qed.

(** The bit count is one byte too high after every action. *)
Lemma arms_counted {E : Env} op m r a r' : In (op, m) action_readers -> RWf r -> left r = [] ->
  m r = Ok (a, r') -> exists c, moved c r r'.
Proof.
  intros Hin Hr Hl H. destruct (N.eq_dec op 38) as [->|Hop].
  2: { exists 0%nat. eapply arms_moved; eassumption. }
  unfold action_readers in Hin. rewrite !in_app_iff in Hin. destruct Hin as [G|[G|G]].
  - exfalso. cbn [In] in G. repeat (destruct G as [G|G]; [injection G; intros; discriminate|]). exact G.
  - destruct is_wizzilab; [|contradiction]. destruct G as [G|[]]. injection G as <-. exists 6%nat.
    assert (C : Count 6 (v <- read_tx_status_op ;; ret (ATxStatus v))).
    { unfold read_tx_status_op. count. }
    eapply C; eassumption.
  - exfalso. cbn [In] in G. repeat (destruct G as [G|G]; [injection G; intros; discriminate|]). exact G.
Qed.
Lemma read_action_counted {E : Env} r p b t a r' : At r p -> skipn p (data r) = b :: t ->
  read_action r = Ok (a, r') ->
  RWf r' /\ data r' = data r /\ (8 * p + 8 <= BP r')%nat /\ (bread r' + 8 * p = bread r + 8 + BP r')%nat.
Proof.
  intros Hr Hs H.
  assert (Hr0 : RWf r) by apply Hr. assert (HB : BP r = (8 * p)%nat) by apply Hr. assert (Hpl : (p <= length (data r))%nat) by apply Hr.
  pose proof (Nice_action r Hr0) as N8. rewrite H in N8. destruct N8 as (_ & R' & D' & B' & _).
  rewrite (read_action_at r p b t Hr Hs) in H.
  destruct (assoc (b mod 64) action_readers) as [m|] eqn:Ha; [|discriminate].
  pose proof (At_start (data r) p (bread r + 8) Hpl) as (RW & _ & HB' & _).
  destruct (arms_counted _ _ _ _ _ (assoc_In _ _ _ Ha) RW eq_refl H) as (c & _ & D1 & _ & k & B1 & C1).
  rewrite HB' in B1. cbn [bread] in C1. split; [exact R'|]. split; [exact D'|]. lia.
Qed.
