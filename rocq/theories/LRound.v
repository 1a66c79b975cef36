(** Every reader inverts its writer on well-formed values. *)
From Coq Require Import List NArith ZArith Bool Lia ZifyBool ZifyNat ZifyN Arith.
From Verif Require Import Base Deku Utils Types Physical Link Network Session Data Query
  Interface File Operation Action Command LBits LReader LTypes WellFormed SpecLayout LLayout.
Import ListNotations.
Open Scope N_scope.

(** One step: the next field, by a lemma of the database or the given tactic. *)
Create HintDb rt.
#[export] Hint Resolve RT_bool RT_pad RT_varint RT_length : rt.
#[export] Hint Extern 1 (RT (write_u8 _) read_u8 _) => apply RT_u8; assumption : rt.
#[export] Hint Extern 1 (RT (write_u16be _) read_u16be _) => apply RT_u16; assumption : rt.
#[export] Hint Extern 1 (RT (write_u32be _) read_u32be _) => apply RT_u32; assumption : rt.
#[export] Hint Extern 1 (RT (write_u64be _) read_u64be _) => apply RT_u64; assumption : rt.
#[export] Hint Extern 1 (RT (write_i8 _) read_i8 _) => apply RT_i8; assumption : rt.
#[export] Hint Extern 1 (RT (write_uint _ _) (read_uint _) _) => apply RT_uint; assumption : rt.
Ltac rt1 := eauto with rt.
Ltac rt :=
  repeat lazymatch goal with
  | |- RT (_ +++ _) (bind _ _) _ => eapply RT_bind; [solve [rt1]|cbv beta]
  | |- RT _ (bind _ _) _ => eapply RT_last; [solve [rt1]|reflexivity]
  | |- RT wnil (ret _) _ => apply RT_nil
  end.
(** An enum: the table maps the id of each variant back to it. *)
Ltac rt_enum v := intros; destruct v; apply RT_enum; reflexivity.

Lemma RT_file_offset v : wf_file_offset v -> RT (write_file_offset v) read_file_offset v.
Proof.
  intros (H1 & H2). destruct v. unfold write_file_offset, read_file_offset. rt.
Qed.
#[export] Hint Resolve RT_file_offset : rt.

(** physical *)
Lemma RT_bandwidth v : RT (write_bandwidth v) read_bandwidth v. Proof. rt_enum v. Qed.
Lemma RT_channel_band v : RT (write_channel_band v) read_channel_band v. Proof. rt_enum v. Qed.
Lemma RT_channel_class v : RT (write_channel_class v) read_channel_class v. Proof. rt_enum v. Qed.
Lemma RT_channel_coding v : RT (write_channel_coding v) read_channel_coding v. Proof. rt_enum v. Qed.
Lemma RT_csma_ca_mode v : RT (write_csma_ca_mode v) read_csma_ca_mode v. Proof. rt_enum v. Qed.
#[export] Hint Resolve RT_bandwidth RT_channel_band RT_channel_class RT_channel_coding RT_csma_ca_mode : rt.
Lemma RT_channel_header v : RT (write_channel_header v) read_channel_header v.
Proof. destruct v. unfold write_channel_header, read_channel_header. rt. Qed.
#[export] Hint Resolve RT_channel_header : rt.
Lemma RT_channel v : wf_channel v -> RT (write_channel v) read_channel v.
Proof. intros H. destruct v. unfold wf_channel, write_channel, read_channel in *. rt. Qed.
#[export] Hint Resolve RT_channel : rt.
Lemma RT_channel_status v : wf_channel_status v -> RT (write_channel_status v) read_channel_status v.
Proof.
  intros (H1 & H2). destruct v as [i n]. cbn [cs_identifier cs_noise_floor] in *.
  unfold write_channel_status, read_channel_status. cbn [cs_identifier cs_noise_floor].
  assert (RT (write_channel_status_identifier i) read_channel_status_identifier i).
  { destruct i. unfold write_channel_status_identifier, read_channel_status_identifier. rt. }
  rt.
Qed.
Lemma RT_sub_band v : wf_sub_band v -> RT (write_sub_band v) read_sub_band v.
Proof.
  intros (H1 & H2 & H3 & H4 & H5). destruct v. unfold write_sub_band, read_sub_band. rt.
Qed.

(** link *)
Lemma RT_sub_profile v : wf_sub_profile v -> RT (write_sub_profile v) read_sub_profile v.
Proof. intros (H1 & H2). destruct v. unfold write_sub_profile, read_sub_profile. rt. Qed.
Lemma RT_access_class v : wf_access_class v -> RT (write_access_class v) read_access_class v.
Proof. intros (H1 & H2). destruct v. unfold write_access_class, read_access_class. rt. Qed.
#[export] Hint Resolve RT_access_class : rt.
Lemma RT_array {A} (w : A -> writer) (m : reader A) (P : A -> Prop) n l :
  (forall x, P x -> RT (w x) m x) -> length l = n -> Forall P l ->
  RT (write_list w l) (read_list n m) l.
Proof. intros Hm <- H. apply RT_list. eapply Forall_impl; [|exact H]. exact Hm. Qed.
Lemma RT_access_profile v : wf_access_profile v -> RT (write_access_profile v) read_access_profile v.
Proof.
  intros (H1 & H2 & H3 & H4). destruct v as [h p b].
  unfold write_access_profile, read_access_profile, write_array, read_array.
  pose proof (RT_array _ _ _ _ _ RT_sub_profile H1 H2).
  pose proof (RT_array _ _ _ _ _ RT_sub_band H3 H4). rt.
Qed.

(** network *)
Lemma RT_group_condition v : RT (write_group_condition v) read_group_condition v. Proof. rt_enum v. Qed.
Lemma RT_address_type v : RT (write_address_type v) read_address_type v. Proof. rt_enum v. Qed.
Lemma RT_nls_method {E : Env} v : RT (write_nls_method v) read_nls_method v.
Proof.
  unfold write_nls_method, read_nls_method, nls_bits. destruct is_wizzilab; rt_enum v.
Qed.
#[export] Hint Resolve RT_group_condition RT_address_type RT_nls_method : rt.
Lemma RT_address v : wf_address v -> RT (write_address v) (read_address (address_kind v)) v.
Proof. destruct v; cbn [wf_address write_address read_address address_kind]; intros H; rt. Qed.
Lemma RT_nls_state v : wf_nls_state v -> RT (write_nls_state v) (read_nls_state (nls_state_method v)) v.
Proof.
  destruct v; cbn [wf_nls_state write_nls_state read_nls_state nls_state_method]; intros H; [rt|..];
    (destruct H as (Hb & Hl); pose proof (RT_bytes 5 _ Hl Hb); rt).
Qed.
Lemma address_matches_kind t a : address_matches t a -> t = address_kind a.
Proof. destruct t, a; cbn; tauto. Qed.
Lemma nls_matches_method m s : nls_matches m s -> m = nls_state_method s.
Proof. destruct m, s; cbn; tauto. Qed.
Lemma RT_addressee {E : Env} v : wf_addressee v -> RT (write_addressee v) read_addressee v.
Proof.
  intros (H1 & H2 & H3 & H4 & H5 & H6). apply address_matches_kind in H2. apply nls_matches_method in H3.
  destruct v as [g t u n c a s]. cbn [ad_group ad_type ad_use_vid ad_nls ad_access ad_address ad_state] in *.
  subst t n. unfold write_addressee, read_addressee.
  cbn [ad_group ad_type ad_use_vid ad_nls ad_access ad_address ad_state].
  pose proof (RT_address a H5). pose proof (RT_nls_state s H6).
  assert (is_wizzilab = true \/ (is_wizzilab = false /\ g = GcAny /\ u = false)) as [W|(W & -> & ->)].
  { unfold is_wizzilab. destruct H1 as [->|[-> ->]]; [left; reflexivity|]. destruct e_feat; auto. }
  - rewrite W. rt.
  - rewrite W. eapply RT_bind with (x := GcAny); [rt|]. rt.
    eapply RT_bind with (x := false); [rt|]. rt.
Qed.
#[export] Hint Resolve RT_addressee : rt.

(** session *)
Lemma RT_response_mode v : RT (write_response_mode v) read_response_mode v. Proof. rt_enum v. Qed.
Lemma RT_retry_mode v : RT (write_retry_mode v) read_retry_mode v. Proof. rt_enum v. Qed.
#[export] Hint Resolve RT_response_mode RT_retry_mode : rt.
Lemma RT_qos v : RT (write_qos v) read_qos v.
Proof. destruct v. unfold write_qos, read_qos. rt. Qed.
#[export] Hint Resolve RT_qos : rt.
Lemma RT_dash7_status {E : Env} v : wf_dash7_status v -> RT (write_dash7_status v) read_dash7_status v.
Proof.
  intros (H1 & H2 & H3 & H4 & H5 & H6 & H7 & H8). destruct v.
  unfold write_dash7_status, read_dash7_status. rt.
Qed.
#[export] Hint Resolve RT_dash7_status : rt.
Lemma RT_final_status_code v : RT (write_final_status_code v) read_final_status_code v.
Proof. rt_enum v. Qed.
#[export] Hint Resolve RT_final_status_code : rt.
Lemma RT_dash7_tx_status {E : Env} v : wf_tx_status v -> RT (write_dash7_tx_status v) read_dash7_tx_status v.
Proof.
  intros (H1 & H2 & H3 & H4). destruct v.
  unfold write_dash7_tx_status, read_dash7_tx_status.
  pose proof (RT_native 4 _ H3). rt.
Qed.

(** data *)
Lemma RT_action_condition v : RT (write_action_condition v) read_action_condition v. Proof. rt_enum v. Qed.
Lemma RT_storage_class v : RT (write_storage_class v) read_storage_class v. Proof. rt_enum v. Qed.
#[export] Hint Resolve RT_action_condition RT_storage_class : rt.
Lemma RT_user_permissions v : RT (write_user_permissions v) read_user_permissions v.
Proof. destruct v. unfold write_user_permissions, read_user_permissions. rt. Qed.
#[export] Hint Resolve RT_user_permissions : rt.
Lemma RT_file_permissions v : RT (write_file_permissions v) read_file_permissions v.
Proof. destruct v. unfold write_file_permissions, read_file_permissions. rt. Qed.
Lemma RT_fs_properties v : RT (write_fs_properties v) read_fs_properties v.
Proof. destruct v. unfold write_fs_properties, read_fs_properties. rt. Qed.
#[export] Hint Resolve RT_file_permissions RT_fs_properties : rt.
Lemma RT_file_header v : wf_file_header v -> RT (write_file_header v) read_file_header v.
Proof.
  intros (H1 & H2 & H3 & H4). destruct v. unfold write_file_header, read_file_header. rt.
Qed.
#[export] Hint Resolve RT_file_header : rt.

(** query *)
Lemma RT_arith_cmp v : RT (write_arith_cmp v) read_arith_cmp v. Proof. rt_enum v. Qed.
Lemma RT_range_cmp v : RT (write_range_cmp v) read_range_cmp v. Proof. rt_enum v. Qed.
#[export] Hint Resolve RT_arith_cmp RT_range_cmp : rt.
Lemma RT_arith_params v : RT (write_arith_params v) read_arith_params v.
Proof. destruct v. unfold write_arith_params, read_arith_params. rt. Qed.
Lemma RT_range_params v : RT (write_range_params v) read_range_params v.
Proof. destruct v. unfold write_range_params, read_range_params. rt. Qed.
#[export] Hint Resolve RT_arith_params RT_range_params : rt.
Lemma RT_mask p n k : wf_mask p n k -> RT (write_vec_u8 k) (read_cond_vec p n) k.
Proof.
  intros (Hb & Hl). destruct p; cbn [read_cond_vec].
  - apply RT_vec_u8; assumption.
  - destruct k; [apply RT_nil|cbn in Hl; lia].
Qed.
Lemma RT_vec n k : wf_mask true n k -> RT (write_vec_u8 k) (read_vec_u8 n) k.
Proof. intros (Hb & Hl). apply RT_vec_u8; assumption. Qed.
#[export] Hint Resolve RT_mask RT_vec : rt.

Lemma RT_query q : wf_query q -> RT (write_query q) read_query q.
Proof.
  intros H. unfold write_query, read_query.
  eapply RT_bind with (x := query_id q).
  { apply RT_uint. destruct q; reflexivity. }
  destruct q as [v|v|v|v|v|v]; cbn [wf_query query_id] in *; cbn [assoc query_readers N.eqb Pos.eqb];
    (eapply RT_last; [|reflexivity]); destruct v.
  - destruct H as (H1 & H2). unfold write_non_void, read_non_void. rt.
  - destruct H as (H1 & H2 & H3). unfold write_cmp_zero, read_cmp_zero. rt.
  - destruct H as (H1 & H2 & H3 & H4). unfold write_cmp_value, read_cmp_value. rt.
  - destruct H as (H1 & H2 & H3 & H4). unfold write_cmp_other, read_cmp_other. rt.
  - destruct H as (H1 & H2 & H3 & H4 & H5). unfold write_bitmap_range, read_bitmap_range. rt.
  - destruct H as (H0 & H1 & H2 & H3 & H4). unfold write_string_search, read_string_search. rt.
Qed.
#[export] Hint Resolve RT_query : rt.

(** interface *)
Lemma RT_dash7_config {E : Env} v : wf_dash7_config v -> RT (write_dash7_config v) read_dash7_config v.
Proof.
  intros (H1 & H2 & H3 & H4). destruct v as [q d x a]. cbn [dc_qos dc_dormant dc_exec_delay dc_addressee] in *.
  unfold write_dash7_config, read_dash7_config. cbn [dc_qos dc_dormant dc_exec_delay dc_addressee].
  eapply RT_bind; [rt1|]. eapply RT_bind; [rt1|].
  eapply RT_bind with (x := x).
  - unfold is_subiot. destruct e_feat; [rt1| |rt1]. rewrite H3 by reflexivity. rt.
  - rt.
Qed.
#[export] Hint Resolve RT_dash7_config : rt.
Lemma RT_lorawan_config v : wf_lorawan_config v -> RT (write_lorawan_config v) read_lorawan_config v.
Proof. intros (H1 & H2). destruct v. unfold write_lorawan_config, read_lorawan_config. rt. Qed.
#[export] Hint Resolve RT_lorawan_config : rt.
Lemma RT_fixed n l : wf_fixed n l -> RT (write_vec_u8 l) (read_vec_u8 (N.of_nat n)) l.
Proof. intros (H1 & H2). apply RT_vec_u8; [rewrite H2; reflexivity|assumption]. Qed.
Lemma RT_otaa v : wf_otaa v -> RT (write_otaa v) read_otaa v.
Proof.
  intros (H1 & H2 & H3 & H4). destruct v. unfold write_otaa, read_otaa.
  pose proof (RT_fixed _ _ H2) as R2. pose proof (RT_fixed _ _ H3) as R3. pose proof (RT_fixed _ _ H4) as R4.
  cbn [N.of_nat Pos.of_succ_nat Pos.succ] in R2, R3, R4. rt.
Qed.
Lemma RT_abp {E : Env} v : wf_abp v -> RT (write_abp v) read_abp v.
Proof.
  intros (H1 & H2 & H3 & H4 & H5). destruct v. unfold write_abp, read_abp.
  pose proof (RT_fixed _ _ H2) as R2. pose proof (RT_fixed _ _ H3) as R3.
  pose proof (RT_native 4 _ H4) as R4. pose proof (RT_native 4 _ H5) as R5.
  cbn [N.of_nat Pos.of_succ_nat Pos.succ] in R2, R3. rt.
Qed.
#[export] Hint Resolve RT_otaa RT_abp : rt.

(** The [id_pat] variants, which may put the id back, need a byte boundary. *)
Lemma ReadsA_id_field {E : Env} {A} (f : N -> reader A) (mk : N -> A) i :
  i < 256 ->
  (forall r, f i r = (j <- read_id_field i ;; ret (mk j)) r) ->
  RTA (write_u8 i) (bind read_u8 f) (mk i).
Proof.
  intros Hi Hf. exists (bits_of 8 i). split; [reflexivity|].
  intros r Hr Hl Hp. rewrite bits_of_length. unfold bind.
  pose proof (Reads_uint 8 i Hi r Hr Hp) as R. unfold read_u8.
  rewrite R, Hf. rewrite bits_of_length. unfold bind, read_id_field.
  apply prefix_length in Hp as Hn. rewrite bits_of_length in Hn.
  destruct e_rewind; [|reflexivity].
  assert (A8 : adv r 8 = mkRd (data r) (S (pos r)) [] (bread r + 8)).
  { pose proof (adv_aligned r 1 Hr Hl Hn) as G. rewrite Nat.add_1_r in G. exact G. }
  rewrite A8. unfold seek_last_read8, bind. cbn [pos data bread left].
  replace (mkRd (data r) (pos r) [] (bread r + 8 - 8)) with r.
  2: { destruct r as [d p l b]. cbn [data pos left bread] in *. subst l. f_equal. lia. }
  unfold read_u8. rewrite R, bits_of_length, A8. reflexivity.
Qed.

Lemma RTA_interface_config {E : Env} v : wf_interface_config v ->
  RTA (write_interface_config v) read_interface_config v.
Proof.
  destruct v as [| |c|c|c|i]; cbn [wf_interface_config write_interface_config]; intros H; unfold read_interface_config.
  - apply RT_A. eapply RT_last; [apply RT_u8; reflexivity|]. reflexivity.
  - apply RT_A. eapply RT_last; [apply RT_u8; reflexivity|]. reflexivity.
  - apply RT_A. eapply RT_bind; [apply RT_u8; reflexivity|]. cbv beta. cbn [assoc N.eqb Pos.eqb]. rt.
  - apply RT_A. eapply RT_bind; [apply RT_u8; reflexivity|]. cbv beta. cbn [assoc N.eqb Pos.eqb]. rt.
  - apply RT_A. eapply RT_bind; [apply RT_u8; reflexivity|]. cbv beta. cbn [assoc N.eqb Pos.eqb]. rt.
  - destruct H as (H1 & H2). apply ReadsA_id_field; [exact H1|]. intros r.
    replace (assoc i _) with (@None (reader interface_config)); [reflexivity|].
    cbn [In] in H2. cbn [assoc].
    repeat match goal with |- context [i =? ?k] => destruct (N.eqb_spec i k); [subst; tauto|] end.
    reflexivity.
Qed.
Lemma RTA_indirect_interface {E : Env} v : wf_indirect_interface v ->
  RTA (write_indirect_interface v) read_indirect_interface v.
Proof.
  destruct v as [| |c|i]; cbn [wf_indirect_interface write_indirect_interface]; intros H; unfold read_indirect_interface.
  - apply RT_A. eapply RT_last; [apply RT_u8; reflexivity|]. reflexivity.
  - apply RT_A. eapply RT_last; [apply RT_u8; reflexivity|]. reflexivity.
  - apply RT_A. eapply RT_bind; [apply RT_u8; reflexivity|]. cbv beta. cbn [assoc N.eqb Pos.eqb]. rt.
  - destruct H as (H1 & H2). apply ReadsA_id_field; [exact H1|]. intros r.
    replace (assoc i _) with (@None (reader indirect_interface)); [reflexivity|].
    cbn [In] in H2. cbn [assoc].
    repeat match goal with |- context [i =? ?k] => destruct (N.eqb_spec i k); [subst; tauto|] end.
    reflexivity.
Qed.

(** file *)
Lemma RT_dll_config v : wf_dll_config v -> RT (write_dll_config v) read_dll_config v.
Proof. intros (H1 & H2 & H3 & H4 & H5). destruct v. unfold write_dll_config, read_dll_config. rt. Qed.
Lemma RT_dll_status v : wf_dll_status v -> RT (write_dll_status v) read_dll_status v.
Proof.
  intros (H1 & H2 & H3 & H4 & H5 & H6 & H7). destruct v. unfold write_dll_status, read_dll_status. rt.
Qed.
Lemma RT_eng_method v : RT (write_eng_method v) read_eng_method v. Proof. rt_enum v. Qed.
#[export] Hint Resolve RT_eng_method : rt.
Lemma RT_engineering_mode v : wf_engineering_mode v -> RT (write_engineering_mode v) read_engineering_mode v.
Proof.
  intros (H1 & H2 & H3 & H4). destruct v. unfold write_engineering_mode, read_engineering_mode. rt.
Qed.
Lemma RT_factory_settings v : wf_factory_settings v -> RT (write_factory_settings v) read_factory_settings v.
Proof.
  intros H. unfold wf_factory_settings in H. decompose [and] H; clear H.
  destruct v.
  unfold write_factory_settings, read_factory_settings. rt.
Qed.
