(** Vocabulary for C94: everything that is written, for any value whatsoever, as a table of fields
    (width, value) in the order of the wire. Of a value only the low bits the field has room for are
    written. Shared with the model: the data types. *)
From Coq Require Import List NArith ZArith Bool.
From Verif Require Import Base Deku Utils Types Physical Link Network Session Data Query
  Interface File Operation Action Command Frames SpecLayout SpecFrames.
Import ListNotations.
Open Scope N_scope.

Definition table := list (N * N).

(** The bytes [l] hold the fields of [t] and zero bits up to a whole byte; [w] writes them. *)
Definition fills (t : table) (l : list N) : Prop :=
  bytes l /\ exists n, (n < 8)%nat /\ bits_of_bytes l = bits_of_fields t ++ repeat false n.
Definition emits (w : writer) (t : table) : Prop :=
  w = Ok (bits_of_fields t) /\ exists l, to_bytes w = Ok l /\ fills t l.

(** ** Basic types *)
Definition signed (z : Z) : N * N := (8, Z.to_N (z mod 256)).
Definition t_offset (v : file_offset) : table := (8, fo_file_id v) :: octets (enc_length (fo_offset v)).
(** A payload behind the number of its bytes, of which 32 bits are kept. *)
Definition t_prefixed (t : table) : table :=
  octets (enc_length (N.of_nat (Nat.div (total_width t) 8) mod 2 ^ 32)) ++ t.
(** A string in a fixed number of bytes: cut off, or filled up with zeros. *)
Fixpoint t_string (n : nat) (s : list N) : table :=
  match n, s with
  | O, _ => []
  | S n, [] => (8, 0) :: t_string n []
  | S n, c :: s => (8, c) :: t_string n s
  end.

(** ** Physical, link *)
Definition t_channel_header (v : channel_header) : table :=
  [(1, 0); (3, code_band (ch_band v)); (2, code_class (ch_class v)); (2, code_coding (ch_coding v))].
Definition t_channel (v : channel) : table := t_channel_header (chan_header v) ++ [(16, chan_index v)].
Definition t_channel_status (v : channel_status) : table :=
  let i := cs_identifier v in
  [(3, code_band (csi_band i)); (2, code_bandwidth (csi_bandwidth i)); (11, csi_index i); (8, cs_noise_floor v)].
Definition t_sub_band (v : sub_band) : table :=
  [(16, sb_start v); (16, sb_end v); signed (sb_eirp v); (8, sb_cca v); (8, sb_duty v)].
Definition t_sub_profile (v : sub_profile) : table := (8, sp_bitmap v) :: octets (enc_varint (sp_period v)).
Definition t_access_class (v : access_class) : table := [(4, ac_specifier v); (4, ac_mask v)].
Definition t_access_profile (v : access_profile) : table :=
  t_channel_header (ap_header v) ++ flat_map t_sub_profile (ap_sub_profiles v) ++ flat_map t_sub_band (ap_sub_bands v).

(** ** Network, session *)
Definition t_address (a : address) : table :=
  match a with NbId v => octets (enc_varint v) | NoId => [] | UId v => [(64, v)] | VId v => [(16, v)] end.
(** The type, the method and the rest are written as they are, even if they disagree. *)
Definition t_addressee {E : Env} (v : addressee) : table :=
  match e_feat with
  | Wizzilab => [(2, code_group (ad_group v)); (2, code_address_type (ad_type v)); (1, bit (ad_use_vid v)); (3, code_nls (ad_nls v))]
  | _ => [(2, 0); (2, code_address_type (ad_type v)); (4, code_nls (ad_nls v))]
  end ++ t_access_class (ad_access v) ++ t_address (ad_address v) ++ octets (enc_nls_state (ad_state v)).
Definition t_qos (v : qos) : table :=
  [(1, bit (qos_stop v)); (1, bit (qos_record v)); (3, code_retry (qos_retry v)); (3, code_response (qos_resp v))].
Definition t_dash7_status {E : Env} (v : dash7_interface_status) : table :=
  t_channel (ds_channel v) ++
  [(8, ds_rx_level v); (8, ds_link_budget v); (8, ds_target_rx_level v); (1, bit (ds_nls v)); (1, bit (ds_missed v));
   (1, bit (ds_retry v)); (1, bit (ds_unicast v)); (4, 0); (8, ds_fifo_token v); (8, ds_seq v)] ++
  octets (enc_varint (ds_timeout v)) ++ t_addressee (ds_addressee v).
Definition t_tx_status {E : Env} (v : dash7_tx_status) : table :=
  t_channel (tx_channel v) ++ [signed (tx_target_rx_level v); (8, code_final (tx_error v)); (24, 0)] ++
  octets (enc_native 4 (tx_lts v)) ++ t_addressee (tx_addressee v).
Definition t_interface_status {E : Env} (v : interface_status) : table :=
  match v with IsHost | IsSerial => [] | IsDash7 s => t_dash7_status s | IsOther l => octets l end.

(** ** Data, query *)
Definition t_file_header (v : file_header) : table :=
  let p := fh_perm v in let u := fp_user p in let g := fp_guest p in let q := fh_prop v in
  [(1, bit (fp_encrypted p)); (1, bit (fp_exec p)); (1, bit (up_read u)); (1, bit (up_write u)); (1, bit (up_exec u));
   (1, bit (up_read g)); (1, bit (up_write g)); (1, bit (up_exec g));
   (1, bit (pr_enabled q)); (3, code_condition (pr_condition q)); (2, 0); (2, code_storage (pr_class q));
   (8, fh_alp_file v); (8, fh_itf_file v); (32, fh_size v); (32, fh_alloc v)].
Definition t_arith (v : arith_params) : table := [(1, bit (ap_signed v)); (3, code_cmp (ap_cmp v))].
(** Masks and values are written as they are, whatever the length and the flag say. *)
Definition t_query (q : query) : table :=
  match q with
  | QNonVoid v => [(3, 0); (5, 0)] ++ octets (enc_length (nv_length v)) ++ t_offset (nv_file v)
  | QCmpZero v =>
      [(3, 1); (1, bit (cz_mask_present v))] ++ t_arith (cz_params v) ++ octets (enc_length (cz_length v)) ++
      octets (cz_mask v) ++ t_offset (cz_file v)
  | QCmpValue v =>
      [(3, 2); (1, bit (cv_mask_present v))] ++ t_arith (cv_params v) ++ octets (enc_length (cv_length v)) ++
      octets (cv_mask v) ++ octets (cv_value v) ++ t_offset (cv_file v)
  | QCmpOther v =>
      [(3, 3); (1, bit (co_mask_present v))] ++ t_arith (co_params v) ++ octets (enc_length (co_length v)) ++
      octets (co_mask v) ++ t_offset (co_file1 v) ++ t_offset (co_file2 v)
  | QBitmapRange v =>
      [(3, 4); (1, bit (br_mask_present v)); (1, bit (rp_signed (br_params v))); (3, code_range (rp_cmp (br_params v)))] ++
      octets (enc_length (br_length v)) ++ octets (enc_length (br_start v)) ++ octets (enc_length (br_stop v)) ++
      octets (br_mask v) ++ t_offset (br_file v)
  | QStringSearch v =>
      [(3, 7); (1, bit (ss_mask_present v)); (1, 0); (3, ss_max_errors v)] ++ octets (enc_length (ss_length v)) ++
      octets (ss_mask v) ++ octets (ss_value v) ++ t_offset (ss_file v)
  end.

(** ** Interfaces *)
Definition t_dash7_config {E : Env} (v : dash7_config) : table :=
  t_qos (dc_qos v) ++ octets (enc_varint (dc_dormant v)) ++
  match e_feat with Subiot => [] | _ => octets (enc_varint (dc_exec_delay v)) end ++ t_addressee (dc_addressee v).
Definition t_lorawan (v : lorawan_config) : table :=
  [(5, 0); (1, bit (lw_adr v)); (1, bit (lw_ack v)); (1, 0); (8, lw_port v); (8, lw_rate v)].
Definition t_interface_config {E : Env} (v : interface_config) : table :=
  match v with
  | IcHost => [(8, 0)]
  | IcSerial => [(8, 1)]
  | IcAbp c => (8, 2) :: t_lorawan (ab_base c) ++ octets (ab_nwk_key c) ++ octets (ab_app_key c) ++
      octets (enc_native 4 (ab_dev_addr c)) ++ octets (enc_native 4 (ab_net_id c))
  | IcOtaa c => (8, 3) :: t_lorawan (ot_base c) ++ octets (ot_dev_eui c) ++ octets (ot_app_eui c) ++ octets (ot_app_key c)
  | IcDash7 c => (8, 0xD7) :: t_dash7_config c
  | IcUnknown i => [(8, i)]
  end.
Definition t_indirect_interface {E : Env} (v : indirect_interface) : table :=
  match v with
  | IiHost => [(8, 0)] | IiSerial => [(8, 1)] | IiDash7 a => (8, 0xD7) :: t_addressee a | IiUnknown i => [(8, i)]
  end.

(** ** Files *)
Definition t_factory (v : factory_settings) : table :=
  signed (fs_gain v) ::
  map (pair 32) [fs_rx_bw_low v; fs_rx_bw_normal v; fs_rx_bw_high v; fs_bitrate_lo v; fs_fdev_lo v;
    fs_bitrate_normal v; fs_fdev_normal v; fs_bitrate_hi v; fs_fdev_hi v] ++
  map (pair 8) [fs_pre_lo v; fs_pre_normal v; fs_pre_hi v; fs_det_lo v; fs_det_normal v; fs_det_hi v;
    fs_tol_lo v; fs_tol_normal v; fs_tol_hi v; fs_rssi_smoothing v; fs_rssi_offset v] ++
  [(32, fs_lora_bw v); (8, fs_lora_sf v); (8, fs_gaussian v); (16, fs_paramp v)].
Definition t_file {E : Env} (f : file) : table :=
  match f with
  | FAccessProfile _ p => t_access_profile p
  | FUId a | FVId a => t_address a
  | FFactorySettings v => t_factory v
  | FFirmwareVersion v => [(8, fw_major v); (8, fw_minor v)] ++ t_string 6 (fw_app v) ++ t_string 7 (fw_sha v)
  | FEngineeringMode v =>
      [(8, code_eng (em_mode v)); (8, em_flags v); (8, em_timeout v)] ++ t_channel (em_channel v) ++ [signed (em_eirp v)]
  | FPhyStatus v =>
      [(32, ps_up v); (32, ps_rx v); (32, ps_tx v); (16, ps_duty v); (8, ps_count v)] ++
      flat_map t_channel_status (ps_channels v)
  | FDllConfig v =>
      [(8, dlc_ac v); (16, 0); (8, dlc_lq v); (8, dlc_nf v); (8, dlc_rx v); (8, dlc_tx v)]
  | FDllStatus v =>
      [(8, dst_level v); (8, dst_budget v); (8, dst_noise v)] ++ t_channel_header (dst_header v) ++
      [(16, dst_index v); (16, dst_ratio v); (32, dst_scans v); (32, dst_timeouts v)]
  | FSecurityKey k => octets (enc_native 16 k)
  | FOther l => octets l
  end.

(** ** Actions *)
Definition t_first (f1 f0 : bool) (op : N) : table := [(1, bit f1); (1, bit f0); (6, op)].
Definition t_header (h : action_header) (op : N) : table := t_first (h_group h) (h_response h) op.
Definition t_file_id_op (op : N) (v : file_id_op) : table := t_header (fi_header v) op ++ [(8, fi_file_id v)].
(** The file is written as it is, whatever file the offset names. *)
Definition t_file_data {E : Env} (op : N) (v : file_data) : table :=
  t_header (fd_header v) op ++ t_offset (fd_offset v) ++ t_prefixed (t_file (fd_data v)).
Definition t_file_properties (op : N) (v : file_properties) : table :=
  t_header (fpr_header v) op ++ [(8, fpr_file_id v)] ++ t_file_header (fpr_file_header v).
Definition t_action_query (op : N) (v : action_query) : table := t_header (aq_header v) op ++ t_query (aq_query v).
(** The status, of whatever kind, follows the type field, which may name another kind. *)
Definition t_itf_status_op {E : Env} (i : itf_status_op) : table :=
  octets (code_itf_type (iso_type i)) ++ t_prefixed (t_interface_status (iso_status i)).
Definition t_itf_final_op (f : itf_final_op) : table :=
  (8, ifo_id f) :: t_prefixed (octets (enc_interface_final (ifo_status f))).
Definition t_status {E : Env} (s : status) : table :=
  match s with
  | StatusAction a => [(8, as_action_id a); (8, as_status a)]
  | StatusInterface i => t_itf_status_op i
  | StatusInterfaceFinal f => t_itf_final_op f
  end.
(** The opcode comes from the kind of the action, not from the stored field. A TxStatus has a byte of
    its own in front of the opcode, which then takes six bits. *)
Definition t_action {E : Env} (a : action) : table :=
  match a with
  | ANop v => t_header (nop_header v) 0
  | AReadFileData v => t_header (rf_header v) 1 ++ t_offset (rf_offset v) ++ octets (enc_length (rf_length v))
  | AReadFileProperties v => t_file_id_op 2 v
  | AWriteFileData v => t_file_data 4 v
  | AWriteFileDataFlush v => t_file_data 5 v
  | AWriteFileProperties v => t_file_properties 6 v
  | AActionQuery v => t_action_query 8 v
  | ABreakQuery v => t_action_query 9 v
  | APermissionRequest v =>
      t_header (prq_header v) 10 ++ [(8, code_level (prq_level v)); (8, 0x42)] ++
      match prq_permission v with PermDash7 k => octets k end
  | AVerifyChecksum v => t_action_query 11 v
  | AExistFile v => t_file_id_op 16 v
  | ACreateNewFile v => t_file_properties 17 v
  | ADeleteFile v => t_file_id_op 18 v
  | ARestoreFile v => t_file_id_op 19 v
  | AFlushFile v => t_file_id_op 20 v
  | ACopyFile v => t_header (cf_header v) 23 ++ [(8, cf_src v); (8, cf_dst v)]
  | AExecuteFile v => t_file_id_op 31 v
  | AReturnFileData v => t_file_data 32 v
  | AReturnFileProperties v => t_file_properties 33 v
  | AStatus v => [(2, code_status_type (so_type v)); (6, 34)] ++ t_status (so_status v)
  | AResponseTag v => t_first (rt_eop v) (rt_error v) 35 ++ [(8, rt_id v)]
  | ATxStatus v =>
      [(2, 1); (6, 0); (6, 38); (8, txo_itf_id v)] ++
      t_prefixed match txo_status v with TxDash7 s => t_tx_status s | TxOther l => octets l end
  | AChunk v => [(2, code_chunk (ck_step v)); (6, 48)]
  | ALogic v => [(2, code_logic (lg_op v)); (6, 49)]
  | AForward v => t_first false (fw_response v) 50 ++ t_interface_config (fw_config v)
  | AIndirectForward v =>
      t_first (if_overloaded v) (if_response v) 51 ++
      match if_config v with Some c => t_indirect_interface c | None => [] end
  | ARequestTag v => t_first (rq_eop v) false 52 ++ [(8, rq_id v)]
  | AExtension v => t_header (nop_header v) 63
  end.
Definition t_command {E : Env} (c : command) : table := flat_map t_action c.

(** ** Frames: fields that are given are written, whatever the control fields say *)
Definition t_optional {A} (t : A -> table) (o : option A) : table := match o with Some x => t x | None => [] end.
Definition t_varint (v : varint) : table := octets (enc_varint v).
Definition t_frame {E : Env} (v : fframe) : table :=
  let n := ff_frame v in let t := nf_frame n in
  octets (enc_length (ff_length v)) ++ [(8, ff_subnet v); (2, code_address_type (ff_type v)); (6, ff_eirp v)] ++
  t_address (ff_target v) ++
  ncontrol_fields (nf_control n) ++ hopping_fields (nf_hopping n) ++ t_access_class (nf_access n) ++ t_address (nf_origin n) ++
  tcontrol_fields (tf_control t) ++ [(8, tf_dialog t); (8, tf_transaction t)] ++
  t_optional (fun x => [(8, x)]) (tf_target_rx t) ++ t_optional t_varint (tf_listen t) ++
  t_optional t_varint (tf_exec_delay t) ++ t_optional t_varint (tf_congestion t) ++
  t_optional (fun a => [(8, ack_start a); (8, ack_stop a)]) (tf_ack t) ++
  t_command (tf_command t) ++ octets (enc_native 2 (ff_crc v)).
Definition t_bframe {E : Env} (v : bframe) : table :=
  [(8, bf_subnet v); (2, code_address_type (bf_type v)); (6, bf_tag v)] ++
  octets (enc_native 2 (bf_payload v)) ++ octets (enc_native 2 (bf_crc v)).
