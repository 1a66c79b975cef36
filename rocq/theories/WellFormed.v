(** Which values are well formed: every number fits the Rust type and the bit field it lives in,
    and fields that describe each other agree. Only the data types of the model are used here,
    none of its readers, writers or helper functions. *)
From Coq Require Import List NArith ZArith Bool Lia.
From Verif Require Import Base Deku Utils Types Physical Link Network Session Data Query
  Interface File Operation Action Command Frames.
Import ListNotations.
Open Scope N_scope.

Definition u8 (n : N) : Prop := n < 256.
Definition u16 (n : N) : Prop := n < 2 ^ 16.
Definition u32 (n : N) : Prop := n < 2 ^ 32.
Definition u64 (n : N) : Prop := n < 2 ^ 64.
Definition u128 (n : N) : Prop := n < 2 ^ 128.
Definition i8 (z : Z) : Prop := (-128 <= z < 128)%Z.

(** Exactly representable, and built without asking for rounding up. *)
Definition wf_varint (v : varint) : Prop :=
  vi_ceil v = false /\ exists e m, e < 8 /\ m < 32 /\ vi_value v = 4 ^ e * m.

Definition wf_length (n : N) : Prop := n < 2 ^ 30.
(** A payload whose byte count is a valid Length. *)
Definition wf_payload (l : list N) : Prop := bytes l /\ wf_length (N.of_nat (length l)).
(** A fixed size byte string. *)
Definition wf_fixed (n : nat) (l : list N) : Prop := bytes l /\ length l = n.

Definition wf_file_offset (v : file_offset) : Prop := u8 (fo_file_id v) /\ wf_length (fo_offset v).

(** physical, link *)
Definition wf_channel (v : channel) : Prop := u16 (chan_index v).
Definition wf_channel_status (v : channel_status) : Prop :=
  csi_index (cs_identifier v) < 2 ^ 11 /\ u8 (cs_noise_floor v).
Definition wf_sub_band (v : sub_band) : Prop :=
  u16 (sb_start v) /\ u16 (sb_end v) /\ i8 (sb_eirp v) /\ u8 (sb_cca v) /\ u8 (sb_duty v).
Definition wf_sub_profile (v : sub_profile) : Prop := u8 (sp_bitmap v) /\ wf_varint (sp_period v).
Definition wf_access_class (v : access_class) : Prop := ac_specifier v < 16 /\ ac_mask v < 16.
Definition wf_access_profile (v : access_profile) : Prop :=
  length (ap_sub_profiles v) = 4%nat /\ Forall wf_sub_profile (ap_sub_profiles v) /\
  length (ap_sub_bands v) = 8%nat /\ Forall wf_sub_band (ap_sub_bands v).

(** network *)
Definition wf_address (a : address) : Prop :=
  match a with NbId v => wf_varint v | NoId => True | UId v => u64 v | VId v => u16 v end.
Definition wf_nls_state (s : nls_state) : Prop :=
  match s with
  | NsNone => True
  | NsAesCtr k | NsAesCbcMac128 k | NsAesCbcMac64 k | NsAesCbcMac32 k
  | NsAesCcm128 k | NsAesCcm64 k | NsAesCcm32 k => wf_fixed 5 k
  end.
(** The type field names the kind of the address. *)
Definition address_matches (t : address_type) (a : address) : Prop :=
  match t, a with
  | AtNbId, NbId _ | AtNoId, NoId | AtUId, UId _ | AtVId, VId _ => True
  | _, _ => False
  end.
(** The method field names the kind of the state. *)
Definition nls_matches (m : nls_method) (s : nls_state) : Prop :=
  match m, s with
  | NlsNone, NsNone | NlsAesCtr, NsAesCtr _ | NlsAesCbcMac128, NsAesCbcMac128 _
  | NlsAesCbcMac64, NsAesCbcMac64 _ | NlsAesCbcMac32, NsAesCbcMac32 _
  | NlsAesCcm128, NsAesCcm128 _ | NlsAesCcm64, NsAesCcm64 _ | NlsAesCcm32, NsAesCcm32 _ => True
  | _, _ => False
  end.
(** Fields that exist only with the wizzilab feature are at their default without it. *)
Definition wf_addressee {E : Env} (v : addressee) : Prop :=
  (e_feat = Wizzilab \/ (ad_group v = GcAny /\ ad_use_vid v = false)) /\
  address_matches (ad_type v) (ad_address v) /\ nls_matches (ad_nls v) (ad_state v) /\
  wf_access_class (ad_access v) /\ wf_address (ad_address v) /\ wf_nls_state (ad_state v).

(** session *)
Definition wf_dash7_status {E : Env} (v : dash7_interface_status) : Prop :=
  wf_channel (ds_channel v) /\ u8 (ds_rx_level v) /\ u8 (ds_link_budget v) /\
  u8 (ds_target_rx_level v) /\ u8 (ds_fifo_token v) /\ u8 (ds_seq v) /\
  wf_varint (ds_timeout v) /\ wf_addressee (ds_addressee v).
Definition wf_tx_status {E : Env} (v : dash7_tx_status) : Prop :=
  wf_channel (tx_channel v) /\ i8 (tx_target_rx_level v) /\ u32 (tx_lts v) /\
  wf_addressee (tx_addressee v).

(** data *)
Definition wf_file_header (v : file_header) : Prop :=
  u8 (fh_alp_file v) /\ u8 (fh_itf_file v) /\ u32 (fh_size v) /\ u32 (fh_alloc v).

(** query: a mask is present or empty; where there is a value, length is its size. *)
Definition wf_mask (present : bool) (length : N) (mask : list N) : Prop :=
  bytes mask /\ N.of_nat (List.length mask) = if present then length else 0.
Definition wf_query (q : query) : Prop :=
  match q with
  | QNonVoid v => wf_length (nv_length v) /\ wf_file_offset (nv_file v)
  | QCmpZero v =>
      wf_length (cz_length v) /\ wf_mask (cz_mask_present v) (cz_length v) (cz_mask v) /\
      wf_file_offset (cz_file v)
  | QCmpValue v =>
      wf_length (cv_length v) /\ wf_mask (cv_mask_present v) (cv_length v) (cv_mask v) /\
      wf_mask true (cv_length v) (cv_value v) /\ wf_file_offset (cv_file v)
  | QCmpOther v =>
      wf_length (co_length v) /\ wf_mask (co_mask_present v) (co_length v) (co_mask v) /\
      wf_file_offset (co_file1 v) /\ wf_file_offset (co_file2 v)
  | QBitmapRange v =>
      wf_length (br_length v) /\ wf_length (br_start v) /\ wf_length (br_stop v) /\
      wf_mask true (br_length v) (br_mask v) /\ wf_file_offset (br_file v)
  | QStringSearch v =>
      ss_max_errors v < 8 /\ wf_length (ss_length v) /\
      wf_mask true (ss_length v) (ss_mask v) /\ wf_mask true (ss_length v) (ss_value v) /\
      wf_file_offset (ss_file v)
  end.

(** interface *)
Definition wf_dash7_config {E : Env} (v : dash7_config) : Prop :=
  wf_varint (dc_dormant v) /\ wf_varint (dc_exec_delay v) /\
  (e_feat = Subiot -> dc_exec_delay v = mkVarInt 0 false) /\ wf_addressee (dc_addressee v).
Definition wf_lorawan_config (v : lorawan_config) : Prop := u8 (lw_port v) /\ u8 (lw_rate v).
Definition wf_otaa (v : otaa_config) : Prop :=
  wf_lorawan_config (ot_base v) /\ wf_fixed 8 (ot_dev_eui v) /\ wf_fixed 8 (ot_app_eui v) /\
  wf_fixed 16 (ot_app_key v).
Definition wf_abp (v : abp_config) : Prop :=
  wf_lorawan_config (ab_base v) /\ wf_fixed 16 (ab_nwk_key v) /\ wf_fixed 16 (ab_app_key v) /\
  u32 (ab_dev_addr v) /\ u32 (ab_net_id v).
Definition wf_interface_config {E : Env} (v : interface_config) : Prop :=
  match v with
  | IcHost | IcSerial => True
  | IcAbp c => wf_abp c
  | IcOtaa c => wf_otaa c
  | IcDash7 c => wf_dash7_config c
  | IcUnknown i => u8 i /\ ~ In i [0; 1; 2; 3; 0xD7]
  end.
Definition wf_indirect_interface {E : Env} (v : indirect_interface) : Prop :=
  match v with
  | IiHost | IiSerial => True
  | IiDash7 a => wf_addressee a
  | IiUnknown i => u8 i /\ ~ In i [0; 1; 0xD7]
  end.

(** file; [b] is the file id byte the value belongs to. *)
Definition wf_dll_config (v : dll_config) : Prop :=
  u8 (dlc_ac v) /\ u8 (dlc_lq v) /\ u8 (dlc_nf v) /\ u8 (dlc_rx v) /\ u8 (dlc_tx v).
Definition wf_dll_status (v : dll_status) : Prop :=
  u8 (dst_level v) /\ u8 (dst_budget v) /\ u8 (dst_noise v) /\ u16 (dst_index v) /\
  u16 (dst_ratio v) /\ u32 (dst_scans v) /\ u32 (dst_timeouts v).
Definition wf_engineering_mode (v : engineering_mode) : Prop :=
  u8 (em_flags v) /\ u8 (em_timeout v) /\ wf_channel (em_channel v) /\ i8 (em_eirp v).
Definition wf_factory_settings (v : factory_settings) : Prop :=
  i8 (fs_gain v) /\
  u32 (fs_rx_bw_low v) /\ u32 (fs_rx_bw_normal v) /\ u32 (fs_rx_bw_high v) /\
  u32 (fs_bitrate_lo v) /\ u32 (fs_fdev_lo v) /\ u32 (fs_bitrate_normal v) /\
  u32 (fs_fdev_normal v) /\ u32 (fs_bitrate_hi v) /\ u32 (fs_fdev_hi v) /\
  u8 (fs_pre_lo v) /\ u8 (fs_pre_normal v) /\ u8 (fs_pre_hi v) /\
  u8 (fs_det_lo v) /\ u8 (fs_det_normal v) /\ u8 (fs_det_hi v) /\
  u8 (fs_tol_lo v) /\ u8 (fs_tol_normal v) /\ u8 (fs_tol_hi v) /\
  u8 (fs_rssi_smoothing v) /\ u8 (fs_rssi_offset v) /\
  u32 (fs_lora_bw v) /\ u8 (fs_lora_sf v) /\ u8 (fs_gaussian v) /\ u16 (fs_paramp v).
(** Well-formed UTF-8: the concatenated encodings of some Unicode scalar values. *)
Definition scalar (c : N) : Prop := c < 0xD800 \/ (0xE000 <= c /\ c < 0x110000).
Definition utf8_char (c : N) : list N :=
  if c <? 0x80 then [c]
  else if c <? 0x800 then [0xC0 + c / 64; 0x80 + c mod 64]
  else if c <? 0x10000 then [0xE0 + c / 4096; 0x80 + (c / 64) mod 64; 0x80 + c mod 64]
  else [0xF0 + c / 262144; 0x80 + (c / 4096) mod 64; 0x80 + (c / 64) mod 64; 0x80 + c mod 64].
Definition is_utf8 (l : list N) : Prop :=
  exists cs, Forall scalar cs /\ l = flat_map utf8_char cs.
Definition wf_firmware_version (v : firmware_version) : Prop :=
  u8 (fw_major v) /\ u8 (fw_minor v) /\ is_utf8 (fw_app v) /\ length (fw_app v) = 6%nat /\
  is_utf8 (fw_sha v) /\ length (fw_sha v) = 7%nat.
Definition wf_phy_status (v : phy_status) : Prop :=
  u32 (ps_up v) /\ u32 (ps_rx v) /\ u32 (ps_tx v) /\ u16 (ps_duty v) /\ u8 (ps_count v) /\
  N.of_nat (length (ps_channels v)) = ps_count v /\ Forall wf_channel_status (ps_channels v).

(** File ids with a typed content; every other id holds a plain byte string. *)
Definition typed_file_ids : list N :=
  [0; 1; 2; 5; 6; 9; 0xA; 0xB; 0xE; 0x20; 0x21; 0x22; 0x23; 0x24; 0x25; 0x26; 0x27; 0x28; 0x29;
   0x2A; 0x2B; 0x2C; 0x2D; 0x2E].
Definition wf_file (b : N) (f : file) : Prop :=
  match f with
  | FAccessProfile i p => i < 15 /\ b = 0x20 + i /\ wf_access_profile p
  | FUId a => b = 0 /\ match a with UId v => u64 v | _ => False end
  | FFactorySettings v => b = 1 /\ wf_factory_settings v
  | FFirmwareVersion v => b = 2 /\ wf_firmware_version v
  | FEngineeringMode v => b = 5 /\ wf_engineering_mode v
  | FVId a => b = 6 /\ match a with VId v => u16 v | _ => False end
  | FPhyStatus v => b = 9 /\ wf_phy_status v
  | FDllConfig v => b = 0xA /\ wf_dll_config v
  | FDllStatus v => b = 0xB /\ wf_dll_status v
  | FSecurityKey k => b = 0xE /\ u128 k
  | FOther l => ~ In b typed_file_ids /\ wf_payload l
  end.

(** Operands. The stored opcode is the one the action kind implies. *)
Definition wf_file_data {E : Env} (op : N) (v : file_data) : Prop :=
  fd_opcode v = op /\ wf_file_offset (fd_offset v) /\ wf_file (fo_file_id (fd_offset v)) (fd_data v).
Definition wf_file_properties (op : N) (v : file_properties) : Prop :=
  fpr_opcode v = op /\ u8 (fpr_file_id v) /\ wf_file_header (fpr_file_header v).
Definition wf_file_id_op (op : N) (v : file_id_op) : Prop := fi_opcode v = op /\ u8 (fi_file_id v).
Definition wf_action_query (op : N) (v : action_query) : Prop :=
  aq_opcode v = op /\ wf_query (aq_query v).
(** Interface statuses that can be told apart on the wire: the type field says what follows, and
    [Unknown] has no id of its own. *)
Definition wf_itf_status_op {E : Env} (v : itf_status_op) : Prop :=
  match iso_type v, iso_status v with
  | ItHost, IsHost | ItSerial, IsSerial => True
  | ItDash7, IsDash7 s => wf_dash7_status s
  | _, _ => False
  end.
Definition wf_itf_final_op (v : itf_final_op) : Prop :=
  match ifo_status v with
  | FinDash7 _ => ifo_id v = 0xD7
  | FinOther l => u8 (ifo_id v) /\ ifo_id v <> 0xD7 /\ wf_payload l
  end.
Definition wf_status_operand {E : Env} (op : N) (v : status_operand) : Prop :=
  so_opcode v = op /\
  match so_type v, so_status v with
  | StAction, StatusAction s => u8 (as_action_id s) /\ u8 (as_status s)
  | StInterface, StatusInterface s => wf_itf_status_op s
  | StInterfaceFinal, StatusInterfaceFinal s => e_feat = Wizzilab /\ wf_itf_final_op s
  | _, _ => False
  end.
Definition wf_forward {E : Env} (op : N) (v : forward) : Prop :=
  fw_opcode v = op /\ wf_interface_config (fw_config v).
Definition wf_indirect_forward {E : Env} (op : N) (v : indirect_forward) : Prop :=
  if_opcode v = op /\
  match if_overloaded v, if_config v with
  | true, Some c => wf_indirect_interface c
  | false, None => True
  | _, _ => False
  end.

(** Actions. A TxStatus (wizzilab only) is not well formed: its encoding is not readable, see
    C41. *)
Definition wf_action {E : Env} (a : action) : Prop :=
  match a with
  | ANop v => nop_opcode v = 0
  | AReadFileData v =>
      rf_opcode v = 1 /\ wf_file_offset (rf_offset v) /\ wf_length (rf_length v)
  | AReadFileProperties v => wf_file_id_op 2 v
  | AWriteFileData v => wf_file_data 4 v
  | AWriteFileDataFlush v => wf_file_data 5 v
  | AWriteFileProperties v => wf_file_properties 6 v
  | AActionQuery v => wf_action_query 8 v
  | ABreakQuery v => wf_action_query 9 v
  | APermissionRequest v =>
      prq_opcode v = 10 /\ match prq_permission v with PermDash7 k => wf_fixed 8 k end
  | AVerifyChecksum v => wf_action_query 11 v
  | AExistFile v => wf_file_id_op 16 v
  | ACreateNewFile v => wf_file_properties 17 v
  | ADeleteFile v => wf_file_id_op 18 v
  | ARestoreFile v => wf_file_id_op 19 v
  | AFlushFile v => wf_file_id_op 20 v
  | ACopyFile v => cf_opcode v = 23 /\ u8 (cf_src v) /\ u8 (cf_dst v)
  | AExecuteFile v => wf_file_id_op 31 v
  | AReturnFileData v => wf_file_data 32 v
  | AReturnFileProperties v => wf_file_properties 33 v
  | AStatus v => wf_status_operand 34 v
  | AResponseTag v => rt_opcode v = 35 /\ u8 (rt_id v)
  | ATxStatus _ => False
  | AChunk v => ck_opcode v = 48
  | ALogic v => lg_opcode v = 49
  | AForward v => wf_forward 50 v
  | AIndirectForward v => wf_indirect_forward 51 v
  | ARequestTag v => rq_opcode v = 52 /\ u8 (rq_id v)
  | AExtension v => nop_opcode v = 63
  end.

(** Commands: an IndirectForward only as the last action. *)
Definition is_indirect (a : action) : bool := match a with AIndirectForward _ => true | _ => false end.
Definition wf_command {E : Env} (c : command) : Prop :=
  Forall wf_action c /\ forall pre a post, c = pre ++ a :: post -> is_indirect a = true -> post = [].
