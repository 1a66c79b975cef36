(** The documented wire format, byte by byte, written down independently of the model's readers
    and writers: only the data types and [be_bytes] are shared. *)
From Coq Require Import List NArith ZArith Bool Lia.
From Verif Require Import Base Deku Utils Types Physical Link Network Session Data Query
  Interface File Operation Action Command.
Import ListNotations.
Open Scope N_scope.

(** Fields (width, value) packed into one number, the first one in the highest bits. *)
Definition pack (l : list (N * N)) : N := fold_left (fun a f => a * 2 ^ fst f + snd f) l 0.
Definition bit (b : bool) : N := if b then 1 else 0.

(** Length: two size bits, then 6, 14, 22 or 30 bits of value. *)
Definition enc_length (v : N) : list N :=
  if v <? 2 ^ 6 then [v]
  else if v <? 2 ^ 14 then be_bytes 2 (1 * 2 ^ 14 + v)
  else if v <? 2 ^ 22 then be_bytes 3 (2 * 2 ^ 22 + v)
  else be_bytes 4 (3 * 2 ^ 30 + v).

(** VarInt: the smallest exponent that reaches the value, then the mantissa. *)
Definition varint_exponent (v : N) : N :=
  if v <=? 31 then 0 else if v <=? 31 * 4 then 1 else if v <=? 31 * 16 then 2
  else if v <=? 31 * 64 then 3 else if v <=? 31 * 256 then 4 else if v <=? 31 * 1024 then 5
  else if v <=? 31 * 4096 then 6 else 7.
Definition enc_varint (v : varint) : list N :=
  let e := varint_exponent (vi_value v) in
  let m := vi_value v / 4 ^ e in
  let up := vi_ceil v && negb (vi_value v mod 4 ^ e =? 0) in
  [32 * e + (if up then m + 1 else m)].

Definition enc_file_offset (v : file_offset) : list N := fo_file_id v :: enc_length (fo_offset v).
Definition enc_i8 (z : Z) : N := if (z <? 0)%Z then Z.to_N (z + 256) else Z.to_N z.

(** physical *)
Definition code_bandwidth v := match v with KHz200 => 0 | KHz25 => 1 end.
Definition code_band v :=
  match v with BandRfu0 => 0 | BandRfu1 => 1 | Band433 => 2 | Band868 => 3 | Band915 => 4 end.
Definition code_class v := match v with LoRate => 0 | Lora => 1 | NormalRate => 2 | HiRate => 3 end.
Definition code_coding v := match v with Pn9 => 0 | CodingRfu => 1 | FecPn9 => 2 | Cw => 3 end.
Definition enc_channel_header (v : channel_header) : N :=
  pack [(1, 0); (3, code_band (ch_band v)); (2, code_class (ch_class v));
        (2, code_coding (ch_coding v))].
Definition enc_channel (v : channel) : list N :=
  enc_channel_header (chan_header v) :: be_bytes 2 (chan_index v).
Definition enc_channel_status (v : channel_status) : list N :=
  let i := cs_identifier v in
  be_bytes 2 (pack [(3, code_band (csi_band i)); (2, code_bandwidth (csi_bandwidth i));
                    (11, csi_index i)]) ++ [cs_noise_floor v].
Definition enc_sub_band (v : sub_band) : list N :=
  be_bytes 2 (sb_start v) ++ be_bytes 2 (sb_end v) ++ [enc_i8 (sb_eirp v); sb_cca v; sb_duty v].

(** link *)
Definition enc_sub_profile (v : sub_profile) : list N := sp_bitmap v :: enc_varint (sp_period v).
Definition enc_access_class (v : access_class) : N := pack [(4, ac_specifier v); (4, ac_mask v)].
Definition enc_access_profile (v : access_profile) : list N :=
  enc_channel_header (ap_header v) :: flat_map enc_sub_profile (ap_sub_profiles v)
  ++ flat_map enc_sub_band (ap_sub_bands v).

(** network *)
Definition code_group v := match v with GcAny => 0 | GcNotEqual => 1 | GcEqual => 2 | GcGreaterThan => 3 end.
Definition code_nls v :=
  match v with
  | NlsNone => 0 | NlsAesCtr => 1 | NlsAesCbcMac128 => 2 | NlsAesCbcMac64 => 3
  | NlsAesCbcMac32 => 4 | NlsAesCcm128 => 5 | NlsAesCcm64 => 6 | NlsAesCcm32 => 7
  end.
Definition code_address_type v := match v with AtNbId => 0 | AtNoId => 1 | AtUId => 2 | AtVId => 3 end.
Definition enc_address (a : address) : list N :=
  match a with
  | NbId v => enc_varint v | NoId => [] | UId v => be_bytes 8 v | VId v => be_bytes 2 v
  end.
Definition enc_nls_state (s : nls_state) : list N :=
  match s with
  | NsNone => []
  | NsAesCtr k | NsAesCbcMac128 k | NsAesCbcMac64 k | NsAesCbcMac32 k | NsAesCcm128 k
  | NsAesCcm64 k | NsAesCcm32 k => k
  end.
(** Control byte: 2 bits padding, 2 bits address type, 4 bits NLS method; wizzilab: 2 bits group
    condition, 2 bits address type, 1 bit "use vid", 3 bits NLS method. *)
Definition enc_addressee {E : Env} (v : addressee) : list N :=
  match e_feat with
  | Wizzilab =>
      pack [(2, code_group (ad_group v)); (2, code_address_type (ad_type v));
            (1, bit (ad_use_vid v)); (3, code_nls (ad_nls v))]
  | _ => pack [(2, 0); (2, code_address_type (ad_type v)); (4, code_nls (ad_nls v))]
  end
  :: enc_access_class (ad_access v) :: enc_address (ad_address v) ++ enc_nls_state (ad_state v).

(** session *)
Definition code_response v :=
  match v with RmNo => 0 | RmAll => 1 | RmAny => 2 | RmNoRepeat => 4 | RmOnError => 5 | RmPreferred => 6 end.
Definition code_retry v :=
  match v with
  | RtNo => 0 | RtOneshotRetry => 1 | RtFifoFast => 2 | RtFifoSlow => 3 | RtSingleFast => 4
  | RtSingleSlow => 5 | RtOneshotSticky => 6 | RtRfu => 7
  end.
Definition enc_qos (v : qos) : N :=
  pack [(1, bit (qos_stop v)); (1, bit (qos_record v)); (3, code_retry (qos_retry v));
        (3, code_response (qos_resp v))].
Definition enc_dash7_status {E : Env} (v : dash7_interface_status) : list N :=
  enc_channel (ds_channel v) ++ [ds_rx_level v; ds_link_budget v; ds_target_rx_level v;
  pack [(1, bit (ds_nls v)); (1, bit (ds_missed v)); (1, bit (ds_retry v));
        (1, bit (ds_unicast v)); (4, 0)];
  ds_fifo_token v; ds_seq v] ++ enc_varint (ds_timeout v) ++ enc_addressee (ds_addressee v).
Definition enc_interface_status {E : Env} (v : interface_status) : list N :=
  match v with IsHost | IsSerial => [] | IsDash7 s => enc_dash7_status s | IsOther l => l end.
Definition code_final v :=
  match v with
  | FsNo => 0 | FsBusy => 0xFF | FsBadParam => 0xFE | FsDutyCycle => 0xFD | FsCcaTo => 0xFC
  | FsNlsKey => 0xFB | FsTxUdf => 0xFA | FsRxOvf => 0xF9 | FsRxCrc => 0xF8 | FsAbort => 0xF7
  | FsNoAck => 0xF6 | FsRxTo => 0xF5 | FsNotSupportedBand => 0xF4
  | FsNotSupportedChannel => 0xF3 | FsNotSupportedModulation => 0xF2
  | FsVoidChannelList => 0xF1 | FsNotSupportedLen => 0xF0 | FsParamOvf => 0xEF
  | FsVidWoNls => 0xEE | FsTxSched => 0xED | FsRxSched => 0xEC | FsBufferOvf => 0xEB
  | FsNotSupportedMode => 0xEA
  end.
Definition enc_interface_final (v : interface_final_status) : list N :=
  match v with FinDash7 c => [code_final c] | FinOther l => l end.

(** data *)
Definition code_condition v := match v with AcList => 0 | AcRead => 1 | AcWrite => 2 | AcWriteFlush => 3 end.
Definition code_storage v := match v with Transient => 0 | Volatile => 1 | Restorable => 2 | Permanent => 3 end.
Definition enc_file_header (v : file_header) : list N :=
  let p := fh_perm v in let q := fh_prop v in
  [pack [(1, bit (fp_encrypted p)); (1, bit (fp_exec p));
         (1, bit (up_read (fp_user p))); (1, bit (up_write (fp_user p))); (1, bit (up_exec (fp_user p)));
         (1, bit (up_read (fp_guest p))); (1, bit (up_write (fp_guest p))); (1, bit (up_exec (fp_guest p)))];
   pack [(1, bit (pr_enabled q)); (3, code_condition (pr_condition q)); (2, 0);
         (2, code_storage (pr_class q))];
   fh_alp_file v; fh_itf_file v] ++ be_bytes 4 (fh_size v) ++ be_bytes 4 (fh_alloc v).

(** query *)
Definition code_cmp v :=
  match v with CmpInequal => 0 | CmpEqual => 1 | CmpLt => 2 | CmpLe => 3 | CmpGt => 4 | CmpGe => 5 end.
Definition code_range v := match v with NotInRange => 0 | InRange => 1 end.
Definition enc_query (q : query) : list N :=
  match q with
  | QNonVoid v => pack [(3, 0); (5, 0)] :: enc_length (nv_length v) ++ enc_file_offset (nv_file v)
  | QCmpZero v =>
      pack [(3, 1); (1, bit (cz_mask_present v)); (1, bit (ap_signed (cz_params v)));
            (3, code_cmp (ap_cmp (cz_params v)))]
      :: enc_length (cz_length v) ++ cz_mask v ++ enc_file_offset (cz_file v)
  | QCmpValue v =>
      pack [(3, 2); (1, bit (cv_mask_present v)); (1, bit (ap_signed (cv_params v)));
            (3, code_cmp (ap_cmp (cv_params v)))]
      :: enc_length (cv_length v) ++ cv_mask v ++ cv_value v ++ enc_file_offset (cv_file v)
  | QCmpOther v =>
      pack [(3, 3); (1, bit (co_mask_present v)); (1, bit (ap_signed (co_params v)));
            (3, code_cmp (ap_cmp (co_params v)))]
      :: enc_length (co_length v) ++ co_mask v ++ enc_file_offset (co_file1 v)
      ++ enc_file_offset (co_file2 v)
  | QBitmapRange v =>
      pack [(3, 4); (1, bit (br_mask_present v)); (1, bit (rp_signed (br_params v)));
            (3, code_range (rp_cmp (br_params v)))]
      :: enc_length (br_length v) ++ enc_length (br_start v) ++ enc_length (br_stop v)
      ++ br_mask v ++ enc_file_offset (br_file v)
  | QStringSearch v =>
      pack [(3, 7); (1, bit (ss_mask_present v)); (1, 0); (3, ss_max_errors v)]
      :: enc_length (ss_length v) ++ ss_mask v ++ ss_value v ++ enc_file_offset (ss_file v)
  end.

(** Integers without a byte order in the source: whatever the host uses. *)
Definition enc_native {E : Env} (k : nat) (v : N) : list N :=
  match e_host with Big => be_bytes k v | Little => rev (be_bytes k v) end.

(** interface *)
Definition enc_dash7_config {E : Env} (v : dash7_config) : list N :=
  enc_qos (dc_qos v) :: enc_varint (dc_dormant v)
  ++ match e_feat with Subiot => [] | _ => enc_varint (dc_exec_delay v) end
  ++ enc_addressee (dc_addressee v).
Definition enc_lorawan_config (v : lorawan_config) : list N :=
  [pack [(5, 0); (1, bit (lw_adr v)); (1, bit (lw_ack v)); (1, 0)]; lw_port v; lw_rate v].
Definition enc_interface_config {E : Env} (v : interface_config) : list N :=
  match v with
  | IcHost => [0]
  | IcSerial => [1]
  | IcAbp c => 2 :: enc_lorawan_config (ab_base c) ++ ab_nwk_key c ++ ab_app_key c
               ++ enc_native 4 (ab_dev_addr c) ++ enc_native 4 (ab_net_id c)
  | IcOtaa c => 3 :: enc_lorawan_config (ot_base c) ++ ot_dev_eui c ++ ot_app_eui c ++ ot_app_key c
  | IcDash7 c => 0xD7 :: enc_dash7_config c
  | IcUnknown i => [i]
  end.
Definition enc_indirect_interface {E : Env} (v : indirect_interface) : list N :=
  match v with IiHost => [0] | IiSerial => [1] | IiDash7 a => 0xD7 :: enc_addressee a | IiUnknown i => [i] end.

(** file *)
Definition code_eng v := match v with EmOff => 0 | EmContTx => 1 | EmTransientTx => 2 | EmPerRx => 3 | EmPerTx => 4 end.
Definition enc_file {E : Env} (f : file) : list N :=
  match f with
  | FAccessProfile _ p => enc_access_profile p
  | FUId a | FVId a => enc_address a
  | FFactorySettings v =>
      enc_i8 (fs_gain v)
      :: flat_map (be_bytes 4)
           [fs_rx_bw_low v; fs_rx_bw_normal v; fs_rx_bw_high v; fs_bitrate_lo v; fs_fdev_lo v;
            fs_bitrate_normal v; fs_fdev_normal v; fs_bitrate_hi v; fs_fdev_hi v]
      ++ [fs_pre_lo v; fs_pre_normal v; fs_pre_hi v; fs_det_lo v; fs_det_normal v; fs_det_hi v;
          fs_tol_lo v; fs_tol_normal v; fs_tol_hi v; fs_rssi_smoothing v; fs_rssi_offset v]
      ++ be_bytes 4 (fs_lora_bw v) ++ [fs_lora_sf v; fs_gaussian v] ++ be_bytes 2 (fs_paramp v)
  | FFirmwareVersion v => fw_major v :: fw_minor v :: fw_app v ++ fw_sha v
  | FEngineeringMode v =>
      [code_eng (em_mode v); em_flags v; em_timeout v] ++ enc_channel (em_channel v)
      ++ [enc_i8 (em_eirp v)]
  | FPhyStatus v =>
      be_bytes 4 (ps_up v) ++ be_bytes 4 (ps_rx v) ++ be_bytes 4 (ps_tx v) ++ be_bytes 2 (ps_duty v)
      ++ [ps_count v] ++ flat_map enc_channel_status (ps_channels v)
  | FDllConfig v => [dlc_ac v; 0; 0; dlc_lq v; dlc_nf v; dlc_rx v; dlc_tx v]
  | FDllStatus v =>
      [dst_level v; dst_budget v; dst_noise v; enc_channel_header (dst_header v)]
      ++ be_bytes 2 (dst_index v) ++ be_bytes 2 (dst_ratio v) ++ be_bytes 4 (dst_scans v)
      ++ be_bytes 4 (dst_timeouts v)
  | FSecurityKey k => enc_native 16 k
  | FOther l => l
  end.

(** A payload preceded by its byte count. *)
Definition enc_prefixed (l : list N) : list N := enc_length (N.of_nat (length l)) ++ l.

(** Actions: first byte = two flag bits and the opcode. *)
Definition first_byte (f1 f0 : bool) (op : N) : N := pack [(1, bit f1); (1, bit f0); (6, op)].
Definition hdr_byte (h : action_header) (op : N) : N := first_byte (h_group h) (h_response h) op.

Definition enc_file_data {E : Env} (op : N) (v : file_data) : list N :=
  hdr_byte (fd_header v) op :: enc_file_offset (fd_offset v) ++ enc_prefixed (enc_file (fd_data v)).
Definition enc_file_id_op (op : N) (v : file_id_op) : list N :=
  [hdr_byte (fi_header v) op; fi_file_id v].
Definition enc_file_properties (op : N) (v : file_properties) : list N :=
  hdr_byte (fpr_header v) op :: fpr_file_id v :: enc_file_header (fpr_file_header v).
Definition enc_action_query (op : N) (v : action_query) : list N :=
  hdr_byte (aq_header v) op :: enc_query (aq_query v).
Definition code_itf_type v :=
  match v with
  | ItHost => [0] | ItSerial => [1] | ItLoRaWanABP => [2] | ItLoRaWanOTAA => [3] | ItDash7 => [0xD7]
  | ItUnknown => []
  end.
Definition enc_status {E : Env} (s : status) : list N :=
  match s with
  | StatusAction a => [as_action_id a; as_status a]
  | StatusInterface i => code_itf_type (iso_type i) ++ enc_prefixed (enc_interface_status (iso_status i))
  | StatusInterfaceFinal f => ifo_id f :: enc_prefixed (enc_interface_final (ifo_status f))
  end.
Definition code_status_type v := match v with StAction => 0 | StInterface => 1 | StInterfaceFinal => 2 end.
Definition code_chunk v := match v with ChunkContinue => 0 | ChunkStart => 1 | ChunkEnd => 2 | ChunkStartEnd => 3 end.
Definition code_logic v := match v with LogicOr => 0 | LogicXor => 1 | LogicNor => 2 | LogicNand => 3 end.
Definition code_level v := match v with LevelUser => 0 | LevelRoot => 1 end.

Definition enc_action {E : Env} (a : action) : list N :=
  match a with
  | ANop v => [hdr_byte (nop_header v) 0]
  | AReadFileData v =>
      hdr_byte (rf_header v) 1 :: enc_file_offset (rf_offset v) ++ enc_length (rf_length v)
  | AReadFileProperties v => enc_file_id_op 2 v
  | AWriteFileData v => enc_file_data 4 v
  | AWriteFileDataFlush v => enc_file_data 5 v
  | AWriteFileProperties v => enc_file_properties 6 v
  | AActionQuery v => enc_action_query 8 v
  | ABreakQuery v => enc_action_query 9 v
  | APermissionRequest v =>
      hdr_byte (prq_header v) 10 :: code_level (prq_level v)
      :: match prq_permission v with PermDash7 k => 0x42 :: k end
  | AVerifyChecksum v => enc_action_query 11 v
  | AExistFile v => enc_file_id_op 16 v
  | ACreateNewFile v => enc_file_properties 17 v
  | ADeleteFile v => enc_file_id_op 18 v
  | ARestoreFile v => enc_file_id_op 19 v
  | AFlushFile v => enc_file_id_op 20 v
  | ACopyFile v => [hdr_byte (cf_header v) 23; cf_src v; cf_dst v]
  | AExecuteFile v => enc_file_id_op 31 v
  | AReturnFileData v => enc_file_data 32 v
  | AReturnFileProperties v => enc_file_properties 33 v
  | AStatus v => pack [(2, code_status_type (so_type v)); (6, 34)] :: enc_status (so_status v)
  | AResponseTag v => [first_byte (rt_eop v) (rt_error v) 35; rt_id v]
  | ATxStatus v => []
  | AChunk v => [pack [(2, code_chunk (ck_step v)); (6, 48)]]
  | ALogic v => [pack [(2, code_logic (lg_op v)); (6, 49)]]
  | AForward v => first_byte false (fw_response v) 50 :: enc_interface_config (fw_config v)
  | AIndirectForward v =>
      first_byte (if_overloaded v) (if_response v) 51
      :: match if_config v with Some c => enc_indirect_interface c | None => [] end
  | ARequestTag v => [first_byte (rq_eop v) false 52; rq_id v]
  | AExtension v => [hdr_byte (nop_header v) 63]
  end.
Definition enc_command {E : Env} (c : command) : list N := flat_map enc_action c.
