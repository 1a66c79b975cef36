(** The text of [{:?}] for every type the tool prints or that is part of one: what
    [#[derive(Debug)]] expands to, as a tree of names, and how core::fmt writes such a tree. Text is
    a string of UTF-8 bytes. Which characters above 0x7F are written as they are and which as
    [\u{..}] is decided by Unicode tables; that choice is the argument [plain]. *)
From Coq Require Import List NArith ZArith Bool String Ascii DecimalString HexadecimalString.
From Verif Require Import Base Deku Utils Types Physical Link Network Session Data Query
  Interface File Operation Action Command Frames Display Cli.
Import ListNotations.
Open Scope string_scope.

(** What a derived implementation hands to the formatter: an integer, a string, a unit struct or
    variant (also [true], [false], [None]), a tuple struct or variant (without a name: a tuple), a
    struct with named fields, a sequence. *)
Inductive dv :=
| DNum (z : Z)
| DText (s : rstring)
| DUnit (name : string)
| DTuple (name : string) (fields : list dv)
| DStruct (name : string) (fields : list (string * dv))
| DList (items : list dv).

(** ** core::fmt *)

Definition show_Z (z : Z) : string := DecimalString.NilZero.string_of_int (Z.to_int z).
Definition byte_text (b : N) : string := String (ascii_of_N b) "".
Fixpoint bytes_text (l : list N) : string :=
  match l with [] => "" | b :: tl => byte_text b ++ bytes_text tl end.

(** [char::escape_unicode]. *)
Definition escape_unicode (c : N) : string :=
  "\u{" ++ HexadecimalString.NilZero.string_of_uint (N.to_hex_uint c) ++ "}".
(** Debug of a [char] inside a string, below 0x80: the double quote, the backslash, and the control
    characters are escaped. *)
Definition escape_ascii (b : N) : string :=
  if (b =? 0)%N then "\0"
  else if (b =? 9)%N then "\t"
  else if (b =? 10)%N then "\n"
  else if (b =? 13)%N then "\r"
  else if (b =? 34)%N then String "\" (String (ascii_of_N 34) "")
  else if (b =? 92)%N then "\\"
  else if ((b <? 32) || (b =? 127))%N then escape_unicode b
  else byte_text b.
(** Debug of a [char] of two, three or four bytes. *)
Definition escape_wide (plain : N -> bool) (c : N) (bs : list N) : string :=
  if plain c then bytes_text bs else escape_unicode c.
(** The characters of a string, one after the other; the number of bytes of each is told by its
    first byte. *)
Fixpoint escape_str (plain : N -> bool) (l : list N) : string :=
  match l with
  | [] => ""
  | a :: l1 =>
      if (a <? 0x80)%N then escape_ascii a ++ escape_str plain l1
      else match l1 with
      | [] => ""
      | b :: l2 =>
          if (a <? 0xE0)%N then
            escape_wide plain (64 * (a - 0xC0) + (b - 0x80)) [a; b] ++ escape_str plain l2
          else match l2 with
          | [] => ""
          | c :: l3 =>
              if (a <? 0xF0)%N then
                escape_wide plain (4096 * (a - 0xE0) + 64 * (b - 0x80) + (c - 0x80)) [a; b; c]
                ++ escape_str plain l3
              else match l3 with
              | [] => ""
              | d :: l4 =>
                  escape_wide plain
                    (262144 * (a - 0xF0) + 4096 * (b - 0x80) + 64 * (c - 0x80) + (d - 0x80))
                    [a; b; c; d]
                  ++ escape_str plain l4
              end
          end
      end
  end.
Definition quote : string := String (ascii_of_N 34) "".

(** [Formatter::debug_tuple], [debug_struct], [debug_list] without [{:#?}]. *)
Fixpoint show_dv (plain : N -> bool) (v : dv) : string :=
  match v with
  | DNum z => show_Z z
  | DText s => quote ++ escape_str plain s ++ quote
  | DUnit n => n
  | DTuple n l => n ++ "(" ++ concat ", " (map (show_dv plain) l) ++ ")"
  | DStruct n l =>
      n ++ " { " ++ concat ", " (map (fun p : string * dv => let (f, x) := p in f ++ ": " ++ show_dv plain x) l)
      ++ " }"
  | DList l => "[" ++ concat ", " (map (show_dv plain) l) ++ "]"
  end.

Definition d_n (n : N) : dv := DNum (Z.of_N n).
Definition d_bool (b : bool) : dv := DUnit (if b then "true" else "false").
Definition d_bytes (l : list N) : dv := DList (map d_n l).
Definition d_opt {A} (f : A -> dv) (o : option A) : dv :=
  match o with None => DUnit "None" | Some x => DTuple "Some" [f x] end.

(** ** types.rs, app/operation/length.rs, file_offset.rs, app/action.rs *)

(** types.rs:47 VarInt *)
Definition d_varint (v : varint) : dv :=
  DStruct "VarInt"
    [("value", d_n (vi_value v));
     ("ceil", d_bool (vi_ceil v))].
(** app/operation/length.rs:8 Length, app/action.rs:29 OpCode, app/operation/mod.rs:25 StatusCode *)
Definition d_length (n : N) : dv := DTuple "Length" [d_n n].
Definition d_opcode (n : N) : dv := DTuple "OpCode" [d_n n].
Definition d_status_code (n : N) : dv := DTuple "StatusCode" [d_n n].
(** app/operation/file_offset.rs:7 FileOffset *)
Definition d_file_offset (v : file_offset) : dv :=
  DStruct "FileOffset"
    [("file_id", d_n (fo_file_id v));
     ("offset", d_length (fo_offset v))].

(** ** physical/mod.rs *)

(** physical/mod.rs:5 Bandwidth *)
Definition d_bandwidth (v : bandwidth) : dv :=
  DUnit (match v with
  | KHz200 => "KHz200"
  | KHz25 => "KHz25"
  end).
(** physical/mod.rs:14 ChannelBand *)
Definition d_channel_band (v : channel_band) : dv :=
  DUnit (match v with
  | BandRfu0 => "Rfu0"
  | BandRfu1 => "Rfu1"
  | Band433 => "Band433"
  | Band868 => "Band868"
  | Band915 => "Band915"
  end).
(** physical/mod.rs:25 ChannelClass *)
Definition d_channel_class (v : channel_class) : dv :=
  DUnit (match v with
  | LoRate => "LoRate"
  | Lora => "Lora"
  | NormalRate => "NormalRate"
  | HiRate => "HiRate"
  end).
(** physical/mod.rs:35 ChannelCoding *)
Definition d_channel_coding (v : channel_coding) : dv :=
  DUnit (match v with
  | Pn9 => "Pn9"
  | CodingRfu => "Rfu"
  | FecPn9 => "FecPn9"
  | Cw => "Cw"
  end).
(** physical/mod.rs:80 ChannelHeader *)
Definition d_channel_header (v : channel_header) : dv :=
  DStruct "ChannelHeader"
    [("channel_band", d_channel_band (ch_band v));
     ("channel_class", d_channel_class (ch_class v));
     ("channel_coding", d_channel_coding (ch_coding v))].
(** physical/mod.rs:102 Channel *)
Definition d_channel (v : channel) : dv :=
  DStruct "Channel"
    [("header", d_channel_header (chan_header v));
     ("index", d_n (chan_index v))].
(** physical/mod.rs:109 ChannelStatusIdentifier *)
Definition d_channel_status_identifier (v : channel_status_identifier) : dv :=
  DStruct "ChannelStatusIdentifier"
    [("channel_band", d_channel_band (csi_band v));
     ("bandwidth", d_bandwidth (csi_bandwidth v));
     ("index", d_n (csi_index v))].
(** physical/mod.rs:120 SubBand *)
Definition d_sub_band (v : sub_band) : dv :=
  DStruct "SubBand"
    [("channel_index_start", d_n (sb_start v));
     ("channel_index_end", d_n (sb_end v));
     ("eirp", DNum (sb_eirp v));
     ("clear_channel_assessment", d_n (sb_cca v));
     ("duty", d_n (sb_duty v))].
(** physical/mod.rs:129 ChannelStatus *)
Definition d_channel_status (v : channel_status) : dv :=
  DStruct "ChannelStatus"
    [("identifier", d_channel_status_identifier (cs_identifier v));
     ("noise_floor", d_n (cs_noise_floor v))].

(** ** link/mod.rs *)

(** link/mod.rs:11 SubProfile *)
Definition d_sub_profile (v : sub_profile) : dv :=
  DStruct "SubProfile"
    [("subband_bitmap", d_n (sp_bitmap v));
     ("scan_automation_period", d_varint (sp_period v))].
(** link/mod.rs:23 AccessClass *)
Definition d_access_class (v : access_class) : dv :=
  DStruct "AccessClass"
    [("specifier", d_n (ac_specifier v));
     ("mask", d_n (ac_mask v))].
(** link/mod.rs:44 AccessProfile *)
Definition d_access_profile (v : access_profile) : dv :=
  DStruct "AccessProfile"
    [("channel_header", d_channel_header (ap_header v));
     ("sub_profiles", DList (map d_sub_profile (ap_sub_profiles v)));
     ("sub_bands", DList (map d_sub_band (ap_sub_bands v)))].

(** ** transport/mod.rs:7, network/mod.rs, network/addressee.rs *)

(** transport/mod.rs:7 GroupCondition *)
Definition d_group_condition (v : group_condition) : dv :=
  DUnit (match v with
  | GcAny => "Any"
  | GcNotEqual => "NotEqual"
  | GcEqual => "Equal"
  | GcGreaterThan => "GreaterThan"
  end).
(** network/mod.rs:17 NlsMethod *)
Definition d_nls_method (v : nls_method) : dv :=
  DUnit (match v with
  | NlsNone => "None"
  | NlsAesCtr => "AesCtr"
  | NlsAesCbcMac128 => "AesCbcMac128"
  | NlsAesCbcMac64 => "AesCbcMac64"
  | NlsAesCbcMac32 => "AesCbcMac32"
  | NlsAesCcm128 => "AesCcm128"
  | NlsAesCcm64 => "AesCcm64"
  | NlsAesCcm32 => "AesCcm32"
  end).
(** network/mod.rs:55 NlsState *)
Definition d_nls_state (v : nls_state) : dv :=
  match v with
  | NsNone => DUnit "None"
  | NsAesCtr k => DTuple "AesCtr" [d_bytes k]
  | NsAesCbcMac128 k => DTuple "AesCbcMac128" [d_bytes k]
  | NsAesCbcMac64 k => DTuple "AesCbcMac64" [d_bytes k]
  | NsAesCbcMac32 k => DTuple "AesCbcMac32" [d_bytes k]
  | NsAesCcm128 k => DTuple "AesCcm128" [d_bytes k]
  | NsAesCcm64 k => DTuple "AesCcm64" [d_bytes k]
  | NsAesCcm32 k => DTuple "AesCcm32" [d_bytes k]
  end.
(** network/mod.rs:77 AddressType *)
Definition d_address_type (v : address_type) : dv :=
  DUnit (match v with
  | AtNbId => "NbId"
  | AtNoId => "NoId"
  | AtUId => "UId"
  | AtVId => "VId"
  end).
(** network/mod.rs:95 Address *)
Definition d_address (v : address) : dv :=
  match v with
  | NbId x => DTuple "NbId" [d_varint x]
  | NoId => DUnit "NoId"
  | UId x => DTuple "UId" [d_n x]
  | VId x => DTuple "VId" [d_n x]
  end.
(** network/addressee.rs:11 Addressee: two fields exist only with the wizzilab feature (lines 13,
    21). *)
Definition d_addressee {E : Env} (v : addressee) : dv :=
  DStruct "Addressee"
    ((if is_wizzilab then [("group_condition", d_group_condition (ad_group v))] else [])
     ++ [("address_type", d_address_type (ad_type v))]
     ++ (if is_wizzilab then [("use_vid", d_bool (ad_use_vid v))] else [])
     ++ [("nls_method", d_nls_method (ad_nls v));
         ("access_class", d_access_class (ad_access v));
         ("address", d_address (ad_address v));
         ("nls_state", d_nls_state (ad_state v))])%list.

(** ** session *)

(** session/mod.rs:15 InterfaceType *)
Definition d_interface_type (v : interface_type) : dv :=
  DUnit (match v with
  | ItHost => "Host"
  | ItSerial => "Serial"
  | ItLoRaWanABP => "LoRaWanABP"
  | ItLoRaWanOTAA => "LoRaWanOTAA"
  | ItDash7 => "Dash7"
  | ItUnknown => "Unknown"
  end).
(** session/mod.rs:53 ResponseMode *)
Definition d_response_mode (v : response_mode) : dv :=
  DUnit (match v with
  | RmNo => "No"
  | RmAll => "All"
  | RmAny => "Any"
  | RmNoRepeat => "NoRepeat"
  | RmOnError => "OnError"
  | RmPreferred => "Preferred"
  end).
(** session/mod.rs:112 RetryMode *)
Definition d_retry_mode (v : retry_mode) : dv :=
  DUnit (match v with
  | RtNo => "No"
  | RtOneshotRetry => "OneshotRetry"
  | RtFifoFast => "FifoFast"
  | RtFifoSlow => "FifoSlow"
  | RtSingleFast => "SingleFast"
  | RtSingleSlow => "SingleSlow"
  | RtOneshotSticky => "OneshotSticky"
  | RtRfu => "Rfu"
  end).
(** session/mod.rs:134 QoS *)
Definition d_qos (v : qos) : dv :=
  DStruct "QoS"
    [("stop_on_error", d_bool (qos_stop v));
     ("record", d_bool (qos_record v));
     ("retry_mode", d_retry_mode (qos_retry v));
     ("response_mode", d_response_mode (qos_resp v))].
(** session/mod.rs:183 Dash7InterfaceStatus *)
Definition d_dash7_status {E : Env} (v : dash7_interface_status) : dv :=
  DStruct "Dash7InterfaceStatus"
    [("channel", d_channel (ds_channel v));
     ("rx_level", d_n (ds_rx_level v));
     ("link_budget", d_n (ds_link_budget v));
     ("target_rx_level", d_n (ds_target_rx_level v));
     ("nls", d_bool (ds_nls v));
     ("missed", d_bool (ds_missed v));
     ("retry", d_bool (ds_retry v));
     ("unicast", d_bool (ds_unicast v));
     ("fifo_token", d_n (ds_fifo_token v));
     ("sequence_number", d_n (ds_seq v));
     ("response_timeout", d_varint (ds_timeout v));
     ("addressee", d_addressee (ds_addressee v))].
(** session/mod.rs:146 InterfaceStatus *)
Definition d_interface_status {E : Env} (v : interface_status) : dv :=
  match v with
  | IsHost => DUnit "Host"
  | IsSerial => DUnit "Serial"
  | IsDash7 s => DTuple "Dash7" [d_dash7_status s]
  | IsOther l => DTuple "Other" [d_bytes l]
  end.
(** session/interface_final.rs:17 InterfaceFinalStatusCode *)
Definition d_final_code (v : final_status_code) : dv :=
  DUnit (match v with
  | FsNo => "No"
  | FsBusy => "Busy"
  | FsBadParam => "BadParam"
  | FsDutyCycle => "DutyCycle"
  | FsCcaTo => "CcaTo"
  | FsNlsKey => "NlsKey"
  | FsTxUdf => "TxUdf"
  | FsRxOvf => "RxOvf"
  | FsRxCrc => "RxCrc"
  | FsAbort => "Abort"
  | FsNoAck => "NoAck"
  | FsRxTo => "RxTo"
  | FsNotSupportedBand => "NotSupportedBand"
  | FsNotSupportedChannel => "NotSupportedChannel"
  | FsNotSupportedModulation => "NotSupportedModulation"
  | FsVoidChannelList => "VoidChannelList"
  | FsNotSupportedLen => "NotSupportedLen"
  | FsParamOvf => "ParamOvf"
  | FsVidWoNls => "VidWoNls"
  | FsTxSched => "TxSched"
  | FsRxSched => "RxSched"
  | FsBufferOvf => "BufferOvf"
  | FsNotSupportedMode => "NotSupportedMode"
  end).
(** session/interface_final.rs:7 InterfaceFinalStatus *)
Definition d_final_status (v : interface_final_status) : dv :=
  match v with
  | FinDash7 c => DTuple "Dash7" [d_final_code c]
  | FinOther l => DTuple "Other" [d_bytes l]
  end.
(** session/interface_final.rs:77 Dash7InterfaceTxStatus *)
Definition d_dash7_tx_status {E : Env} (v : dash7_tx_status) : dv :=
  DStruct "Dash7InterfaceTxStatus"
    [("channel", d_channel (tx_channel v));
     ("target_rx_level", DNum (tx_target_rx_level v));
     ("error", d_final_code (tx_error v));
     ("lts", d_n (tx_lts v));
     ("addressee", d_addressee (tx_addressee v))].
(** session/interface_final.rs:68 InterfaceTxStatus *)
Definition d_itf_tx_status {E : Env} (v : interface_tx_status) : dv :=
  match v with
  | TxDash7 s => DTuple "Dash7" [d_dash7_tx_status s]
  | TxOther l => DTuple "Other" [d_bytes l]
  end.

(** ** data/mod.rs *)

(** data/mod.rs:6 ActionCondition *)
Definition d_action_condition (v : action_condition) : dv :=
  DUnit (match v with
  | AcList => "List"
  | AcRead => "Read"
  | AcWrite => "Write"
  | AcWriteFlush => "WriteFlush"
  end).
(** data/mod.rs:20 StorageClass *)
Definition d_storage_class (v : storage_class) : dv :=
  DUnit (match v with
  | Transient => "Transient"
  | Volatile => "Volatile"
  | Restorable => "Restorable"
  | Permanent => "Permanent"
  end).
(** data/mod.rs:41 UserPermissions *)
Definition d_user_permissions (v : user_permissions) : dv :=
  DStruct "UserPermissions"
    [("read", d_bool (up_read v));
     ("write", d_bool (up_write v));
     ("executable", d_bool (up_exec v))].
(** data/mod.rs:51 FilePermissions *)
Definition d_file_permissions (v : file_permissions) : dv :=
  DStruct "FilePermissions"
    [("encrypted", d_bool (fp_encrypted v));
     ("executable", d_bool (fp_exec v));
     ("user", d_user_permissions (fp_user v));
     ("guest", d_user_permissions (fp_guest v))].
(** data/mod.rs:61 FileProperties *)
Definition d_fs_properties (v : fs_properties) : dv :=
  DStruct "FileProperties"
    [("enabled", d_bool (pr_enabled v));
     ("condition", d_action_condition (pr_condition v));
     ("storage_class", d_storage_class (pr_class v))].
(** data/mod.rs:75 FileHeader *)
Definition d_file_header (v : file_header) : dv :=
  DStruct "FileHeader"
    [("permissions", d_file_permissions (fh_perm v));
     ("properties", d_fs_properties (fh_prop v));
     ("alp_command_file_id", d_n (fh_alp_file v));
     ("interface_file_id", d_n (fh_itf_file v));
     ("file_size", d_n (fh_size v));
     ("allocated_size", d_n (fh_alloc v))].

(** ** app/query.rs *)

(** app/query.rs:7 ArithmeticComparisonType *)
Definition d_arith_cmp (v : arith_cmp) : dv :=
  DUnit (match v with
  | CmpInequal => "Inequal"
  | CmpEqual => "Equal"
  | CmpLt => "LessThan"
  | CmpLe => "LessThanOrEqual"
  | CmpGt => "GreaterThan"
  | CmpGe => "GreaterThanOrEqual"
  end).
(** app/query.rs:24 ArithmeticQueryParams *)
Definition d_arith_params (v : arith_params) : dv :=
  DStruct "ArithmeticQueryParams"
    [("signed", d_bool (ap_signed v));
     ("comparison_type", d_arith_cmp (ap_cmp v))].
(** app/query.rs:32 RangeComparisonType *)
Definition d_range_cmp (v : range_cmp) : dv :=
  DUnit (match v with
  | NotInRange => "NotInRange"
  | InRange => "InRange"
  end).
(** app/query.rs:41 RangeQueryParams *)
Definition d_range_params (v : range_params) : dv :=
  DStruct "RangeQueryParams"
    [("signed", d_bool (rp_signed v));
     ("comparison_type", d_range_cmp (rp_cmp v))].
(** app/query.rs:73 NonVoid *)
Definition d_non_void (v : non_void) : dv :=
  DStruct "NonVoid"
    [("length", d_length (nv_length v));
     ("file", d_file_offset (nv_file v))].
(** app/query.rs:80 ComparisonWithZero *)
Definition d_cmp_zero (v : cmp_zero) : dv :=
  DStruct "ComparisonWithZero"
    [("mask_present", d_bool (cz_mask_present v));
     ("params", d_arith_params (cz_params v));
     ("length", d_length (cz_length v));
     ("mask", d_bytes (cz_mask v));
     ("file", d_file_offset (cz_file v))].
(** app/query.rs:108 ComparisonWithValue *)
Definition d_cmp_value (v : cmp_value) : dv :=
  DStruct "ComparisonWithValue"
    [("mask_present", d_bool (cv_mask_present v));
     ("params", d_arith_params (cv_params v));
     ("length", d_length (cv_length v));
     ("mask", d_bytes (cv_mask v));
     ("value", d_bytes (cv_value v));
     ("file", d_file_offset (cv_file v))].
(** app/query.rs:146 ComparisonWithOtherFile *)
Definition d_cmp_other (v : cmp_other) : dv :=
  DStruct "ComparisonWithOtherFile"
    [("mask_present", d_bool (co_mask_present v));
     ("params", d_arith_params (co_params v));
     ("length", d_length (co_length v));
     ("mask", d_bytes (co_mask v));
     ("file1", d_file_offset (co_file1 v));
     ("file2", d_file_offset (co_file2 v))].
(** app/query.rs:179 BitmapRangeComparison *)
Definition d_bitmap_range (v : bitmap_range) : dv :=
  DStruct "BitmapRangeComparison"
    [("mask_present", d_bool (br_mask_present v));
     ("params", d_range_params (br_params v));
     ("length", d_length (br_length v));
     ("start", d_length (br_start v));
     ("stop", d_length (br_stop v));
     ("mask", d_bytes (br_mask v));
     ("file", d_file_offset (br_file v))].
(** app/query.rs:220 StringTokenSearch *)
Definition d_string_search (v : string_search) : dv :=
  DStruct "StringTokenSearch"
    [("mask_present", d_bool (ss_mask_present v));
     ("max_errors", d_n (ss_max_errors v));
     ("length", d_length (ss_length v));
     ("mask", d_bytes (ss_mask v));
     ("value", d_bytes (ss_value v));
     ("file", d_file_offset (ss_file v))].
(** app/query.rs:49 Query *)
Definition d_query (v : query) : dv :=
  match v with
  | QNonVoid q => DTuple "NonVoid" [d_non_void q]
  | QCmpZero q => DTuple "ComparisonWithZero" [d_cmp_zero q]
  | QCmpValue q => DTuple "ComparisonWithValue" [d_cmp_value q]
  | QCmpOther q => DTuple "ComparisonWithOtherFile" [d_cmp_other q]
  | QBitmapRange q => DTuple "BitmapRangeComparison" [d_bitmap_range q]
  | QStringSearch q => DTuple "StringTokenSearch" [d_string_search q]
  end.

(** ** app/interface.rs *)

(** app/interface.rs:10 Dash7InterfaceConfiguration: no execution_delay_timeout with the subiot
    feature (line 28). *)
Definition d_dash7_config {E : Env} (v : dash7_config) : dv :=
  DStruct "Dash7InterfaceConfiguration"
    ([("qos", d_qos (dc_qos v)); ("dormant_session_timeout", d_varint (dc_dormant v))]
     ++ (if is_subiot then [] else [("execution_delay_timeout", d_varint (dc_exec_delay v))])
     ++ [("addressee", d_addressee (dc_addressee v))])%list.
(** app/interface.rs:36 LoRaWANInterfaceConfiguration *)
Definition d_lorawan (v : lorawan_config) : dv :=
  DStruct "LoRaWANInterfaceConfiguration"
    [("adr_enabled", d_bool (lw_adr v));
     ("request_ack", d_bool (lw_ack v));
     ("application_port", d_n (lw_port v));
     ("data_rate", d_n (lw_rate v))].
(** app/interface.rs:49 LoRaWANOTAAInterfaceConfiguration *)
Definition d_otaa (v : otaa_config) : dv :=
  DStruct "LoRaWANOTAAInterfaceConfiguration"
    [("base", d_lorawan (ot_base v));
     ("device_eui", d_bytes (ot_dev_eui v));
     ("app_eui", d_bytes (ot_app_eui v));
     ("app_key", d_bytes (ot_app_key v))].
(** app/interface.rs:63 LoRaWANABPInterfaceConfiguration *)
Definition d_abp (v : abp_config) : dv :=
  DStruct "LoRaWANABPInterfaceConfiguration"
    [("base", d_lorawan (ab_base v));
     ("network_session_key", d_bytes (ab_nwk_key v));
     ("app_session_key", d_bytes (ab_app_key v));
     ("device_address", d_n (ab_dev_addr v));
     ("network_id", d_n (ab_net_id v))].
(** app/interface.rs:79 InterfaceConfiguration *)
Definition d_interface_config {E : Env} (v : interface_config) : dv :=
  match v with
  | IcHost => DUnit "Host"
  | IcSerial => DUnit "Serial"
  | IcAbp c => DTuple "LoRaWanABP" [d_abp c]
  | IcOtaa c => DTuple "LoRaWanOTAA" [d_otaa c]
  | IcDash7 c => DTuple "Dash7" [d_dash7_config c]
  | IcUnknown i => DTuple "Unknown" [d_n i]
  end.
(** app/interface.rs:102 IndirectInterface *)
Definition d_indirect_interface {E : Env} (v : indirect_interface) : dv :=
  match v with
  | IiHost => DUnit "Host"
  | IiSerial => DUnit "Serial"
  | IiDash7 a => DTuple "Dash7" [d_addressee a]
  | IiUnknown i => DTuple "Unknown" [d_n i]
  end.

(** ** file *)

(** file/dll_config.rs:4 DllConfig *)
Definition d_dll_config (v : dll_config) : dv :=
  DStruct "DllConfig"
    [("ac", d_n (dlc_ac v));
     ("lq_filter", d_n (dlc_lq v));
     ("nf_ctrl", d_n (dlc_nf v));
     ("rx_nf_method_parameter", d_n (dlc_rx v));
     ("tx_nf_method_parameter", d_n (dlc_tx v))].
(** file/dll_status.rs:6 DllStatus *)
Definition d_dll_status (v : dll_status) : dv :=
  DStruct "DllStatus"
    [("last_rx_packet_level", d_n (dst_level v));
     ("last_rx_packet_link_budget", d_n (dst_budget v));
     ("noise_floor", d_n (dst_noise v));
     ("channel_header", d_channel_header (dst_header v));
     ("channel_index", d_n (dst_index v));
     ("scan_timeout_ratio", d_n (dst_ratio v));
     ("scan_count", d_n (dst_scans v));
     ("scan_timeout_count", d_n (dst_timeouts v))].
(** file/engineering_mode.rs:7 EngineeringModeMethod *)
Definition d_eng_method (v : eng_method) : dv :=
  DUnit (match v with
  | EmOff => "Off"
  | EmContTx => "ContTx"
  | EmTransientTx => "TransientTx"
  | EmPerRx => "PerRx"
  | EmPerTx => "PerTx"
  end).
(** file/engineering_mode.rs:21 EngineeringMode *)
Definition d_engineering_mode (v : engineering_mode) : dv :=
  DStruct "EngineeringMode"
    [("mode", d_eng_method (em_mode v));
     ("flags", d_n (em_flags v));
     ("timeout", d_n (em_timeout v));
     ("channel", d_channel (em_channel v));
     ("eirp", DNum (em_eirp v))].
(** file/factory_settings.rs:4 FactorySettings *)
Definition d_factory (v : factory_settings) : dv :=
  DStruct "FactorySettings"
    [("gain", DNum (fs_gain v));
     ("rx_bw_low_rate", d_n (fs_rx_bw_low v));
     ("rx_bw_normal_rate", d_n (fs_rx_bw_normal v));
     ("rx_bw_high_rate", d_n (fs_rx_bw_high v));
     ("bitrate_lo_rate", d_n (fs_bitrate_lo v));
     ("fdev_lo_rate", d_n (fs_fdev_lo v));
     ("bitrate_normal_rate", d_n (fs_bitrate_normal v));
     ("fdev_normal_rate", d_n (fs_fdev_normal v));
     ("bitrate_hi_rate", d_n (fs_bitrate_hi v));
     ("fdev_hi_rate", d_n (fs_fdev_hi v));
     ("preamble_size_lo_rate", d_n (fs_pre_lo v));
     ("preamble_size_normal_rate", d_n (fs_pre_normal v));
     ("preamble_size_hi_rate", d_n (fs_pre_hi v));
     ("preamble_detector_size_lo_rate", d_n (fs_det_lo v));
     ("preamble_detector_size_normal_rate", d_n (fs_det_normal v));
     ("preamble_detector_size_hi_rate", d_n (fs_det_hi v));
     ("preamble_tol_lo_rate", d_n (fs_tol_lo v));
     ("preamble_tol_normal_rate", d_n (fs_tol_normal v));
     ("preamble_tol_hi_rate", d_n (fs_tol_hi v));
     ("rssi_smoothing", d_n (fs_rssi_smoothing v));
     ("rssi_offset", d_n (fs_rssi_offset v));
     ("lora_bw", d_n (fs_lora_bw v));
     ("lora_sf", d_n (fs_lora_sf v));
     ("gaussian", d_n (fs_gaussian v));
     ("paramp", d_n (fs_paramp v))].
(** file/firmware_version.rs:9 FirmwareVersion *)
Definition d_firmware (v : firmware_version) : dv :=
  DStruct "FirmwareVersion"
    [("major", d_n (fw_major v));
     ("minor", d_n (fw_minor v));
     ("application_name", DText (fw_app v));
     ("git_sha1", DText (fw_sha v))].
(** file/phy_status.rs:6 PhyStatus *)
Definition d_phy_status (v : phy_status) : dv :=
  DStruct "PhyStatus"
    [("up_time", d_n (ps_up v));
     ("rx_time", d_n (ps_rx v));
     ("tx_time", d_n (ps_tx v));
     ("tx_duty_cycle", d_n (ps_duty v));
     ("channel_status_list_length", d_n (ps_count v));
     ("channel_status", DList (map d_channel_status (ps_channels v)))].
(** The variants AccessProfile00 to AccessProfile14. *)
Definition two_digits (i : N) : string := show_N (i / 10) ++ show_N (i mod 10).
(** file/mod.rs:145 File; file/access_profile.rs:8, file/security_key.rs:4. *)
Definition d_file (v : file) : dv :=
  match v with
  | FAccessProfile i p =>
      DTuple ("AccessProfile" ++ two_digits i)
        [DStruct "AccessProfile" [("profile", d_access_profile p)]]
  | FUId a => DTuple "UId" [d_address a]
  | FFactorySettings x => DTuple "FactorySettings" [d_factory x]
  | FFirmwareVersion x => DTuple "FirmwareVersion" [d_firmware x]
  | FEngineeringMode x => DTuple "EngineeringMode" [d_engineering_mode x]
  | FVId a => DTuple "VId" [d_address a]
  | FPhyStatus x => DTuple "PhyStatus" [d_phy_status x]
  | FDllConfig x => DTuple "DllConfig" [d_dll_config x]
  | FDllStatus x => DTuple "DllStatus" [d_dll_status x]
  | FSecurityKey k => DTuple "NwlSecurityKey" [DStruct "SecurityKey" [("key", d_n k)]]
  | FOther l => DTuple "Other" [d_bytes l]
  end.

(** ** app/operation/mod.rs, app/interface_final.rs *)

(** app/operation/mod.rs:56 ActionStatus *)
Definition d_action_status (v : action_status) : dv :=
  DStruct "ActionStatus"
    [("action_id", d_n (as_action_id v));
     ("status", d_status_code (as_status v))].
(** app/operation/mod.rs:70 Permission *)
Definition d_permission (v : permission) : dv :=
  match v with PermDash7 k => DTuple "Dash7" [d_bytes k] end.
(** app/operation/mod.rs:83 PermissionLevel *)
Definition d_permission_level (v : permission_level) : dv :=
  DUnit (match v with
  | LevelUser => "User"
  | LevelRoot => "Root"
  end).
(** app/operation/mod.rs:93 ActionHeader *)
Definition d_action_header (v : action_header) : dv :=
  DStruct "ActionHeader"
    [("group", d_bool (h_group v));
     ("response", d_bool (h_response v))].
(** app/operation/mod.rs:113 Nop *)
Definition d_nop (v : nop) : dv :=
  DStruct "Nop"
    [("header", d_action_header (nop_header v));
     ("opcode", d_opcode (nop_opcode v))].
(** app/operation/mod.rs:572 Extension *)
Definition d_extension (v : nop) : dv :=
  DStruct "Extension"
    [("header", d_action_header (nop_header v));
     ("opcode", d_opcode (nop_opcode v))].
(** app/operation/mod.rs:124 FileId *)
Definition d_file_id_op (v : file_id_op) : dv :=
  DStruct "FileId"
    [("header", d_action_header (fi_header v));
     ("opcode", d_opcode (fi_opcode v));
     ("file_id", d_n (fi_file_id v))].
(** app/operation/mod.rs:138 FileData *)
Definition d_file_data (v : file_data) : dv :=
  DStruct "FileData"
    [("header", d_action_header (fd_header v));
     ("opcode", d_opcode (fd_opcode v));
     ("offset", d_file_offset (fd_offset v));
     ("data", d_file (fd_data v))].
(** app/operation/mod.rs:188 FileProperties *)
Definition d_file_properties (v : file_properties) : dv :=
  DStruct "FileProperties"
    [("header", d_action_header (fpr_header v));
     ("opcode", d_opcode (fpr_opcode v));
     ("file_id", d_n (fpr_file_id v));
     ("file_header", d_file_header (fpr_file_header v))].
(** app/operation/mod.rs:202 ReadFileData *)
Definition d_read_file_data (v : read_file_data_op) : dv :=
  DStruct "ReadFileData"
    [("header", d_action_header (rf_header v));
     ("opcode", d_opcode (rf_opcode v));
     ("offset", d_file_offset (rf_offset v));
     ("length", d_length (rf_length v))].
(** app/operation/mod.rs:214 ActionQuery *)
Definition d_action_query (v : action_query) : dv :=
  DStruct "ActionQuery"
    [("header", d_action_header (aq_header v));
     ("opcode", d_opcode (aq_opcode v));
     ("query", d_query (aq_query v))].
(** app/operation/mod.rs:226 PermissionRequest *)
Definition d_permission_request (v : permission_request) : dv :=
  DStruct "PermissionRequest"
    [("header", d_action_header (prq_header v));
     ("opcode", d_opcode (prq_opcode v));
     ("level", d_permission_level (prq_level v));
     ("permission", d_permission (prq_permission v))].
(** app/operation/mod.rs:245 CopyFile *)
Definition d_copy_file (v : copy_file) : dv :=
  DStruct "CopyFile"
    [("header", d_action_header (cf_header v));
     ("opcode", d_opcode (cf_opcode v));
     ("src_file_id", d_n (cf_src v));
     ("dst_file_id", d_n (cf_dst v))].
(** app/operation/mod.rs:259 StatusType *)
Definition d_status_type (v : status_type) : dv :=
  DUnit (match v with
  | StAction => "Action"
  | StInterface => "Interface"
  | StInterfaceFinal => "InterfaceFinal"
  end).
(** app/operation/mod.rs:321 InterfaceStatusOperation *)
Definition d_itf_status_op {E : Env} (v : itf_status_op) : dv :=
  DStruct "InterfaceStatusOperation"
    [("interface_type", d_interface_type (iso_type v));
     ("status", d_interface_status (iso_status v))].
(** app/interface_final.rs:41 InterfaceFinalStatusOperation *)
Definition d_itf_final_op (v : itf_final_op) : dv :=
  DStruct "InterfaceFinalStatusOperation"
    [("interface_id", d_n (ifo_id v));
     ("status", d_final_status (ifo_status v))].
(** app/operation/mod.rs:278 Status *)
Definition d_status {E : Env} (v : status) : dv :=
  match v with
  | StatusAction s => DTuple "Action" [d_action_status s]
  | StatusInterface s => DTuple "Interface" [d_itf_status_op s]
  | StatusInterfaceFinal s => DTuple "InterfaceFinal" [d_itf_final_op s]
  end.
(** app/operation/mod.rs:310 StatusOperand *)
Definition d_status_operand {E : Env} (v : status_operand) : dv :=
  DStruct "StatusOperand"
    [("status_type", d_status_type (so_type v));
     ("opcode", d_opcode (so_opcode v));
     ("status", d_status (so_status v))].
(** app/operation/mod.rs:387 ResponseTagHeader, 404 ResponseTag *)
Definition d_response_tag (v : response_tag) : dv :=
  DStruct "ResponseTag"
    [("header", DStruct "ResponseTagHeader"
        [("end_of_packet", d_bool (rt_eop v)); ("error", d_bool (rt_error v))]);
     ("opcode", d_opcode (rt_opcode v));
     ("id", d_n (rt_id v))].
(** app/operation/mod.rs:416 ChunkStep *)
Definition d_chunk_step (v : chunk_step) : dv :=
  DUnit (match v with
  | ChunkContinue => "Continue"
  | ChunkStart => "Start"
  | ChunkEnd => "End"
  | ChunkStartEnd => "StartEnd"
  end).
(** app/operation/mod.rs:446 Chunk *)
Definition d_chunk (v : chunk) : dv :=
  DStruct "Chunk"
    [("step", d_chunk_step (ck_step v));
     ("opcode", d_opcode (ck_opcode v))].
(** app/operation/mod.rs:456 LogicOp *)
Definition d_logic_op (v : logic_op) : dv :=
  DUnit (match v with
  | LogicOr => "Or"
  | LogicXor => "Xor"
  | LogicNor => "Nor"
  | LogicNand => "Nand"
  end).
(** app/operation/mod.rs:470 Logic *)
Definition d_logic (v : logic) : dv :=
  DStruct "Logic"
    [("logic", d_logic_op (lg_op v));
     ("opcode", d_opcode (lg_opcode v))].
(** app/operation/mod.rs:478 ForwardHeader, 486 Forward *)
Definition d_forward {E : Env} (v : forward) : dv :=
  DStruct "Forward"
    [("header", DStruct "ForwardHeader" [("response", d_bool (fw_response v))]);
     ("opcode", d_opcode (fw_opcode v));
     ("configuration", d_interface_config (fw_config v))].
(** app/operation/mod.rs:506 IndirectForwardHeader, 526 IndirectForward *)
Definition d_indirect_forward {E : Env} (v : indirect_forward) : dv :=
  DStruct "IndirectForward"
    [("header", DStruct "IndirectForwardHeader"
        [("overloaded", d_bool (if_overloaded v)); ("response", d_bool (if_response v))]);
     ("opcode", d_opcode (if_opcode v));
     ("configuration", d_opt d_indirect_interface (if_config v))].
(** app/operation/mod.rs:553 RequestTagHeader, 561 RequestTag *)
Definition d_request_tag (v : request_tag) : dv :=
  DStruct "RequestTag"
    [("header", DStruct "RequestTagHeader" [("end_of_packet", d_bool (rq_eop v))]);
     ("opcode", d_opcode (rq_opcode v));
     ("id", d_n (rq_id v))].
(** app/interface_final.rs:92 TxStatusType, 99 TxStatusOperation, 112 TxStatus, 118
    InterfaceTxStatusOperation *)
Definition d_tx_status {E : Env} (v : tx_status_op) : dv :=
  DStruct "TxStatusOperation"
    [("status_type", DUnit "Interface");
     ("opcode", d_opcode (txo_opcode v));
     ("status", DTuple "Interface"
        [DStruct "InterfaceTxStatusOperation"
           [("interface_id", d_n (txo_itf_id v)); ("status", d_itf_tx_status (txo_status v))]])].

(** ** app/action.rs:85 Action, app/command.rs:24 Command *)

Definition d_action {E : Env} (a : action) : dv :=
  match a with
  | ANop v => DTuple "Nop" [d_nop v]
  | AReadFileData v => DTuple "ReadFileData" [d_read_file_data v]
  | AReadFileProperties v => DTuple "ReadFileProperties" [d_file_id_op v]
  | AWriteFileData v => DTuple "WriteFileData" [d_file_data v]
  | AWriteFileDataFlush v => DTuple "WriteFileDataFlush" [d_file_data v]
  | AWriteFileProperties v => DTuple "WriteFileProperties" [d_file_properties v]
  | AActionQuery v => DTuple "ActionQuery" [d_action_query v]
  | ABreakQuery v => DTuple "BreakQuery" [d_action_query v]
  | APermissionRequest v => DTuple "PermissionRequest" [d_permission_request v]
  | AVerifyChecksum v => DTuple "VerifyChecksum" [d_action_query v]
  | AExistFile v => DTuple "ExistFile" [d_file_id_op v]
  | ACreateNewFile v => DTuple "CreateNewFile" [d_file_properties v]
  | ADeleteFile v => DTuple "DeleteFile" [d_file_id_op v]
  | ARestoreFile v => DTuple "RestoreFile" [d_file_id_op v]
  | AFlushFile v => DTuple "FlushFile" [d_file_id_op v]
  | ACopyFile v => DTuple "CopyFile" [d_copy_file v]
  | AExecuteFile v => DTuple "ExecuteFile" [d_file_id_op v]
  | AReturnFileData v => DTuple "ReturnFileData" [d_file_data v]
  | AReturnFileProperties v => DTuple "ReturnFileProperties" [d_file_properties v]
  | AStatus v => DTuple "Status" [d_status_operand v]
  | AResponseTag v => DTuple "ResponseTag" [d_response_tag v]
  | ATxStatus v => DTuple "TxStatus" [d_tx_status v]
  | AChunk v => DTuple "Chunk" [d_chunk v]
  | ALogic v => DTuple "Logic" [d_logic v]
  | AForward v => DTuple "Forward" [d_forward v]
  | AIndirectForward v => DTuple "IndirectForward" [d_indirect_forward v]
  | ARequestTag v => DTuple "RequestTag" [d_request_tag v]
  | AExtension v => DTuple "Extension" [d_extension v]
  end.
Definition d_command {E : Env} (c : command) : dv :=
  DStruct "Command" [("actions", DList (map d_action c))].

(** ** transport, network and link frames *)

(** transport/mod.rs:25 Control *)
Definition d_tcontrol (v : tcontrol) : dv :=
  DStruct "Control"
    [("is_dialog_start", d_bool (tc_dialog_start v));
     ("has_listen_timeout", d_bool (tc_listen v));
     ("has_execution_delay_timeout", d_bool (tc_exec_delay v));
     ("is_ack_requested", d_bool (tc_ack_requested v));
     ("is_ack_not_void", d_bool (tc_ack_not_void v));
     ("is_ack_record_requested", d_bool (tc_ack_record v));
     ("has_agc", d_bool (tc_agc v))].
(** transport/mod.rs:43 AckTemplate *)
Definition d_ack (v : ack_template) : dv :=
  DStruct "AckTemplate"
    [("transaction_id_start", d_n (ack_start v));
     ("transaction_id_stop", d_n (ack_stop v))].
(** transport/mod.rs:50 Frame *)
Definition d_tframe {E : Env} (v : tframe) : dv :=
  DStruct "Frame"
    [("control", d_tcontrol (tf_control v));
     ("dialog_id", d_n (tf_dialog v));
     ("transaction_id", d_n (tf_transaction v));
     ("target_rx_level_i", d_opt d_n (tf_target_rx v));
     ("listen_timeout", d_opt d_varint (tf_listen v));
     ("execution_delay_timeout", d_opt d_varint (tf_exec_delay v));
     ("congestion_timeout", d_opt d_varint (tf_congestion v));
     ("ack_template", d_opt d_ack (tf_ack v));
     ("command", d_command (tf_command v))].
(** network/network.rs:8 Control *)
Definition d_ncontrol (v : ncontrol) : dv :=
  DStruct "Control"
    [("has_no_origin_access_id", d_bool (nc_no_origin v));
     ("has_hopping", d_bool (nc_hopping v));
     ("origin_address_type", d_address_type (nc_origin_type v));
     ("nls_method", d_nls_method (nc_nls v))].
(** network/network.rs:21 HoppingControl *)
Definition d_hopping (v : hopping) : dv :=
  DStruct "HoppingControl"
    [("hop_counter", d_bool (hp_counter v));
     ("destination_address_type", d_address_type (hp_dest v))].
(** network/network.rs:32 Frame *)
Definition d_nframe {E : Env} (v : nframe) : dv :=
  DStruct "Frame"
    [("control", d_ncontrol (nf_control v));
     ("hopping_control", d_opt d_hopping (nf_hopping v));
     ("origin_access_class", d_access_class (nf_access v));
     ("origin_access_adress", d_address (nf_origin v));
     ("frame", d_tframe (nf_frame v))].
(** link/frame.rs:9 BackgroundFrameControl, 17 BackgroundFrame *)
Definition d_bframe (v : bframe) : dv :=
  DStruct "BackgroundFrame"
    [("subnet", d_n (bf_subnet v));
     ("control", DStruct "BackgroundFrameControl"
        [("address_type", d_address_type (bf_type v)); ("tag_id", d_n (bf_tag v))]);
     ("payload", d_n (bf_payload v));
     ("crc16", d_n (bf_crc v))].
(** link/frame.rs:25 ForegroundFrameControl, 33 ForegroundFrame *)
Definition d_fframe {E : Env} (v : fframe) : dv :=
  DStruct "ForegroundFrame"
    [("length", d_length (ff_length v));
     ("subnet", d_n (ff_subnet v));
     ("control", DStruct "ForegroundFrameControl"
        [("address_type", d_address_type (ff_type v)); ("eirp_index", d_n (ff_eirp v))]);
     ("target_address", d_address (ff_target v));
     ("frame", d_nframe (ff_frame v));
     ("crc16", d_n (ff_crc v))].

(** ** The argument of Display.v, and the results of the tool *)

Definition derived {E : Env} (plain : N -> bool) : debug :=
  mkDebug (fun a => show_dv plain (d_action a)) (fun c => show_dv plain (d_channel c))
    (fun a => show_dv plain (d_addressee a)) (fun l => show_dv plain (d_bytes l))
    (fun t => show_dv plain (d_interface_type t)).

(** dash7-cli/src/parse.rs:39-65: [{:?}] of a frame, [{}] of a command, [{:?}] of the pair
    [((rest, bits), file)]; [println!] ends the line. *)
Definition d_parsed_file (rest : list N * nat) (f : file) : dv :=
  DTuple "" [DTuple "" [d_bytes (fst rest); DNum (Z.of_nat (snd rest))]; d_file f].
Definition printed_text {E : Env} (plain : N -> bool) (p : printed) : string :=
  match p with
  | PrFrame f => show_dv plain (d_fframe f)
  | PrBackground f => show_dv plain (d_bframe f)
  | PrCommand c => show_command (derived plain) c
  | PrFile rest f => show_dv plain (d_parsed_file rest f)
  end ++ nl.
