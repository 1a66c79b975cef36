(** Which numbers an action contains, and how many bytes it takes, for any value of the Rust
    types, well formed or not. *)
From Coq Require Import List NArith ZArith Bool Lia.
From Verif Require Import Base Deku Utils Types Physical Link Network Session Data Query
  Interface File Operation Action Command.
Import ListNotations.
Open Scope N_scope.

(** ** The numbers written as a VarInt *)
Definition address_varints (a : address) : list N :=
  match a with NbId v => [vi_value v] | _ => [] end.
Definition file_varints (f : file) : list N :=
  match f with
  | FAccessProfile _ p => map (fun s => vi_value (sp_period s)) (ap_sub_profiles p)
  | FUId a | FVId a => address_varints a
  | _ => []
  end.
Definition dash7_config_varints {E : Env} (c : dash7_config) : list N :=
  vi_value (dc_dormant c)
  :: match e_feat with Subiot => [] | _ => [vi_value (dc_exec_delay c)] end
  ++ address_varints (ad_address (dc_addressee c)).
Definition itf_status_varints (s : interface_status) : list N :=
  match s with
  | IsDash7 v => vi_value (ds_timeout v) :: address_varints (ad_address (ds_addressee v))
  | _ => []
  end.
Definition varints_of {E : Env} (a : action) : list N :=
  match a with
  | AWriteFileData v | AWriteFileDataFlush v | AReturnFileData v => file_varints (fd_data v)
  | AStatus v => match so_status v with StatusInterface i => itf_status_varints (iso_status i) | _ => [] end
  | ATxStatus v =>
      match txo_status v with TxDash7 s => address_varints (ad_address (tx_addressee s)) | TxOther _ => [] end
  | AForward v => match fw_config v with IcDash7 c => dash7_config_varints c | _ => [] end
  | AIndirectForward v =>
      match if_config v with Some (IiDash7 a) => address_varints (ad_address a) | _ => [] end
  | _ => []
  end.

(** ** The numbers written as a Length *)
Definition query_lengths (q : query) : list N :=
  match q with
  | QNonVoid v => [nv_length v; fo_offset (nv_file v)]
  | QCmpZero v => [cz_length v; fo_offset (cz_file v)]
  | QCmpValue v => [cv_length v; fo_offset (cv_file v)]
  | QCmpOther v => [co_length v; fo_offset (co_file1 v); fo_offset (co_file2 v)]
  | QBitmapRange v => [br_length v; br_start v; br_stop v; fo_offset (br_file v)]
  | QStringSearch v => [ss_length v; fo_offset (ss_file v)]
  end.
Definition lengths_of (a : action) : list N :=
  match a with
  | AReadFileData v => [fo_offset (rf_offset v); rf_length v]
  | AWriteFileData v | AWriteFileDataFlush v | AReturnFileData v => [fo_offset (fd_offset v)]
  | AActionQuery v | ABreakQuery v | AVerifyChecksum v => query_lengths (aq_query v)
  | _ => []
  end.

(** ** The sizes, in bytes, of the payloads written behind their length *)
Definition address_size (a : address) : nat :=
  match a with NbId _ => 1 | NoId => 0 | UId _ => 8 | VId _ => 2 end.
Definition state_size (s : nls_state) : nat :=
  match s with
  | NsNone => 0
  | NsAesCtr k | NsAesCbcMac128 k | NsAesCbcMac64 k | NsAesCbcMac32 k | NsAesCcm128 k
  | NsAesCcm64 k | NsAesCcm32 k => length k
  end.
Definition addressee_size (a : addressee) : nat :=
  2 + address_size (ad_address a) + state_size (ad_state a).
Definition file_size (f : file) : nat :=
  match f with
  | FAccessProfile _ p => 1 + 2 * length (ap_sub_profiles p) + 7 * length (ap_sub_bands p)
  | FUId a | FVId a => address_size a
  | FFactorySettings _ => 1 + 9 * 4 + 11 + 4 + 2 + 2
  | FFirmwareVersion _ => 2 + 6 + 7
  | FEngineeringMode _ => 7
  | FPhyStatus v => 15 + 3 * length (ps_channels v)
  | FDllConfig _ => 7
  | FDllStatus _ => 16
  | FSecurityKey _ => 16
  | FOther l => length l
  end.
Definition itf_status_size (s : interface_status) : nat :=
  match s with
  | IsHost | IsSerial => 0
  | IsDash7 v => 10 + addressee_size (ds_addressee v)
  | IsOther l => length l
  end.
Definition final_size (s : interface_final_status) : nat :=
  match s with FinDash7 _ => 1 | FinOther l => length l end.
Definition tx_size (s : interface_tx_status) : nat :=
  match s with TxDash7 v => 12 + addressee_size (tx_addressee v) | TxOther l => length l end.
Definition payloads_of (a : action) : list nat :=
  match a with
  | AWriteFileData v | AWriteFileDataFlush v | AReturnFileData v => [file_size (fd_data v)]
  | AStatus v =>
      match so_status v with
      | StatusAction _ => []
      | StatusInterface i => [itf_status_size (iso_status i)]
      | StatusInterfaceFinal f => [final_size (ifo_status f)]
      end
  | ATxStatus v => [tx_size (txo_status v)]
  | _ => []
  end.

(** An action contains a number that cannot be written. The length in front of a payload is
    written modulo [2^32]. *)
Definition unwritable {E : Env} (a : action) : Prop :=
  Exists (fun n => 2 ^ 30 <= n) (lengths_of a) \/ Exists (fun n => 507904 < n) (varints_of a) \/
  Exists (fun k => 2 ^ 30 <= N.of_nat k mod 2 ^ 32) (payloads_of a).

(** ** Size in bytes *)
Definition length_size (n : N) : nat :=
  if n <? 2 ^ 6 then 1 else if n <? 2 ^ 14 then 2 else if n <? 2 ^ 22 then 3 else 4.
Definition offset_size (f : file_offset) : nat := 1 + length_size (fo_offset f).
Definition prefixed_size (k : nat) : nat := length_size (N.of_nat k mod 2 ^ 32) + k.
Definition query_size (q : query) : nat :=
  1 + match q with
      | QNonVoid v => length_size (nv_length v) + offset_size (nv_file v)
      | QCmpZero v => length_size (cz_length v) + length (cz_mask v) + offset_size (cz_file v)
      | QCmpValue v =>
          length_size (cv_length v) + length (cv_mask v) + length (cv_value v) + offset_size (cv_file v)
      | QCmpOther v =>
          length_size (co_length v) + length (co_mask v) + offset_size (co_file1 v) + offset_size (co_file2 v)
      | QBitmapRange v =>
          length_size (br_length v) + length_size (br_start v) + length_size (br_stop v)
          + length (br_mask v) + offset_size (br_file v)
      | QStringSearch v =>
          length_size (ss_length v) + length (ss_mask v) + length (ss_value v) + offset_size (ss_file v)
      end.
Definition itf_type_size (t : interface_type) : nat := match t with ItUnknown => 0 | _ => 1 end.
Definition interface_config_size {E : Env} (c : interface_config) : nat :=
  match c with
  | IcHost | IcSerial | IcUnknown _ => 1
  | IcAbp c => 1 + 3 + length (ab_nwk_key c) + length (ab_app_key c) + 8
  | IcOtaa c => 1 + 3 + length (ot_dev_eui c) + length (ot_app_eui c) + length (ot_app_key c)
  | IcDash7 c =>
      1 + 2 + (match e_feat with Subiot => 0 | _ => 1 end) + addressee_size (dc_addressee c)
  end.
(** A TxStatus takes six bits more. *)
Definition size_of {E : Env} (a : action) : nat :=
  1 + match a with
      | ANop _ | AChunk _ | ALogic _ | AExtension _ => 0
      | AReadFileData v => offset_size (rf_offset v) + length_size (rf_length v)
      | AReadFileProperties _ | AExistFile _ | ADeleteFile _ | ARestoreFile _ | AFlushFile _
      | AExecuteFile _ | AResponseTag _ | ARequestTag _ => 1
      | AWriteFileData v | AWriteFileDataFlush v | AReturnFileData v =>
          offset_size (fd_offset v) + prefixed_size (file_size (fd_data v))
      | AWriteFileProperties _ | ACreateNewFile _ | AReturnFileProperties _ => 13
      | AActionQuery v | ABreakQuery v | AVerifyChecksum v => query_size (aq_query v)
      | APermissionRequest v => 2 + match prq_permission v with PermDash7 k => length k end
      | ACopyFile _ => 2
      | AStatus v =>
          match so_status v with
          | StatusAction _ => 2
          | StatusInterface i => itf_type_size (iso_type i) + prefixed_size (itf_status_size (iso_status i))
          | StatusInterfaceFinal f => 1 + prefixed_size (final_size (ifo_status f))
          end
      | ATxStatus v => 1 + prefixed_size (tx_size (txo_status v))
      | AForward v => interface_config_size (fw_config v)
      | AIndirectForward v =>
          match if_config v with
          | Some (IiDash7 a) => 1 + addressee_size a
          | Some _ => 1
          | None => 0
          end
      end.
