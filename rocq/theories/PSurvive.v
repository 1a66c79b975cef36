(** C83: which values of the types that can be parsed on their own survive being written and parsed
    again. *)
From Coq Require Import List NArith ZArith Bool.
From Verif Require Import Base Deku Utils Types Physical Link Network Session Data Query Interface File
  Operation WellFormed DefaultCtx SpecApi SpecReturn SpecAction SpecSurvive LSurvive.
Import ListNotations.
Open Scope N_scope.

(** Exactly those whose fields are in range and agree with each other, and nothing else is ever
    parsed. *)
Theorem C83_types : forall E : Env,
  survivors read_length write_length wf_length /\ survivors read_varint write_varint wf_varint /\
  survivors read_file_offset write_file_offset wf_file_offset /\
  survivors read_channel_header write_channel_header (fun _ => True) /\ survivors read_channel write_channel wf_channel /\
  survivors read_channel_status write_channel_status wf_channel_status /\ survivors read_sub_band write_sub_band wf_sub_band /\
  survivors read_sub_profile write_sub_profile wf_sub_profile /\ survivors read_access_class write_access_class wf_access_class /\
  survivors read_access_profile write_access_profile wf_access_profile /\
  survivors read_addressee write_addressee wf_addressee /\ survivors read_qos write_qos (fun _ => True) /\
  survivors read_dash7_status write_dash7_status wf_dash7_status /\
  survivors read_dash7_tx_status write_dash7_tx_status wf_tx_status /\
  survivors read_final_status_code write_final_status_code (fun _ => True) /\
  survivors read_file_header write_file_header wf_file_header.
Proof. exact @survive_types. Qed.
Print Assumptions C83_types.
Theorem C83_operations : forall E : Env,
  survivors read_query write_query wf_query /\ survivors read_dash7_config write_dash7_config wf_dash7_config /\
  survivors read_lorawan_config write_lorawan_config wf_lorawan_config /\ survivors read_otaa write_otaa wf_otaa /\ survivors read_abp write_abp wf_abp /\
  survivors read_interface_config write_interface_config wf_interface_config /\
  survivors read_indirect_interface write_indirect_interface wf_indirect_interface /\
  survivors read_itf_final_op write_itf_final_op wf_itf_final_op.
Proof. exact @survive_operations. Qed.
Print Assumptions C83_operations.
Theorem C83_files : forall E : Env,
  survivors read_dll_config write_dll_config wf_dll_config /\ survivors read_dll_status write_dll_status wf_dll_status /\
  survivors read_engineering_mode write_engineering_mode wf_engineering_mode /\
  survivors read_factory_settings write_factory_settings wf_factory_settings /\
  survivors read_firmware_version write_firmware_version wf_firmware_version /\
  survivors read_phy_status write_phy_status wf_phy_status.
Proof. exact @survive_files. Qed.
Print Assumptions C83_files.

(** One type has parsed values that do not come back: the status of an unknown interface. *)
Theorem C83_status : forall E : Env,
  (forall v, wf_itf_status_op v \/ passes v -> exists l, transfers (write_itf_status_op v) read_itf_status_op l v) /\
  (forall v, comes_back (write_itf_status_op v) read_itf_status_op v -> wf_itf_status_op v \/ passes v) /\
  (forall d rest v, d_from_bytes read_itf_status_op d 0 = Ok (rest, v) -> wf_itf_status_op v \/ unknown_itf_status v).
Proof. exact @survive_itf. Qed.
Print Assumptions C83_status.
Theorem C83_refuted : forall E : Env, ~ (forall d rest v, bytes d -> d_from_bytes read_itf_status_op d 0 = Ok (rest, v) ->
  comes_back (write_itf_status_op v) read_itf_status_op v).
Proof. exact @survive_refuted. Qed.
Print Assumptions C83_refuted.

(** Files, by number and announced length. *)
Theorem C83_file : forall (E : Env) b n f, u8 b -> wf_length n ->
  ((exists l rest, file_to_bytes f = Ok l /\ file_from_bytes l 0 (file_id_of b) n = Ok (rest, f)) <->
   wf_file b f /\ match f with FOther l => n = N.of_nat (length l) | _ => True end).
Proof. exact @file_survives. Qed.
Print Assumptions C83_file.
Theorem C83_file_parsed : forall (E : Env) b n d rest f, u8 b -> wf_length n ->
  file_from_bytes d 0 (file_id_of b) n = Ok (rest, f) -> wf_file b f.
Proof. exact @file_parsed. Qed.
Print Assumptions C83_file_parsed.

(** A sub profile with the period 4 comes back, with the period 33 (which is sent as 32) it does not;
    a one byte status of an unknown interface is taken for that of the serial interface. *)
Example C83_example : let E := env_spec in
  wf_sub_profile (mkSubProfile 1 (mkVarInt 4 false)) /\
  (to_bytes (write_sub_profile (mkSubProfile 1 (mkVarInt 4 false))) = Ok [1; 4] /\
   d_try_from read_sub_profile [1; 4] = Ok (mkSubProfile 1 (mkVarInt 4 false))) /\
  (to_bytes (write_sub_profile (mkSubProfile 1 (mkVarInt 33 false))) = Ok [1; 0x28] /\
   d_try_from read_sub_profile [1; 0x28] = Ok (mkSubProfile 1 (mkVarInt 32 false))) /\
  (to_bytes (write_itf_status_op (mkItfStatusOp ItUnknown (IsOther [0]))) = Ok [1; 0] /\
   d_try_from read_itf_status_op [1; 0] = Ok (mkItfStatusOp ItSerial IsSerial)) /\
  (to_bytes (write_itf_status_op (mkItfStatusOp ItUnknown (IsOther [9; 9; 9; 9]))) = Ok [4; 9; 9; 9; 9] /\
   d_try_from read_itf_status_op [4; 9; 9; 9; 9] = Ok (mkItfStatusOp ItUnknown (IsOther [9; 9; 9; 9]))).
Proof. split; [split; [reflexivity|split; [reflexivity|exists 0, 4; repeat split]]|vm_compute; repeat split]. Qed.
