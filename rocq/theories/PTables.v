(** C94: the bytes written for any value whatsoever. *)
From Coq Require Import List NArith ZArith Bool.
From Verif Require Import Base Deku Utils Types Physical Link Network Session Data Query Interface File
  Operation Action Command Frames WellFormed SpecLayout SpecApi SpecFail SpecFrames SpecWritten SpecTables LTables.
Import ListNotations.
Open Scope N_scope.

(** No field has to make sense or agree with another one. The values that cannot be written are the
    ones of C43 and C84. *)
Theorem C94_action : forall (E : Env) a, ~ unwritable a -> emits (write_action a) (t_action a).
Proof. exact @action_emits. Qed.
Print Assumptions C94_action.
Theorem C94_command : forall (E : Env) c,
  ~ (Exists too_long (flat_map lengths_of c) \/ Exists too_large (flat_map varints_of c) \/
     Exists (fun k => too_long (N.of_nat k mod 2 ^ 32)) (flat_map payloads_of c)) -> emits (write_command c) (t_command c).
Proof. exact @command_emits. Qed.
Print Assumptions C94_command.
Theorem C94_frame : forall (E : Env) v,
  ~ (Exists too_long (frame_lengths v) \/ Exists too_large (frame_varints v) \/
     Exists (fun k => too_long (N.of_nat k mod 2 ^ 32)) (frame_payloads v)) -> emits (write_fframe v) (t_frame v).
Proof. exact @frame_emits. Qed.
Print Assumptions C94_frame.
Theorem C94_background : forall (E : Env) v, emits (write_bframe v) (t_bframe v).
Proof. exact @bframe_emits. Qed.
Print Assumptions C94_background.

(** Types that are written on their own. *)
Theorem C94_types : forall E : Env,
  (forall v, ~ too_long v -> emits (write_length v) (octets (enc_length v))) /\
  (forall v, ~ too_large (vi_value v) -> emits (write_varint v) (octets (enc_varint v))) /\
  (forall v, ~ too_long (fo_offset v) -> emits (write_file_offset v) (t_offset v)) /\
  (forall v, emits (write_channel_header v) (t_channel_header v)) /\
  (forall v, emits (write_channel v) (t_channel v)) /\
  (forall v, emits (write_channel_status v) (t_channel_status v)) /\
  (forall v, emits (write_sub_band v) (t_sub_band v)) /\
  (forall v, ~ too_large (vi_value (sp_period v)) -> emits (write_sub_profile v) (t_sub_profile v)) /\
  (forall v, emits (write_access_class v) (t_access_class v)) /\
  (forall v, ~ Exists (fun s => too_large (vi_value (sp_period s))) (ap_sub_profiles v) ->
    emits (write_access_profile v) (t_access_profile v)) /\
  (forall v, ~ Exists too_large (address_varints v) -> emits (write_address v) (t_address v)) /\
  (forall v, emits (write_nls_state v) (octets (enc_nls_state v))) /\
  (forall v, ~ Exists too_large (address_varints (ad_address v)) -> emits (write_addressee v) (t_addressee v)) /\
  (forall v, emits (write_qos v) (t_qos v)) /\
  (forall v, ~ (too_large (vi_value (ds_timeout v)) \/ Exists too_large (address_varints (ad_address (ds_addressee v)))) ->
    emits (write_dash7_status v) (t_dash7_status v)) /\
  (forall v, ~ Exists too_large (address_varints (ad_address (tx_addressee v))) ->
    emits (write_dash7_tx_status v) (t_tx_status v)) /\
  (forall v, emits (write_file_header v) (t_file_header v)).
Proof. exact @types_emit. Qed.
Print Assumptions C94_types.
Theorem C94_operations : forall E : Env,
  (forall v, ~ Exists too_long (query_lengths v) -> emits (write_query v) (t_query v)) /\
  (forall v, ~ Exists too_large (dash7_config_varints v) -> emits (write_dash7_config v) (t_dash7_config v)) /\
  (forall v, emits (write_lorawan_config v) (t_lorawan v)) /\
  (forall v, ~ match v with IcDash7 c => Exists too_large (dash7_config_varints c) | _ => False end ->
    emits (write_interface_config v) (t_interface_config v)) /\
  (forall v, ~ match v with IiDash7 a => Exists too_large (address_varints (ad_address a)) | _ => False end ->
    emits (write_indirect_interface v) (t_indirect_interface v)) /\
  (forall v, ~ (Exists too_large (itf_status_varints (iso_status v)) \/
                too_long (N.of_nat (itf_status_size (iso_status v)) mod 2 ^ 32)) ->
    emits (write_itf_status_op v) (t_itf_status_op v)) /\
  (forall v, ~ too_long (N.of_nat (final_size (ifo_status v)) mod 2 ^ 32) -> emits (write_itf_final_op v) (t_itf_final_op v)).
Proof. exact @operations_emit. Qed.
Print Assumptions C94_operations.
Theorem C94_files : forall (E : Env) f, ~ Exists too_large (file_varints f) -> emits (write_file f) (t_file f).
Proof. exact @files_emit. Qed.
Print Assumptions C94_files.

(** For well-formed actions the table holds the documented bytes of C07. *)
Theorem C94_layout : forall (E : Env) a, wf_action a -> bits_of_fields (t_action a) = bits_of_bytes (enc_action a).
Proof. exact @table_layout. Qed.
Print Assumptions C94_layout.

(** Values that make no sense. A firmware version written into file 0: a string of two bytes is filled
    up and one of nine is cut off. A search for three bytes with 9 mismatches, a mask of one byte and a
    value of two: 1 is left of the 9. An action status whose type field announces an interface status,
    and a UId behind an addressee type that says there is none. *)
Example C94_example : forall E : Env, e_feat <> Wizzilab ->
  let h := mkHeader true false in
  action_to_bytes (AWriteFileData (mkFileData h 77 (mkFileOffset 0 3)
    (FFirmwareVersion (mkFirmware 1 2 [65; 66] [1; 2; 3; 4; 5; 6; 7; 8; 9])))) =
    Ok [0x84; 0; 3; 15; 1; 2; 65; 66; 0; 0; 0; 0; 1; 2; 3; 4; 5; 6; 7] /\
  action_to_bytes (AActionQuery (mkActionQuery h 0 (QStringSearch (mkStringSearch true 9 3 [255] [7; 8] (mkFileOffset 4 5))))) =
    Ok [0x88; 0xF1; 3; 255; 7; 8; 4; 5] /\
  action_to_bytes (AStatus (mkStatusOperand StInterface 0 (StatusAction (mkActionStatus 6 7)))) = Ok [0x62; 6; 7] /\
  action_to_bytes (AIndirectForward (mkIndirectForward false true 0 (Some (IiDash7
    (mkAddressee GcAny AtNoId false NlsAesCtr (mkAccessClass 17 18) (UId 9) NsNone))))) =
    Ok [0x73; 0xD7; 0x11; 0x12; 0; 0; 0; 0; 0; 0; 0; 9].
Proof.
  intros [[] [] []] H; cbv zeta; try (exfalso; apply H; reflexivity);
    (split; [vm_compute; reflexivity|]; split; [vm_compute; reflexivity|]; split; vm_compute; reflexivity).
Qed.
