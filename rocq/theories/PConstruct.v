(** C58, C59: update and constructors. C60: types that do not fill whole bytes. *)
From Coq Require Import List NArith ZArith Bool.
From Verif Require Import Base Deku Utils Types Physical Link Network Session Data Query Interface File
  Operation Action Command Frames Construct WellFormed SpecLayout SpecApi SpecReturn SpecAction SpecCodes
  SpecExact SpecPartial SpecFrames SpecFrameAgain SpecUpdate Samples LConstruct LUpdate LPartial.
Import ListNotations.
Open Scope N_scope.

(** C58. An action, a query or a configuration is as broken after update as before, although
    update of the part it contains would have repaired it. *)
Theorem C58_action_refuted : forall E : Env, exists v a,
  action_update (AIndirectForward v) = Ok a /\ ~ action_survives a /\
  action_survives (AIndirectForward (indirect_forward_update v)).
Proof. exact @update_nothing. Qed.
Print Assumptions C58_action_refuted.

Theorem C58_query_refuted : forall E : Env, exists z h q,
  query_update (QCmpZero z) = Ok q /\ action_query_update (mkActionQuery h 8 q) = Ok (mkActionQuery h 8 q) /\
  ~ action_survives (AActionQuery (mkActionQuery h 8 q)) /\
  action_survives (AActionQuery (mkActionQuery h 8 (QCmpZero (cmp_zero_update z)))).
Proof. exact @update_query_nothing. Qed.
Print Assumptions C58_query_refuted.

Theorem C58_forward_refuted : forall E : Env, exists v c r,
  dash7_config_update v = Ok c /\ forward_update (mkForward r 50 (IcDash7 c)) = Ok (mkForward r 50 (IcDash7 c)) /\
  ~ action_survives (AForward (mkForward r 50 (IcDash7 c))) /\
  action_survives (AForward (mkForward r 50 (IcDash7 (mkDash7Config (dc_qos v) (dc_dormant v) (dc_exec_delay v)
    (addressee_update (dc_addressee v)))))).
Proof. exact @update_config_nothing. Qed.
Print Assumptions C58_forward_refuted.

(** A frame with a timeout that its control field does not announce. *)
Theorem C58_frame_refuted : forall E : Env, exists v w,
  fframe_update v = Ok v /\ ~ frame_survives v /\ frame_survives w /\
  tf_listen (nf_frame (ff_frame v)) <> None /\ without_flags v = without_flags w.
Proof. exact @update_frame_nothing. Qed.
Print Assumptions C58_frame_refuted.

(** It is so for all values: update of the enclosing value changes neither the bytes nor whether they
    parse back to it. *)
Theorem C58_useless : forall E : Env,
  (forall a, exists b, action_update a = Ok b /\ action_to_bytes b = action_to_bytes a /\ (action_survives b <-> action_survives a)) /\
  (forall q, exists w, query_update q = Ok w /\ to_bytes (write_query w) = to_bytes (write_query q) /\
     forall h op, action_survives (AActionQuery (mkActionQuery h op w)) <-> action_survives (AActionQuery (mkActionQuery h op q))) /\
  (forall v, exists w, action_query_update v = Ok w /\ action_to_bytes (AActionQuery w) = action_to_bytes (AActionQuery v) /\
     (action_survives (AActionQuery w) <-> action_survives (AActionQuery v))) /\
  (forall v, exists w, forward_update v = Ok w /\ action_to_bytes (AForward w) = action_to_bytes (AForward v) /\
     (action_survives (AForward w) <-> action_survives (AForward v))) /\
  (forall c, exists w, dash7_config_update c = Ok w /\ to_bytes (write_dash7_config w) = to_bytes (write_dash7_config c) /\
     forall r op, action_survives (AForward (mkForward r op (IcDash7 w))) <-> action_survives (AForward (mkForward r op (IcDash7 c)))) /\
  (forall v, exists w, file_data_update v = Ok w /\ action_to_bytes (AWriteFileData w) = action_to_bytes (AWriteFileData v) /\
     (action_survives (AWriteFileData w) <-> action_survives (AWriteFileData v)) /\
     (action_survives (AReturnFileData w) <-> action_survives (AReturnFileData v))) /\
  (forall v, exists w, fframe_update v = Ok w /\ fframe_to_bytes w = fframe_to_bytes v /\ (frame_survives w <-> frame_survives v)).
Proof. exact @update_useless. Qed.
Print Assumptions C58_useless.

(** With the innermost part updated only the ranges of the fields matter. *)
Theorem C58_indirect_exact : forall (E : Env) v, action_survives (AIndirectForward (indirect_forward_update v)) <->
  if_opcode v = 51 /\ match if_config v with Some i => wf_indirect_interface i | None => True end.
Proof. exact @indirect_updated. Qed.
Print Assumptions C58_indirect_exact.

Theorem C58_forward_exact : forall (E : Env) r c,
  action_survives (AForward (forward_new r (IcDash7 (mkDash7Config (dc_qos c) (dc_dormant c) (dc_exec_delay c)
    (addressee_update (dc_addressee c)))))) <->
  wf_varint (dc_dormant c) /\ wf_varint (dc_exec_delay c) /\ (e_feat = Subiot -> dc_exec_delay c = mkVarInt 0 false) /\
  (e_feat = Wizzilab \/ (ad_group (dc_addressee c) = GcAny /\ ad_use_vid (dc_addressee c) = false)) /\
  wf_access_class (ad_access (dc_addressee c)) /\ wf_address (ad_address (dc_addressee c)) /\ wf_nls_state (ad_state (dc_addressee c)).
Proof. exact @forward_updated. Qed.
Print Assumptions C58_forward_exact.

(** An address is written but not announced, so that nothing parses it. *)
Example C58_example : forall E : Env,
  let v := mkIndirectForward false false 51 (Some IiHost) in
  action_update (AIndirectForward v) = Ok (AIndirectForward v) /\
  action_to_bytes (AIndirectForward v) = Ok [0x33; 0] /\
  command_try_from [0x33; 0] = Ok [AIndirectForward (mkIndirectForward false false 51 None)] /\
  action_to_bytes (AIndirectForward (indirect_forward_update v)) = Ok [0xB3; 0] /\
  action_try_from [0xB3; 0] = Ok (AIndirectForward (indirect_forward_update v)).
Proof. intros [[] [] []]; repeat split. Qed.

(** C59. What the constructors build survives exactly if the arguments are in range... *)
Theorem C59_forward : forall (E : Env) r c, action_survives (AForward (forward_new r c)) <-> wf_interface_config c.
Proof. exact @forward_built. Qed.
Print Assumptions C59_forward.

Theorem C59_indirect_forward : forall (E : Env) r c, action_survives (AIndirectForward (indirect_forward_new r c)) <->
  match c with Some i => wf_indirect_interface i | None => True end.
Proof. exact @indirect_built. Qed.
Print Assumptions C59_indirect_forward.

Theorem C59_addressee : forall (E : Env) u g a s c, wf_addressee (addressee_new u g a s c) <->
  (e_feat = Wizzilab \/ (g = GcAny /\ u = false)) /\ wf_access_class c /\ wf_address a /\ wf_nls_state s.
Proof. exact @addressee_built. Qed.
Print Assumptions C59_addressee.

Theorem C59_chunk : forall (E : Env) s, action_survives (AChunk (chunk_step_into s)).
Proof. exact @chunk_built. Qed.
Print Assumptions C59_chunk.

Theorem C59_header : forall (E : Env) g r, action_survives (ANop (mkNop (header_new g r) 0)).
Proof. exact @nop_built. Qed.
Print Assumptions C59_header.

Theorem C59_parts : forall i b c d, u8 i ->
  transfers (write_file_offset (file_offset_no_offset i)) read_file_offset [i; 0] (file_offset_no_offset i) /\
  transfers (write_access_class access_class_unavailable) read_access_class [0xFF] access_class_unavailable /\
  transfers (write_channel_header (channel_header_new b c d)) read_channel_header
    [16 * code_band b + 4 * code_class c + code_coding d] (channel_header_new b c d).
Proof. exact parts_built. Qed.
Print Assumptions C59_parts.

(** ... except for file data, where the content need not belong to the file and the opcode need
    not belong to the action, ... *)
Theorem C59_file_data_refuted : forall E : Env, exists h o l, bytes l /\ wf_file_offset o /\
  (exists b, action_to_bytes (AWriteFileData (file_data_new h o (FOther l) 4)) = Ok b /\
     action_try_from b <> Ok (AWriteFileData (file_data_new h o (FOther l) 4))).
Proof. exact @file_data_other. Qed.
Print Assumptions C59_file_data_refuted.

Theorem C59_file_data_exact : forall (E : Env) h o f op,
  (action_survives (AWriteFileData (file_data_new h o f op)) <-> op = 4 /\ wf_file_offset o /\ wf_file (fo_file_id o) f) /\
  (action_survives (AWriteFileDataFlush (file_data_new h o f op)) <-> op = 5 /\ wf_file_offset o /\ wf_file (fo_file_id o) f) /\
  (action_survives (AReturnFileData (file_data_new h o f op)) <-> op = 32 /\ wf_file_offset o /\ wf_file (fo_file_id o) f).
Proof. exact @file_data_built. Qed.
Print Assumptions C59_file_data_exact.

(** ... and for statuses, whose conversions panic for a final or transmission status of another
    interface. *)
Theorem C59_status_exact : forall (E : Env) s, action_survives (AStatus (status_into_operand s)) <->
  match s with
  | StatusAction v => u8 (as_action_id v) /\ u8 (as_status v)
  | StatusInterface (mkItfStatusOp ItUnknown (IsOther l)) => wf_payload l /\ e_rewind = true /\ ~ clashes (N.of_nat (length l))
  | StatusInterface v => wf_itf_status_op v
  | StatusInterfaceFinal v => e_feat = Wizzilab /\ wf_itf_final_op v
  end.
Proof. exact @status_built. Qed.
Print Assumptions C59_status_exact.

Theorem C59_final_panics : forall s, itf_final_op_from s = Panic <-> exists l, s = FinOther l.
Proof. exact final_from. Qed.
Print Assumptions C59_final_panics.

Theorem C59_tx_panics : forall s, itf_tx_op_from s = Panic <-> exists l, s = TxOther l.
Proof. exact tx_from. Qed.
Print Assumptions C59_tx_panics.

Theorem C59_final_built : forall (E : Env) s v, itf_final_op_from s = Ok v ->
  (action_survives (AStatus (status_into_operand (itf_final_op_into v))) <-> e_feat = Wizzilab).
Proof. exact @final_built. Qed.
Print Assumptions C59_final_built.

(** What the constructors put where. *)
Theorem C59_header_bytes : forall (E : Env) g r,
  action_to_bytes (ANop (mkNop (header_new g r) 0)) = Ok [128 * b2n g + 64 * b2n r].
Proof. exact @header_bytes. Qed.
Print Assumptions C59_header_bytes.

Theorem C59_access_class : forall s m, s < 16 -> m < 16 ->
  transfers (write_access_class (access_class_new s m)) read_access_class [16 * s + m] (access_class_new s m).
Proof. exact access_class_built. Qed.
Print Assumptions C59_access_class.

Theorem C59_tx_built : forall s v, itf_tx_op_from s = Ok v -> v = (0xD7, s).
Proof. exact tx_built. Qed.
Print Assumptions C59_tx_built.

Theorem C59_interface_status : forall (E : Env) v, (forall l, v <> mkItfStatusOp ItUnknown (IsOther l)) ->
  (action_survives (AStatus (status_into_operand (itf_status_op_into v))) <-> wf_itf_status_op v).
Proof. exact @itf_status_built. Qed.
Print Assumptions C59_interface_status.

(** Two bytes for file 6, which holds a virtual id of two bytes: read back as the id. *)
Example C59_example : forall E : Env,
  let a := AWriteFileData (file_data_new (header_new false true) (file_offset_no_offset 6) (FOther [1; 2]) 4) in
  action_to_bytes a = Ok [0x44; 6; 0; 2; 1; 2] /\
  action_try_from [0x44; 6; 0; 2; 1; 2] = Ok (AWriteFileData (mkFileData (mkHeader false true) 4 (mkFileOffset 6 0) (FVId (VId 0x102)))) /\
  itf_final_op_from (FinOther [7]) = Panic.
Proof. intros [[] [] []]; repeat split. Qed.

(** C60. TryFrom rejects every input for a type whose size is not a number of whole bytes. *)
Theorem C60_physical_refuted :
  never_parsed read_bandwidth /\ never_parsed read_channel_band /\ never_parsed read_channel_class /\
  never_parsed read_channel_coding /\ never_parsed read_csma_ca_mode.
Proof. exact never_physical. Qed.
Print Assumptions C60_physical_refuted.

Theorem C60_network_refuted : forall E : Env,
  never_parsed read_group_condition /\ never_parsed read_address_type /\ never_parsed read_nls_method.
Proof. exact @never_network. Qed.
Print Assumptions C60_network_refuted.

Theorem C60_session_refuted : never_parsed read_response_mode /\ never_parsed read_retry_mode.
Proof. exact never_session. Qed.
Print Assumptions C60_session_refuted.

Theorem C60_data_refuted : never_parsed read_action_condition /\ never_parsed read_storage_class /\ never_parsed read_user_permissions.
Proof. exact never_data. Qed.
Print Assumptions C60_data_refuted.

Theorem C60_query_refuted :
  never_parsed read_arith_cmp /\ never_parsed read_arith_params /\ never_parsed read_range_cmp /\
  never_parsed read_range_params /\ never_parsed read_non_void /\ never_parsed read_cmp_zero /\
  never_parsed read_cmp_value /\ never_parsed read_cmp_other /\ never_parsed read_bitmap_range /\
  never_parsed read_string_search.
Proof. exact never_query. Qed.
Print Assumptions C60_query_refuted.

Theorem C60_operation_refuted :
  never_parsed read_opcode /\ never_parsed read_header /\ never_parsed read_status_type /\ never_parsed read_chunk_step /\
  never_parsed read_logic_op /\ never_parsed read_response_tag_header /\ never_parsed read_forward_header /\
  never_parsed read_indirect_forward_header /\ never_parsed read_request_tag_header /\ never_parsed read_tx_status_type.
Proof. exact never_operation. Qed.
Print Assumptions C60_operation_refuted.

(** The control fields of frames; that of the network frame fits into a byte in wizzilab only. *)
Theorem C60_frames_refuted : forall E : Env, never_parsed read_tcontrol /\ (e_feat <> Wizzilab -> never_parsed read_ncontrol).
Proof. exact @never_frames. Qed.
Print Assumptions C60_frames_refuted.

(** Whatever is done with the id of the catch-all variant, as long as it does not count as read. *)
Theorem C60_noise_floor_refuted : forall back, (forall r v r', back r = Ok (v, r') -> bread r' = bread r) ->
  never_parsed (read_noise_floor back).
Proof. exact never_noise. Qed.
Print Assumptions C60_noise_floor_refuted.

(** What works instead for the enums: to_bytes and from_bytes on the upper bits of a byte. *)
Theorem C60_physical_exact :
  upper_bits 2 read_bandwidth write_bandwidth code_bandwidth [0; 1] /\
  upper_bits 3 read_channel_band write_channel_band code_band [0; 1; 2; 3; 4] /\
  upper_bits 2 read_channel_class write_channel_class code_class [0; 1; 2; 3] /\
  upper_bits 2 read_channel_coding write_channel_coding code_coding [0; 1; 2; 3] /\
  upper_bits 4 read_csma_ca_mode write_csma_ca_mode code_csma [0; 1; 2; 3].
Proof. exact upper_physical. Qed.
Print Assumptions C60_physical_exact.

Theorem C60_network_exact : forall E : Env,
  upper_bits 2 read_group_condition write_group_condition code_group [0; 1; 2; 3] /\
  upper_bits 2 read_address_type write_address_type code_address_type [0; 1; 2; 3] /\
  upper_bits (match e_feat with Wizzilab => 3 | _ => 4 end)%nat read_nls_method write_nls_method code_nls [0; 1; 2; 3; 4; 5; 6; 7].
Proof. exact @upper_network. Qed.
Print Assumptions C60_network_exact.

Theorem C60_app_exact :
  upper_bits 3 read_response_mode write_response_mode code_response [0; 1; 2; 4; 5; 6] /\
  upper_bits 3 read_retry_mode write_retry_mode code_retry [0; 1; 2; 3; 4; 5; 6; 7] /\
  upper_bits 3 read_action_condition write_action_condition code_condition [0; 1; 2; 3] /\
  upper_bits 2 read_storage_class write_storage_class code_storage [0; 1; 2; 3] /\
  upper_bits 3 read_arith_cmp write_arith_cmp code_cmp [0; 1; 2; 3; 4; 5] /\
  upper_bits 3 read_range_cmp write_range_cmp code_range [0; 1] /\
  upper_bits 2 read_status_type write_status_type code_status_type [0; 1; 2] /\
  upper_bits 2 read_chunk_step write_chunk_step code_chunk [0; 1; 2; 3] /\
  upper_bits 2 read_logic_op write_logic_op code_logic [0; 1; 2; 3].
Proof. exact upper_app. Qed.
Print Assumptions C60_app_exact.

(** The operand headers and the noise floor, bit by bit. *)
Theorem C60_headers_exact : forall x t, x < 256 ->
  d_from_bytes read_response_tag_header (x :: t) 0 = Ok ((x :: t, 2%nat), (N.testbit x 7, N.testbit x 6)) /\
  d_from_bytes read_forward_header (x :: t) 0 = Ok ((x :: t, 2%nat), N.testbit x 6) /\
  d_from_bytes read_indirect_forward_header (x :: t) 0 = Ok ((x :: t, 2%nat), (N.testbit x 7, N.testbit x 6)) /\
  d_from_bytes read_request_tag_header (x :: t) 0 = Ok ((x :: t, 2%nat), N.testbit x 7) /\
  d_from_bytes read_tx_status_type (x :: t) 0 = (if x / 64 =? 1 then Ok ((x :: t, 2%nat), tt) else Err EParse).
Proof. exact headers_exact. Qed.
Print Assumptions C60_headers_exact.

Theorem C60_noise_floor_exact : forall back x suf, x < 256 ->
  to_bytes (write_noise_floor (NfFixed x)) = Ok [x / 16; 16 * (x mod 16)] /\
  to_bytes (write_noise_floor (NfForget x)) = Ok [16 + x / 16; 16 * (x mod 16)] /\
  to_bytes (write_noise_floor NfOther) = Ok [] /\
  d_from_bytes (read_noise_floor back) (x / 16 :: 16 * (x mod 16) :: suf) 0
    = Ok ((16 * (x mod 16) :: suf, 4%nat), NfFixed x) /\
  d_from_bytes (read_noise_floor back) (16 + x / 16 :: 16 * (x mod 16) :: suf) 0
    = Ok ((16 * (x mod 16) :: suf, 4%nat), NfForget x).
Proof. exact noise_floor_exact. Qed.
Print Assumptions C60_noise_floor_exact.

Example C60_example :
  to_bytes (write_channel_band Band868) = Ok [0x60] /\ d_try_from read_channel_band [0x60] = Err ETooMuchData /\
  d_from_bytes read_channel_band [0x60; 7] 0 = Ok (([0x60; 7], 3%nat), Band868) /\
  d_try_from read_channel_band [] = Err EIncomplete /\
  d_try_from read_header [0xC0] = Err ETooMuchData /\
  d_try_from (read_noise_floor (ret tt)) [0x00; 0x50] = Err ETooMuchData.
Proof. repeat split. Qed.
