(** The values of [Default::default()], for every type of the crate that has one. *)
From Coq Require Import List NArith ZArith Bool Lia.
From Verif Require Import Base Deku Utils Types Physical Link Network Session Data Query
  Interface File Operation Action Command Frames.
Import ListNotations.
Open Scope N_scope.

(** types.rs:46 VarInt, app/operation/length.rs:7 Length, app/operation/file_offset.rs:6
    FileOffset, app/action.rs:28 OpCode: derived. *)
Definition def_varint := mkVarInt 0 false.
Definition def_length : N := 0.
Definition def_file_offset := mkFileOffset 0 0.
Definition def_opcode : N := 0.

(** physical/mod.rs:3-10, 12-21, 23-31, 33-41, 43-55: the variants marked [#[default]]. *)
Definition def_bandwidth := KHz200.
Definition def_channel_band := BandRfu0.
Definition def_channel_class := LoRate.
Definition def_channel_coding := Pn9.
Definition def_csma_ca_mode := Unc.
(** physical/mod.rs:79, 101, 108, 118: derived. *)
Definition def_channel_header := mkChannelHeader def_channel_band def_channel_class def_channel_coding.
Definition def_channel := mkChannel def_channel_header 0.
Definition def_channel_status_identifier :=
  mkChannelStatusIdentifier def_channel_band def_bandwidth 0.
Definition def_sub_band := mkSubBand 0 0 0%Z 0 0.

(** link/mod.rs:10, 22, 43: derived; arrays of four and eight. *)
Definition def_sub_profile := mkSubProfile 0 def_varint.
Definition def_access_class := mkAccessClass 0 0.
Definition def_access_profile :=
  mkAccessProfile def_channel_header (repeat def_sub_profile 4) (repeat def_sub_band 8).

(** transport/mod.rs:5-15 GroupCondition; network/mod.rs:13-51 NlsMethod, 53-73 NlsState, 75-91
    AddressType, 93-108 Address: the variants marked [#[default]]. *)
Definition def_group_condition := GcAny.
Definition def_nls_method := NlsNone.
Definition def_nls_state := NsNone.
Definition def_address_type := AtNoId.
Definition def_address := NoId.
(** network/addressee.rs:10: derived. *)
Definition def_addressee :=
  mkAddressee def_group_condition def_address_type false def_nls_method def_access_class
    def_address def_nls_state.

(** session/mod.rs:13-37 InterfaceType, 51-70 ResponseMode, 110-131 RetryMode, 144-164
    InterfaceStatus: the variants marked [#[default]]; 133 QoS: derived. *)
Definition def_interface_type := ItHost.
Definition def_response_mode := RmNo.
Definition def_retry_mode := RtNo.
Definition def_qos := mkQos false false def_retry_mode def_response_mode.
Definition def_interface_status := IsHost.

(** data/mod.rs:4-16, 18-38: the variants marked [#[default]]; 40, 50, 60, 74: derived. *)
Definition def_action_condition := AcList.
Definition def_storage_class := Transient.
Definition def_user_permissions := mkUserPerm false false false.
Definition def_file_permissions := mkFilePerm false false def_user_permissions def_user_permissions.
Definition def_fs_properties := mkFsProp false def_action_condition def_storage_class.
Definition def_file_header := mkFileHeader def_file_permissions def_fs_properties 0 0 0 0.

(** app/query.rs:5-21, 30-38: the variants marked [#[default]]; 23, 40, 72, 79, 107, 145, 178,
    219: derived; 64-69 Default for Query. *)
Definition def_arith_cmp := CmpInequal.
Definition def_arith_params := mkArithParams false def_arith_cmp.
Definition def_range_cmp := NotInRange.
Definition def_range_params := mkRangeParams false def_range_cmp.
Definition def_non_void := mkNonVoid 0 def_file_offset.
Definition def_cmp_zero := mkCmpZero false def_arith_params 0 [] def_file_offset.
Definition def_cmp_value := mkCmpValue false def_arith_params 0 [] [] def_file_offset.
Definition def_cmp_other := mkCmpOther false def_arith_params 0 [] def_file_offset def_file_offset.
Definition def_bitmap_range := mkBitmapRange false def_range_params 0 0 0 [] def_file_offset.
Definition def_string_search := mkStringSearch false 0 0 [] [] def_file_offset.
Definition def_query := QNonVoid def_non_void.

(** app/interface.rs:9, 35, 48, 62: derived; the keys are [Vec]s, so empty. 77-98, 100-115: the
    variants marked [#[default]]. *)
Definition def_dash7_config := mkDash7Config def_qos def_varint def_varint def_addressee.
Definition def_lorawan_config := mkLorawanConfig false false 0 0.
Definition def_otaa := mkOtaa def_lorawan_config [] [] [].
Definition def_abp := mkAbp def_lorawan_config [] [] 0 0.
Definition def_interface_config := IcHost.
Definition def_indirect_interface := IiHost.

(** file/mod.rs:208-212 Default for File. *)
Definition def_file := FOther [].

(** app/operation/mod.rs: derived, but for Permission (75-79) and Status (292-296). *)
Definition def_status_code : N := 0.
Definition def_action_status := mkActionStatus 0 def_status_code.
Definition def_permission := PermDash7 (repeat 0 8).
Definition def_permission_level := LevelUser.
Definition def_header := mkHeader false false.
Definition def_nop := mkNop def_header def_opcode.
Definition def_file_id_op := mkFileIdOp def_header def_opcode 0.
Definition def_file_data := mkFileData def_header def_opcode def_file_offset def_file.
Definition def_file_properties := mkFileProperties def_header def_opcode 0 def_file_header.
Definition def_read_file_data := mkReadFileData def_header def_opcode def_file_offset 0.
Definition def_action_query := mkActionQuery def_header def_opcode def_query.
Definition def_permission_request :=
  mkPermissionRequest def_header def_opcode def_permission_level def_permission.
Definition def_copy_file := mkCopyFile def_header def_opcode 0 0.
Definition def_status_type := StAction.
Definition def_status := StatusAction def_action_status.
Definition def_status_operand := mkStatusOperand def_status_type def_opcode def_status.
Definition def_itf_status_op := mkItfStatusOp def_interface_type def_interface_status.
Definition def_response_tag := mkResponseTag false false def_opcode 0.
Definition def_chunk_step := ChunkContinue.
Definition def_chunk := mkChunk def_chunk_step def_opcode.
Definition def_logic_op := LogicOr.
Definition def_logic := mkLogic def_logic_op def_opcode.
Definition def_forward := mkForward false def_opcode def_interface_config.
Definition def_indirect_forward := mkIndirectForward false false def_opcode None.
Definition def_request_tag := mkRequestTag false def_opcode 0.
Definition def_extension := mkNop def_header def_opcode.

(** app/command.rs:23. *)
Definition def_command : command := [].

(** transport/mod.rs:24, 42, 48; network/network.rs:7, 20, 30; link/frame.rs:8-34: derived. *)
Definition def_tcontrol := mkTControl false false false false false false false.
Definition def_ack := mkAck 0 0.
Definition def_tframe := mkTFrame def_tcontrol 0 0 None None None None None def_command.
Definition def_ncontrol := mkNControl false false def_address_type def_nls_method.
Definition def_hopping := mkHopping false def_address_type.
Definition def_nframe := mkNFrame def_ncontrol None def_access_class def_address def_tframe.
Definition def_bframe := mkBFrame 0 def_address_type 0 0 0.
Definition def_fframe := mkFFrame 0 0 def_address_type 0 def_address def_nframe 0.
