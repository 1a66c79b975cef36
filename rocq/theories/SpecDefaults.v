(** Vocabulary for default values: the table of all of them, each with its writer and reader. *)
From Coq Require Import List NArith ZArith Bool Lia.
From Verif Require Import Base Deku Utils Types Physical Link Network Session Data Query
  Interface File Operation Action Command Frames Defaults SpecApi SpecReturn SpecAction.
Import ListNotations.
Open Scope N_scope.

(** A value with the way it is written and read. *)
Inductive item :=
| Item {A : Type} (w : A -> writer) (m : reader A) (v : A).
Definition survives (i : item) : Prop :=
  match i with Item w m v => comes_back (w v) m v end.
(** Written, but the bytes are too short to be read. *)
Definition cut_short (i : item) : Prop :=
  match i with
  | Item w m v => exists l, to_bytes (w v) = Ok l /\ d_from_bytes m l 0 = Err EIncomplete
  end.

(** Types that take part of their format from a sibling field are read as the default of that
    sibling prescribes. *)
Definition small_defaults {E : Env} : list item :=
  [Item write_varint read_varint def_varint;
   Item write_length read_length def_length;
   Item write_file_offset read_file_offset def_file_offset;
   Item write_opcode read_opcode def_opcode;
   Item write_bandwidth read_bandwidth def_bandwidth;
   Item write_channel_band read_channel_band def_channel_band;
   Item write_channel_class read_channel_class def_channel_class;
   Item write_channel_coding read_channel_coding def_channel_coding;
   Item write_csma_ca_mode read_csma_ca_mode def_csma_ca_mode;
   Item write_channel_header read_channel_header def_channel_header;
   Item write_channel read_channel def_channel;
   Item write_channel_status_identifier read_channel_status_identifier
     def_channel_status_identifier;
   Item write_sub_band read_sub_band def_sub_band;
   Item write_sub_profile read_sub_profile def_sub_profile;
   Item write_access_class read_access_class def_access_class;
   Item write_access_profile read_access_profile def_access_profile;
   Item write_group_condition read_group_condition def_group_condition;
   Item write_nls_method read_nls_method def_nls_method;
   Item write_nls_state (read_nls_state def_nls_method) def_nls_state;
   Item write_address_type read_address_type def_address_type;
   Item write_address (read_address def_address_type) def_address;
   Item write_addressee read_addressee def_addressee;
   Item write_interface_type read_interface_type def_interface_type;
   Item write_response_mode read_response_mode def_response_mode;
   Item write_retry_mode read_retry_mode def_retry_mode;
   Item write_qos read_qos def_qos;
   Item write_interface_status (read_interface_status def_interface_type def_length)
     def_interface_status;
   Item write_action_condition read_action_condition def_action_condition;
   Item write_storage_class read_storage_class def_storage_class;
   Item write_user_permissions read_user_permissions def_user_permissions;
   Item write_file_permissions read_file_permissions def_file_permissions;
   Item write_fs_properties read_fs_properties def_fs_properties;
   Item write_file_header read_file_header def_file_header].

Definition query_defaults : list item :=
  [Item write_arith_cmp read_arith_cmp def_arith_cmp;
   Item write_arith_params read_arith_params def_arith_params;
   Item write_range_cmp read_range_cmp def_range_cmp;
   Item write_range_params read_range_params def_range_params;
   Item write_non_void read_non_void def_non_void;
   Item write_cmp_zero read_cmp_zero def_cmp_zero;
   Item write_cmp_value read_cmp_value def_cmp_value;
   Item write_cmp_other read_cmp_other def_cmp_other;
   Item write_bitmap_range read_bitmap_range def_bitmap_range;
   Item write_string_search read_string_search def_string_search;
   Item write_query read_query def_query;
   Item write_query read_query (QCmpZero def_cmp_zero);
   Item write_query read_query (QCmpValue def_cmp_value);
   Item write_query read_query (QCmpOther def_cmp_other);
   Item write_query read_query (QBitmapRange def_bitmap_range);
   Item write_query read_query (QStringSearch def_string_search)].

Definition large_defaults {E : Env} : list item :=
  [Item write_dash7_config read_dash7_config def_dash7_config;
   Item write_lorawan_config read_lorawan_config def_lorawan_config;
   Item write_interface_config read_interface_config def_interface_config;
   Item write_interface_config read_interface_config (IcDash7 def_dash7_config);
   Item write_indirect_interface read_indirect_interface def_indirect_interface;
   Item write_indirect_interface read_indirect_interface (IiDash7 def_addressee);
   Item write_file (read_file FidOther def_length) def_file;
   Item write_action_status read_action_status def_action_status;
   Item write_permission read_permission def_permission;
   Item write_permission_level read_permission_level def_permission_level;
   Item write_header read_header def_header;
   Item write_status_type read_status_type def_status_type;
   Item write_status (read_status def_status_type) def_status;
   Item write_itf_status_op read_itf_status_op def_itf_status_op;
   Item write_chunk_step read_chunk_step def_chunk_step;
   Item write_logic_op read_logic_op def_logic_op;
   Item write_command (read_command def_length) def_command;
   Item write_tcontrol read_tcontrol def_tcontrol;
   Item write_ack read_ack def_ack;
   Item write_ncontrol read_ncontrol def_ncontrol;
   Item write_hopping read_hopping def_hopping;
   Item write_bframe read_bframe def_bframe].

(** Every kind of action with the default operand. *)
Definition default_actions : list action :=
  [ANop def_nop; AReadFileData def_read_file_data; AReadFileProperties def_file_id_op;
   AWriteFileProperties def_file_properties; AActionQuery def_action_query;
   ABreakQuery def_action_query; APermissionRequest def_permission_request;
   AVerifyChecksum def_action_query; AExistFile def_file_id_op;
   ACreateNewFile def_file_properties; ADeleteFile def_file_id_op; ARestoreFile def_file_id_op;
   AFlushFile def_file_id_op; ACopyFile def_copy_file; AExecuteFile def_file_id_op;
   AReturnFileProperties def_file_properties; AStatus def_status_operand;
   AResponseTag def_response_tag; AChunk def_chunk; ALogic def_logic; AForward def_forward;
   AIndirectForward def_indirect_forward; ARequestTag def_request_tag; AExtension def_extension].
Definition default_file_actions : list action :=
  [AWriteFileData def_file_data; AWriteFileDataFlush def_file_data; AReturnFileData def_file_data].

(** The wire form of a default value, as a big-endian number of so many bits. Nearly all are zero;
    the address type "no id" has code 1. *)
Definition spelled (i : item) (f : N * N) : Prop :=
  match i with Item w m v => w v = Ok (map (fun k => N.testbit (snd f) (N.of_nat k)) (rev (seq 0 (N.to_nat (fst f))))) end.
Definition small_spelling {E : Env} : list (N * N) :=
  [(8, 0); (8, 0); (16, 0); (6, 0); (2, 0); (3, 0); (2, 0); (2, 0); (4, 0); (8, 0); (24, 0); (16, 0);
   (56, 0); (16, 0); (8, 0); (520, 0); (2, 0); (match e_feat with Wizzilab => 3 | _ => 4 end, 0); (0, 0);
   (2, 1); (0, 0); (16, 0x1000); (8, 0); (3, 0); (3, 0); (8, 0); (0, 0); (3, 0); (2, 0); (3, 0); (8, 0);
   (8, 0); (96, 0)].
Definition query_spelling : list (N * N) :=
  [(3, 0); (4, 0); (3, 0); (4, 0); (29, 0); (29, 0); (29, 0); (45, 0); (45, 0); (29, 0); (32, 0);
   (32, 0x20000000); (32, 0x40000000); (48, 0x600000000000); (48, 0x800000000000); (32, 0xE0000000)].
Definition large_spelling {E : Env} : list (N * N) :=
  [(match e_feat with Subiot => 32 | _ => 40 end, 0x1000); (24, 0); (8, 0);
   match e_feat with Subiot => (40, 0xD700001000) | _ => (48, 0xD70000001000) end;
   (8, 0); (24, 0xD71000); (0, 0); (16, 0); (72, 0x420000000000000000); (8, 0); (2, 0); (2, 0); (16, 0);
   (16, 0); (2, 0); (2, 0); (0, 0); (7, 0); (16, 0); match e_feat with Wizzilab => (8, 16) | _ => (9, 32) end;
   (8, 16); (48, 0x4000000000)].
Definition action_spelling : list (list N) :=
  [[0]; [1; 0; 0; 0]; [2; 0]; [6; 0; 0; 0; 0; 0; 0; 0; 0; 0; 0; 0; 0; 0]; [8; 0; 0; 0; 0]; [9; 0; 0; 0; 0];
   [10; 0; 0x42; 0; 0; 0; 0; 0; 0; 0; 0]; [11; 0; 0; 0; 0]; [16; 0]; [17; 0; 0; 0; 0; 0; 0; 0; 0; 0; 0; 0; 0; 0]; [18; 0]; [19; 0]; [20; 0];
   [23; 0; 0]; [31; 0]; [33; 0; 0; 0; 0; 0; 0; 0; 0; 0; 0; 0; 0; 0]; [34; 0; 0]; [35; 0]; [48]; [49]; [50; 0]; [51]; [52; 0]; [63]].
