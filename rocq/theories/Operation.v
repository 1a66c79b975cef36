(** dash7/src/app/operation/mod.rs and app/interface_final.rs: the operands of the actions.

    Every operand struct starts with two header bits and the 6-bit opcode. When reading, the
    opcode is stored in the struct; when writing, the field's [writer] attribute writes the
    opcode passed by the caller instead of the stored one. *)
From Coq Require Import List NArith ZArith Bool Lia.
From Verif Require Import Base Deku Utils Types Physical Link Network Session Data Query
  Interface File.
Import ListNotations.
Open Scope N_scope.

(** app/action.rs:28-29 OpCode: a 6-bit number in a u8. *)
Definition read_opcode : reader N := read_uint 6.
Definition write_opcode (o : N) : writer := write_uint 6 o.

(** app/operation/mod.rs:24-25 StatusCode is its number; lines 48-52 is_err. *)
Definition status_code_is_err (c : N) : bool := 0x80 <? c.

(** app/operation/mod.rs:55-65 ActionStatus. *)
Record action_status := mkActionStatus { as_action_id : N; as_status : N }.
Definition read_action_status : reader action_status :=
  a <- read_u8 ;; s <- read_u8 ;; ret (mkActionStatus a s).
Definition write_action_status (v : action_status) : writer :=
  write_u8 (as_action_id v) +++ write_u8 (as_status v).

(** app/operation/mod.rs:68-73 Permission: id 0x42, eight bytes. *)
Inductive permission := PermDash7 (k : list N).
Definition read_permission : reader permission :=
  x <- read_u8 ;;
  if x =? 0x42 then k <- read_list 8 read_u8 ;; ret (PermDash7 k) else fail EParse.
Definition write_permission (v : permission) : writer :=
  match v with PermDash7 k => write_u8 0x42 +++ write_list write_u8 k end.

(** app/operation/mod.rs:81-90 PermissionLevel (8 bits). *)
Inductive permission_level := LevelUser | LevelRoot.
Definition permission_level_tbl := [(0, LevelUser); (1, LevelRoot)].
Definition permission_level_id (v : permission_level) : N :=
  match v with LevelUser => 0 | LevelRoot => 1 end.
Definition read_permission_level := read_enum 8 (fun n => assoc n permission_level_tbl).
Definition write_permission_level v := write_u8 (permission_level_id v).

(** app/operation/mod.rs:92-101 ActionHeader. *)
Record action_header := mkHeader { h_group : bool; h_response : bool }.
Definition read_header : reader action_header :=
  g <- read_bool ;; r <- read_bool ;; ret (mkHeader g r).
Definition write_header (h : action_header) : writer :=
  write_bool (h_group h) +++ write_bool (h_response h).

(** app/operation/mod.rs:111-118 Nop; lines 570-577 Extension has the same shape. *)
Record nop := mkNop { nop_header : action_header; nop_opcode : N }.
Definition read_nop : reader nop :=
  h <- read_header ;; o <- read_opcode ;; ret (mkNop h o).
Definition write_nop (op : N) (v : nop) : writer :=
  write_header (nop_header v) +++ write_opcode op.

(** app/operation/mod.rs:122-131 FileId (operand). *)
Record file_id_op := mkFileIdOp { fi_header : action_header; fi_opcode : N; fi_file_id : N }.
Definition read_file_id_op : reader file_id_op :=
  h <- read_header ;; o <- read_opcode ;; f <- read_u8 ;; ret (mkFileIdOp h o f).
Definition write_file_id_op (op : N) (v : file_id_op) : writer :=
  write_header (fi_header v) +++ write_opcode op +++ write_u8 (fi_file_id v).

(** app/operation/mod.rs:136-151 FileData. *)
Record file_data := mkFileData {
  fd_header : action_header; fd_opcode : N; fd_offset : file_offset; fd_data : file }.
(** app/operation/mod.rs:164-171 FileData::read. [try_into] to FileId never fails (lemma
    [file_id_try_from_ok]); its error would be passed on. *)
Definition read_file_payload {E : Env} (o : file_offset) : reader file :=
  l <- read_length ;;
  fun r => match file_id_try_from (fo_file_id o) with
           | Ok id => read_file id l r
           | Err e => Err e
           | Panic => Panic
           end.
(** app/operation/mod.rs:173-183 FileData::write: the id is only converted (never fails); the
    derived writer of File ignores it and [vec_size]. *)
Definition write_file_payload {E : Env} (f : file) (o : file_offset) : writer :=
  rbind (file_id_try_from (fo_file_id o)) (fun _ => write_length_prefixed (write_file f)).
Definition read_file_data {E : Env} : reader file_data :=
  h <- read_header ;; o <- read_opcode ;; f <- read_file_offset ;; d <- read_file_payload f ;;
  ret (mkFileData h o f d).
Definition write_file_data {E : Env} (op : N) (v : file_data) : writer :=
  write_header (fd_header v) +++ write_opcode op +++ write_file_offset (fd_offset v)
  +++ write_file_payload (fd_data v) (fd_offset v).

(** app/operation/mod.rs:186-196 FileProperties (operand). *)
Record file_properties := mkFileProperties {
  fpr_header : action_header; fpr_opcode : N; fpr_file_id : N; fpr_file_header : file_header }.
Definition read_file_properties : reader file_properties :=
  h <- read_header ;; o <- read_opcode ;; f <- read_u8 ;; p <- read_file_header ;;
  ret (mkFileProperties h o f p).
Definition write_file_properties (op : N) (v : file_properties) : writer :=
  write_header (fpr_header v) +++ write_opcode op +++ write_u8 (fpr_file_id v)
  +++ write_file_header (fpr_file_header v).

(** app/operation/mod.rs:200-210 ReadFileData. *)
Record read_file_data_op := mkReadFileData {
  rf_header : action_header; rf_opcode : N; rf_offset : file_offset; rf_length : N }.
Definition read_read_file_data : reader read_file_data_op :=
  h <- read_header ;; o <- read_opcode ;; f <- read_file_offset ;; l <- read_length ;;
  ret (mkReadFileData h o f l).
Definition write_read_file_data (op : N) (v : read_file_data_op) : writer :=
  write_header (rf_header v) +++ write_opcode op +++ write_file_offset (rf_offset v)
  +++ write_length (rf_length v).

(** app/operation/mod.rs:212-221 ActionQuery. *)
Record action_query := mkActionQuery {
  aq_header : action_header; aq_opcode : N; aq_query : query }.
Definition read_action_query : reader action_query :=
  h <- read_header ;; o <- read_opcode ;; q <- read_query ;; ret (mkActionQuery h o q).
Definition write_action_query (op : N) (v : action_query) : writer :=
  write_header (aq_header v) +++ write_opcode op +++ write_query (aq_query v).

(** app/operation/mod.rs:224-235 PermissionRequest. *)
Record permission_request := mkPermissionRequest {
  prq_header : action_header; prq_opcode : N; prq_level : permission_level;
  prq_permission : permission }.
Definition read_permission_request : reader permission_request :=
  h <- read_header ;; o <- read_opcode ;; l <- read_permission_level ;; p <- read_permission ;;
  ret (mkPermissionRequest h o l p).
Definition write_permission_request (op : N) (v : permission_request) : writer :=
  write_header (prq_header v) +++ write_opcode op +++ write_permission_level (prq_level v)
  +++ write_permission (prq_permission v).

(** app/operation/mod.rs:243-254 CopyFile. *)
Record copy_file := mkCopyFile {
  cf_header : action_header; cf_opcode : N; cf_src : N; cf_dst : N }.
Definition read_copy_file : reader copy_file :=
  h <- read_header ;; o <- read_opcode ;; s <- read_u8 ;; d <- read_u8 ;;
  ret (mkCopyFile h o s d).
Definition write_copy_file (op : N) (v : copy_file) : writer :=
  write_header (cf_header v) +++ write_opcode op +++ write_u8 (cf_src v) +++ write_u8 (cf_dst v).

(** app/operation/mod.rs:256-269 StatusType (2 bits). *)
Inductive status_type := StAction | StInterface | StInterfaceFinal.
Definition status_type_tbl := [(0, StAction); (1, StInterface); (2, StInterfaceFinal)].
Definition status_type_id (v : status_type) : N :=
  match v with StAction => 0 | StInterface => 1 | StInterfaceFinal => 2 end.
Definition read_status_type := read_enum 2 (fun n => assoc n status_type_tbl).
Definition write_status_type v := write_uint 2 (status_type_id v).

(** app/operation/mod.rs:320-329 InterfaceStatusOperation. *)
Record itf_status_op := mkItfStatusOp {
  iso_type : interface_type; iso_status : interface_status }.
(** app/operation/mod.rs:346-365 read (not subiot_v0_0). *)
Definition read_itf_status_op {E : Env} : reader itf_status_op :=
  t <- read_interface_type ;; l <- read_length ;; s <- read_interface_status t l ;;
  ret (mkItfStatusOp t s).
(** app/operation/mod.rs:367-383 write (not subiot_v0_0): the type field is written by its own
    writer, the status length prefixed. [status.deku_id().unwrap()] never panics: all variants
    of InterfaceStatus have an id. *)
Definition write_itf_status_op {E : Env} (v : itf_status_op) : writer :=
  write_interface_type (iso_type v)
  +++ write_length_prefixed (write_interface_status (iso_status v)).
(** app/operation/mod.rs:331-338 From<InterfaceStatus>. *)
Definition itf_status_op_from (s : interface_status) : itf_status_op :=
  mkItfStatusOp (interface_status_kind s) s.

(** app/interface_final.rs:8-16 read_length_prefixed, 40-49 InterfaceFinalStatusOperation,
    66-88 its read and write. Wizzilab only. *)
Record itf_final_op := mkItfFinalOp { ifo_id : N; ifo_status : interface_final_status }.
Definition read_itf_final_op : reader itf_final_op :=
  i <- read_u8 ;; l <- read_length ;; s <- read_interface_final_status i l ;;
  ret (mkItfFinalOp i s).
Definition write_itf_final_op (v : itf_final_op) : writer :=
  write_u8 (ifo_id v) +++ write_length_prefixed (write_interface_final_status (ifo_status v)).
(** app/interface_final.rs:51-58 From<InterfaceFinalStatus>: [deku_id().unwrap()], and deku_id of
    the [id_pat] variant [Other] is an error. *)
Definition itf_final_op_from (s : interface_final_status) : res itf_final_op :=
  match s with FinDash7 _ => Ok (mkItfFinalOp 0xD7 s) | FinOther _ => Panic end.

(** app/operation/mod.rs:271-290 Status. *)
Inductive status :=
| StatusAction (v : action_status) | StatusInterface (v : itf_status_op)
| StatusInterfaceFinal (v : itf_final_op).
(** Derived deku_id. *)
Definition status_kind (s : status) : status_type :=
  match s with
  | StatusAction _ => StAction | StatusInterface _ => StInterface
  | StatusInterfaceFinal _ => StInterfaceFinal
  end.
(** Without wizzilab there is no variant for StatusType::InterfaceFinal (line 286). *)
Definition read_status {E : Env} (t : status_type) : reader status :=
  match t with
  | StAction => v <- read_action_status ;; ret (StatusAction v)
  | StInterface => v <- read_itf_status_op ;; ret (StatusInterface v)
  | StInterfaceFinal =>
      if is_wizzilab then v <- read_itf_final_op ;; ret (StatusInterfaceFinal v)
      else fail EParse
  end.
Definition write_status {E : Env} (s : status) : writer :=
  match s with
  | StatusAction v => write_action_status v
  | StatusInterface v => write_itf_status_op v
  | StatusInterfaceFinal v => write_itf_final_op v
  end.

(** app/operation/mod.rs:308-318 StatusOperand. *)
Record status_operand := mkStatusOperand {
  so_type : status_type; so_opcode : N; so_status : status }.
Definition read_status_operand {E : Env} : reader status_operand :=
  t <- read_status_type ;; o <- read_opcode ;; s <- read_status t ;; ret (mkStatusOperand t o s).
Definition write_status_operand {E : Env} (op : N) (v : status_operand) : writer :=
  write_status_type (so_type v) +++ write_opcode op +++ write_status (so_status v).
(** app/operation/mod.rs:298-306 Into<StatusOperand> for Status. *)
Definition status_into_operand (s : status) : status_operand :=
  mkStatusOperand (status_kind s) 34 s.

(** app/operation/mod.rs:386-411 ResponseTagHeader and ResponseTag. *)
Record response_tag := mkResponseTag {
  rt_eop : bool; rt_error : bool; rt_opcode : N; rt_id : N }.
Definition read_response_tag : reader response_tag :=
  e <- read_bool ;; r <- read_bool ;; o <- read_opcode ;; i <- read_u8 ;;
  ret (mkResponseTag e r o i).
Definition write_response_tag (op : N) (v : response_tag) : writer :=
  write_bool (rt_eop v) +++ write_bool (rt_error v) +++ write_opcode op +++ write_u8 (rt_id v).

(** app/operation/mod.rs:414-426 ChunkStep (2 bits), 444-451 Chunk. *)
Inductive chunk_step := ChunkContinue | ChunkStart | ChunkEnd | ChunkStartEnd.
Definition chunk_step_tbl :=
  [(0, ChunkContinue); (1, ChunkStart); (2, ChunkEnd); (3, ChunkStartEnd)].
Definition chunk_step_id (v : chunk_step) : N :=
  match v with ChunkContinue => 0 | ChunkStart => 1 | ChunkEnd => 2 | ChunkStartEnd => 3 end.
Definition read_chunk_step := read_enum 2 (fun n => assoc n chunk_step_tbl).
Definition write_chunk_step v := write_uint 2 (chunk_step_id v).
Record chunk := mkChunk { ck_step : chunk_step; ck_opcode : N }.
Definition read_chunk : reader chunk :=
  s <- read_chunk_step ;; o <- read_opcode ;; ret (mkChunk s o).
Definition write_chunk (op : N) (v : chunk) : writer :=
  write_chunk_step (ck_step v) +++ write_opcode op.

(** app/operation/mod.rs:454-466 LogicOp (2 bits), 468-475 Logic. *)
Inductive logic_op := LogicOr | LogicXor | LogicNor | LogicNand.
Definition logic_op_tbl := [(0, LogicOr); (1, LogicXor); (2, LogicNor); (3, LogicNand)].
Definition logic_op_id (v : logic_op) : N :=
  match v with LogicOr => 0 | LogicXor => 1 | LogicNor => 2 | LogicNand => 3 end.
Definition read_logic_op := read_enum 2 (fun n => assoc n logic_op_tbl).
Definition write_logic_op v := write_uint 2 (logic_op_id v).
Record logic := mkLogic { lg_op : logic_op; lg_opcode : N }.
Definition read_logic : reader logic :=
  s <- read_logic_op ;; o <- read_opcode ;; ret (mkLogic s o).
Definition write_logic (op : N) (v : logic) : writer :=
  write_logic_op (lg_op v) +++ write_opcode op.

(** app/operation/mod.rs:477-503 ForwardHeader and Forward. *)
Record forward := mkForward {
  fw_response : bool; fw_opcode : N; fw_config : interface_config }.
Definition read_forward {E : Env} : reader forward :=
  skip_bits 1 ;;; r <- read_bool ;; o <- read_opcode ;; c <- read_interface_config ;;
  ret (mkForward r o c).
Definition write_forward {E : Env} (op : N) (v : forward) : writer :=
  write_pad 1 +++ write_bool (fw_response v) +++ write_opcode op
  +++ write_interface_config (fw_config v).

(** app/operation/mod.rs:505-550 IndirectForwardHeader and IndirectForward. *)
Record indirect_forward := mkIndirectForward {
  if_overloaded : bool; if_response : bool; if_opcode : N; if_config : option indirect_interface }.
Definition read_indirect_forward {E : Env} : reader indirect_forward :=
  v <- read_bool ;; r <- read_bool ;; o <- read_opcode ;;
  c <- read_cond v read_indirect_interface ;;
  ret (mkIndirectForward v r o c).
Definition write_indirect_forward {E : Env} (op : N) (v : indirect_forward) : writer :=
  write_bool (if_overloaded v) +++ write_bool (if_response v) +++ write_opcode op
  +++ write_opt write_indirect_interface (if_config v).
(** app/operation/mod.rs:540-549 IndirectForward::new. *)
Definition indirect_forward_new (response : bool) (c : option indirect_interface) :=
  mkIndirectForward (match c with Some _ => true | None => false end) response 51 c.
(** Derived update (lines 527-529). *)
Definition indirect_forward_update (v : indirect_forward) : indirect_forward :=
  mkIndirectForward (match if_config v with Some _ => true | None => false end)
    (if_response v) (if_opcode v) (if_config v).

(** app/operation/mod.rs:552-568 RequestTagHeader and RequestTag. *)
Record request_tag := mkRequestTag { rq_eop : bool; rq_opcode : N; rq_id : N }.
Definition read_request_tag : reader request_tag :=
  e <- read_bool ;; skip_bits 1 ;;; o <- read_opcode ;; i <- read_u8 ;;
  ret (mkRequestTag e o i).
Definition write_request_tag (op : N) (v : request_tag) : writer :=
  write_bool (rq_eop v) +++ write_pad 1 +++ write_opcode op +++ write_u8 (rq_id v).

(** app/interface_final.rs:90-126 TxStatusType (2 bits, only id 1), TxStatusOperation, TxStatus
    and InterfaceTxStatusOperation; 137-159 read and write. Wizzilab only. *)
Record tx_status_op := mkTxStatusOp {
  txo_opcode : N; txo_itf_id : N; txo_status : interface_tx_status }.
Definition read_tx_status_op {E : Env} : reader tx_status_op :=
  t <- read_enum 2 (fun n => assoc n [(1, tt)]) ;;
  skip_bits 6 ;;;
  o <- read_opcode ;;
  i <- read_u8 ;; l <- read_length ;; s <- read_interface_tx_status i l ;;
  ret (mkTxStatusOp o i s).
Definition write_tx_status_op {E : Env} (op : N) (v : tx_status_op) : writer :=
  write_uint 2 1 +++ write_pad 6 +++ write_opcode op +++ write_u8 (txo_itf_id v)
  +++ write_length_prefixed (write_interface_tx_status (txo_status v)).
