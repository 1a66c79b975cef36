(** Constructors, conversions and [update] not covered by the other files, the operand headers as
    types of their own, and physical/mod.rs NoiseFloor. *)
From Coq Require Import List NArith ZArith Bool.
From Verif Require Import Base Deku Utils Types Physical Link Network Session Data Query Interface File
  Operation Action Command Frames.
Import ListNotations.
Open Scope N_scope.

(** app/operation/mod.rs:104-106 ActionHeader::new. *)
Definition header_new (group response : bool) : action_header := mkHeader group response.
(** app/operation/mod.rs:154-162 FileData::new. *)
Definition file_data_new (h : action_header) (o : file_offset) (f : file) (op : N) : file_data :=
  mkFileData h op o f.
(** app/operation/mod.rs:428-435 Into<Chunk> for ChunkStep. *)
Definition chunk_step_into (s : chunk_step) : chunk := mkChunk s 48.
(** app/operation/mod.rs:496-502 Forward::new. *)
Definition forward_new (response : bool) (c : interface_config) : forward := mkForward response 50 c.
(** app/operation/mod.rs:340-344 and app/interface_final.rs:60-64 Into<Status>. *)
Definition itf_status_op_into (v : itf_status_op) : status := StatusInterface v.
Definition itf_final_op_into (v : itf_final_op) : status := StatusInterfaceFinal v.
(** app/interface_final.rs:128-135 From<InterfaceTxStatus>: the id and the status, or a panic as
    the [id_pat] variant [Other] has no id. *)
Definition itf_tx_op_from (s : interface_tx_status) : res (N * interface_tx_status) :=
  match s with TxDash7 _ => Ok (0xD7, s) | TxOther _ => Panic end.
(** app/operation/file_offset.rs:13-18 FileOffset::no_offset. *)
Definition file_offset_no_offset (i : N) : file_offset := mkFileOffset i 0.
(** link/mod.rs:31-33, 35-40 AccessClass::new and unavailable. *)
Definition access_class_new (s m : N) : access_class := mkAccessClass s m.
Definition access_class_unavailable : access_class := mkAccessClass 0x0F 0x0F.
(** physical/mod.rs:88-98 ChannelHeader::new. *)
Definition channel_header_new (b : channel_band) (c : channel_class) (d : channel_coding) :=
  mkChannelHeader b c d.

(** app/action.rs:306-310 DekuUpdate for Action. *)
Definition action_update (a : action) : res action := Ok a.
(** Derived [update] of types without an [update] attribute: it sets nothing and does not descend
    into the fields. Query (app/query.rs:47-70), ActionQuery and Forward
    (app/operation/mod.rs:212-221, 484-493), Dash7InterfaceConfiguration (app/interface.rs:9-33),
    FileData (app/operation/mod.rs:136-151). *)
Definition query_update (v : query) : res query := Ok v.
Definition action_query_update (v : action_query) : res action_query := Ok v.
Definition forward_update (v : forward) : res forward := Ok v.
Definition dash7_config_update (v : dash7_config) : res dash7_config := Ok v.
Definition file_data_update (v : file_data) : res file_data := Ok v.
(** link/frame.rs:32-44 ForegroundFrame, network/network.rs:30-45 and transport/mod.rs:48-85 Frame. *)
Definition fframe_update (v : fframe) : res fframe := Ok v.

(** app/operation/mod.rs:386-399 ResponseTagHeader, 477-482 ForwardHeader, 505-512
    IndirectForwardHeader, 552-556 RequestTagHeader. *)
Definition read_response_tag_header : reader (bool * bool) :=
  e <- read_bool ;; r <- read_bool ;; ret (e, r).
Definition read_forward_header : reader bool := skip_bits 1 ;;; r <- read_bool ;; ret r.
Definition read_indirect_forward_header : reader (bool * bool) :=
  v <- read_bool ;; r <- read_bool ;; ret (v, r).
Definition read_request_tag_header : reader bool := e <- read_bool ;; skip_bits 1 ;;; ret e.
(** app/interface_final.rs:90-95 TxStatusType. *)
Definition read_tx_status_type : reader unit := read_enum 2 (fun n => assoc n [(1, tt)]).

(** physical/mod.rs:57-77 NoiseFloor: a 4-bit id, then a byte. What happens to the id when it
    selects the [id_pat] variant is the argument [back], see [e_rewind]. *)
Inductive noise_floor := NfFixed (v : N) | NfForget (v : N) | NfOther.
Definition read_noise_floor (back : reader unit) : reader noise_floor :=
  x <- read_uint 4 ;;
  if x =? 0 then v <- read_u8 ;; ret (NfFixed v)
  else if x =? 1 then v <- read_u8 ;; ret (NfForget v)
  else back ;;; ret NfOther.
Definition write_noise_floor (v : noise_floor) : writer :=
  match v with
  | NfFixed x => write_uint 4 0 +++ write_u8 x
  | NfForget x => write_uint 4 1 +++ write_u8 x
  | NfOther => wnil
  end.
