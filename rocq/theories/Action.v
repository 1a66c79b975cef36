(** dash7/src/app/action.rs. *)
From Coq Require Import List NArith ZArith Bool Lia.
From Verif Require Import Base Deku Utils Types Physical Link Network Session Data Query
  Interface File Operation.
Import ListNotations.
Open Scope N_scope.

(** app/action.rs:84-138 Action. [ATxStatus] exists only with the wizzilab feature. *)
Inductive action :=
| ANop (v : nop)
| AReadFileData (v : read_file_data_op)
| AReadFileProperties (v : file_id_op)
| AWriteFileData (v : file_data)
| AWriteFileDataFlush (v : file_data)
| AWriteFileProperties (v : file_properties)
| AActionQuery (v : action_query)
| ABreakQuery (v : action_query)
| APermissionRequest (v : permission_request)
| AVerifyChecksum (v : action_query)
| AExistFile (v : file_id_op)
| ACreateNewFile (v : file_properties)
| ADeleteFile (v : file_id_op)
| ARestoreFile (v : file_id_op)
| AFlushFile (v : file_id_op)
| ACopyFile (v : copy_file)
| AExecuteFile (v : file_id_op)
| AReturnFileData (v : file_data)
| AReturnFileProperties (v : file_properties)
| AStatus (v : status_operand)
| AResponseTag (v : response_tag)
| ATxStatus (v : tx_status_op)
| AChunk (v : chunk)
| ALogic (v : logic)
| AForward (v : forward)
| AIndirectForward (v : indirect_forward)
| ARequestTag (v : request_tag)
| AExtension (v : nop).

(** app/action.rs:31-72 opcode constants, as used by 270-304 deku_id. *)
Definition action_opcode (a : action) : N :=
  match a with
  | ANop _ => 0
  | AReadFileData _ => 1
  | AReadFileProperties _ => 2
  | AWriteFileData _ => 4
  | AWriteFileDataFlush _ => 5
  | AWriteFileProperties _ => 6
  | AActionQuery _ => 8
  | ABreakQuery _ => 9
  | APermissionRequest _ => 10
  | AVerifyChecksum _ => 11
  | AExistFile _ => 16
  | ACreateNewFile _ => 17
  | ADeleteFile _ => 18
  | ARestoreFile _ => 19
  | AFlushFile _ => 20
  | ACopyFile _ => 23
  | AExecuteFile _ => 31
  | AReturnFileData _ => 32
  | AReturnFileProperties _ => 33
  | AStatus _ => 34
  | AResponseTag _ => 35
  | ATxStatus _ => 38
  | AChunk _ => 48
  | ALogic _ => 49
  | AForward _ => 50
  | AIndirectForward _ => 51
  | ARequestTag _ => 52
  | AExtension _ => 63
  end.

(** app/action.rs:186-238: the arms of the match on the opcode. *)
Definition action_readers {E : Env} : list (N * reader action) :=
  [(0, v <- read_nop ;; ret (ANop v));
   (1, v <- read_read_file_data ;; ret (AReadFileData v));
   (2, v <- read_file_id_op ;; ret (AReadFileProperties v));
   (4, v <- read_file_data ;; ret (AWriteFileData v));
   (5, v <- read_file_data ;; ret (AWriteFileDataFlush v));
   (6, v <- read_file_properties ;; ret (AWriteFileProperties v));
   (8, v <- read_action_query ;; ret (AActionQuery v));
   (9, v <- read_action_query ;; ret (ABreakQuery v));
   (10, v <- read_permission_request ;; ret (APermissionRequest v));
   (11, v <- read_action_query ;; ret (AVerifyChecksum v));
   (16, v <- read_file_id_op ;; ret (AExistFile v));
   (17, v <- read_file_properties ;; ret (ACreateNewFile v));
   (18, v <- read_file_id_op ;; ret (ADeleteFile v));
   (19, v <- read_file_id_op ;; ret (ARestoreFile v));
   (20, v <- read_file_id_op ;; ret (AFlushFile v));
   (23, v <- read_copy_file ;; ret (ACopyFile v));
   (31, v <- read_file_id_op ;; ret (AExecuteFile v));
   (32, v <- read_file_data ;; ret (AReturnFileData v));
   (33, v <- read_file_properties ;; ret (AReturnFileProperties v));
   (35, v <- read_response_tag ;; ret (AResponseTag v))]
  ++ (if is_wizzilab then [(38, v <- read_tx_status_op ;; ret (ATxStatus v))] else [])
  ++ [(48, v <- read_chunk ;; ret (AChunk v));
      (49, v <- read_logic ;; ret (ALogic v));
      (52, v <- read_request_tag ;; ret (ARequestTag v));
      (34, v <- read_status_operand ;; ret (AStatus v));
      (50, v <- read_forward ;; ret (AForward v));
      (51, v <- read_indirect_forward ;; ret (AIndirectForward v));
      (63, v <- read_nop ;; ret (AExtension v))].

(** app/action.rs:159-241 DekuReader for Action: skip two bits, read the opcode, seek one byte
    back (the result of the seek is ignored), then read the operand by opcode. *)
Definition read_action {E : Env} : reader action :=
  skip_bits 2 ;;;
  code <- read_opcode ;;
  seek_back1 ;;;
  match assoc code action_readers with
  | Some m => m
  | None => fail EInvalidParam
  end.

(** app/action.rs:312-353 DekuWriter for Action. *)
Definition write_action {E : Env} (a : action) : writer :=
  let op := action_opcode a in
  match a with
  | ANop v | AExtension v => write_nop op v
  | AReadFileData v => write_read_file_data op v
  | AReadFileProperties v | AExistFile v | ADeleteFile v | ARestoreFile v | AFlushFile v
  | AExecuteFile v => write_file_id_op op v
  | AWriteFileData v | AWriteFileDataFlush v | AReturnFileData v => write_file_data op v
  | AWriteFileProperties v | ACreateNewFile v | AReturnFileProperties v =>
      write_file_properties op v
  | AActionQuery v | ABreakQuery v | AVerifyChecksum v => write_action_query op v
  | APermissionRequest v => write_permission_request op v
  | ACopyFile v => write_copy_file op v
  | AStatus v => write_status_operand op v
  | AResponseTag v => write_response_tag op v
  | ATxStatus v => write_tx_status_op op v
  | AChunk v => write_chunk op v
  | ALogic v => write_logic op v
  | AForward v => write_forward op v
  | AIndirectForward v => write_indirect_forward op v
  | ARequestTag v => write_request_tag op v
  end.

(** app/action.rs:355-361 TryFrom<Action> for Vec<u8>. *)
Definition action_to_bytes {E : Env} (a : action) : res (list N) := to_bytes (write_action a).
(** app/action.rs:243-255 TryFrom<&[u8]>. *)
Definition action_try_from {E : Env} (d : list N) : res action := u_try_from read_action d.
(** app/action.rs:257-268 DekuContainerRead. *)
Definition action_from_bytes {E : Env} (d : list N) (off : nat) := u_from_bytes read_action d off.
Definition action_from_reader {E : Env} (d : list N) (off : nat) := u_from_reader read_action d off.
