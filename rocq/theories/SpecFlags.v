(** Vocabulary for C97: the two bits in front of an opcode. *)
From Coq Require Import List NArith Bool.
From Verif Require Import Base Deku Types Query File Operation Action.
Import ListNotations.
Open Scope N_scope.

(** The first byte of an action: two bits and the opcode. *)
Definition first (x y : bool) (op : N) : N := (if x then 128 else 0) + (if y then 64 else 0) + op.

(** The two bits as a number. *)
Definition step_of (x y : bool) : chunk_step :=
  if x then (if y then ChunkStartEnd else ChunkEnd) else if y then ChunkStart else ChunkContinue.
Definition logic_of (x y : bool) : logic_op :=
  if x then (if y then LogicNand else LogicNor) else if y then LogicXor else LogicOr.

(** The same action with other flags. The operands stay. Forwards have no first flag and request tags
    no second one; the first flag of an indirect forward says whether operands follow, and the two
    bits of a status say which, so these stay as well. *)
Definition reflag (x y : bool) (a : action) : action :=
  let h := mkHeader x y in
  let file v := mkFileIdOp h (fi_opcode v) (fi_file_id v) in
  let data v := mkFileData h (fd_opcode v) (fd_offset v) (fd_data v) in
  let props v := mkFileProperties h (fpr_opcode v) (fpr_file_id v) (fpr_file_header v) in
  let asked v := mkActionQuery h (aq_opcode v) (aq_query v) in
  match a with
  | ANop v => ANop (mkNop h (nop_opcode v))
  | AReadFileData v => AReadFileData (mkReadFileData h (rf_opcode v) (rf_offset v) (rf_length v))
  | AReadFileProperties v => AReadFileProperties (file v)
  | AWriteFileData v => AWriteFileData (data v)
  | AWriteFileDataFlush v => AWriteFileDataFlush (data v)
  | AWriteFileProperties v => AWriteFileProperties (props v)
  | AActionQuery v => AActionQuery (asked v)
  | ABreakQuery v => ABreakQuery (asked v)
  | APermissionRequest v =>
      APermissionRequest (mkPermissionRequest h (prq_opcode v) (prq_level v) (prq_permission v))
  | AVerifyChecksum v => AVerifyChecksum (asked v)
  | AExistFile v => AExistFile (file v)
  | ACreateNewFile v => ACreateNewFile (props v)
  | ADeleteFile v => ADeleteFile (file v)
  | ARestoreFile v => ARestoreFile (file v)
  | AFlushFile v => AFlushFile (file v)
  | ACopyFile v => ACopyFile (mkCopyFile h (cf_opcode v) (cf_src v) (cf_dst v))
  | AExecuteFile v => AExecuteFile (file v)
  | AReturnFileData v => AReturnFileData (data v)
  | AReturnFileProperties v => AReturnFileProperties (props v)
  | AStatus v => AStatus v
  | AResponseTag v => AResponseTag (mkResponseTag x y (rt_opcode v) (rt_id v))
  | ATxStatus v => ATxStatus v
  | AChunk v => AChunk (mkChunk (step_of x y) (ck_opcode v))
  | ALogic v => ALogic (mkLogic (logic_of x y) (lg_opcode v))
  | AForward v => AForward (mkForward y (fw_opcode v) (fw_config v))
  | AIndirectForward v => AIndirectForward (mkIndirectForward (if_overloaded v) y (if_opcode v) (if_config v))
  | ARequestTag v => ARequestTag (mkRequestTag x (rq_opcode v) (rq_id v))
  | AExtension v => AExtension (mkNop h (nop_opcode v))
  end.

(** The opcodes whose two bits are flags: all but those of statuses. The first bit of an indirect
    forward may not change. *)
Definition only_flags (op : N) (x x' : bool) : Prop := op <> 34 /\ op <> 38 /\ (op = 51 -> x = x').
