(** Vocabulary for statements about parsed actions. *)
From Coq Require Import List NArith ZArith Bool Lia.
From Verif Require Import Base Deku Utils Types Physical Link Network Session Data Query
  Interface File Operation Action Command WellFormed SpecLayout.
Import ListNotations.
Open Scope N_scope.

(** The opcode the ALP specification assigns to each kind of action. *)
Definition opcode_of (a : action) : N :=
  match a with
  | ANop _ => 0 | AReadFileData _ => 1 | AReadFileProperties _ => 2
  | AWriteFileData _ => 4 | AWriteFileDataFlush _ => 5 | AWriteFileProperties _ => 6
  | AActionQuery _ => 8 | ABreakQuery _ => 9 | APermissionRequest _ => 10 | AVerifyChecksum _ => 11
  | AExistFile _ => 16 | ACreateNewFile _ => 17 | ADeleteFile _ => 18 | ARestoreFile _ => 19
  | AFlushFile _ => 20 | ACopyFile _ => 23 | AExecuteFile _ => 31
  | AReturnFileData _ => 32 | AReturnFileProperties _ => 33 | AStatus _ => 34 | AResponseTag _ => 35
  | ATxStatus _ => 38
  | AChunk _ => 48 | ALogic _ => 49 | AForward _ => 50 | AIndirectForward _ => 51
  | ARequestTag _ => 52 | AExtension _ => 63
  end.
(** The assigned opcodes; TxStatus exists only with the wizzilab feature. *)
Definition assigned_opcodes {E : Env} : list N :=
  [0; 1; 2; 4; 5; 6; 8; 9; 10; 11; 16; 17; 18; 19; 20; 23; 31; 32; 33; 34; 35]
  ++ match e_feat with Wizzilab => [38] | _ => [] end ++ [48; 49; 50; 51; 52; 63].

(** The opcode stored in the operand. *)
Definition stored_opcode (a : action) : N :=
  match a with
  | ANop v | AExtension v => nop_opcode v
  | AReadFileData v => rf_opcode v
  | AReadFileProperties v | AExistFile v | ADeleteFile v | ARestoreFile v | AFlushFile v
  | AExecuteFile v => fi_opcode v
  | AWriteFileData v | AWriteFileDataFlush v | AReturnFileData v => fd_opcode v
  | AWriteFileProperties v | ACreateNewFile v | AReturnFileProperties v => fpr_opcode v
  | AActionQuery v | ABreakQuery v | AVerifyChecksum v => aq_opcode v
  | APermissionRequest v => prq_opcode v
  | ACopyFile v => cf_opcode v
  | AStatus v => so_opcode v
  | AResponseTag v => rt_opcode v
  | ATxStatus v => txo_opcode v
  | AChunk v => ck_opcode v
  | ALogic v => lg_opcode v
  | AForward v => fw_opcode v
  | AIndirectForward v => if_opcode v
  | ARequestTag v => rq_opcode v
  end.

(** The same action with another stored opcode. *)
Definition with_opcode (o : N) (a : action) : action :=
  let id v := mkFileIdOp (fi_header v) o (fi_file_id v) in
  let fd v := mkFileData (fd_header v) o (fd_offset v) (fd_data v) in
  let fp v := mkFileProperties (fpr_header v) o (fpr_file_id v) (fpr_file_header v) in
  let aq v := mkActionQuery (aq_header v) o (aq_query v) in
  match a with
  | ANop v => ANop (mkNop (nop_header v) o)
  | AExtension v => AExtension (mkNop (nop_header v) o)
  | AReadFileData v => AReadFileData (mkReadFileData (rf_header v) o (rf_offset v) (rf_length v))
  | AReadFileProperties v => AReadFileProperties (id v)
  | AExistFile v => AExistFile (id v)
  | ADeleteFile v => ADeleteFile (id v)
  | ARestoreFile v => ARestoreFile (id v)
  | AFlushFile v => AFlushFile (id v)
  | AExecuteFile v => AExecuteFile (id v)
  | AWriteFileData v => AWriteFileData (fd v)
  | AWriteFileDataFlush v => AWriteFileDataFlush (fd v)
  | AReturnFileData v => AReturnFileData (fd v)
  | AWriteFileProperties v => AWriteFileProperties (fp v)
  | ACreateNewFile v => ACreateNewFile (fp v)
  | AReturnFileProperties v => AReturnFileProperties (fp v)
  | AActionQuery v => AActionQuery (aq v)
  | ABreakQuery v => ABreakQuery (aq v)
  | AVerifyChecksum v => AVerifyChecksum (aq v)
  | APermissionRequest v =>
      APermissionRequest (mkPermissionRequest (prq_header v) o (prq_level v) (prq_permission v))
  | ACopyFile v => ACopyFile (mkCopyFile (cf_header v) o (cf_src v) (cf_dst v))
  | AStatus v => AStatus (mkStatusOperand (so_type v) o (so_status v))
  | AResponseTag v => AResponseTag (mkResponseTag (rt_eop v) (rt_error v) o (rt_id v))
  | ATxStatus v => ATxStatus (mkTxStatusOp o (txo_itf_id v) (txo_status v))
  | AChunk v => AChunk (mkChunk (ck_step v) o)
  | ALogic v => ALogic (mkLogic (lg_op v) o)
  | AForward v => AForward (mkForward (fw_response v) o (fw_config v))
  | AIndirectForward v =>
      AIndirectForward (mkIndirectForward (if_overloaded v) (if_response v) o (if_config v))
  | ARequestTag v => ARequestTag (mkRequestTag (rq_eop v) o (rq_id v))
  end.

(** ** The two kinds of value the parser can return that are not well formed *)

(** A status of an interface whose type has no id of its own. *)
Definition unknown_itf_status (v : itf_status_op) : Prop :=
  exists l, v = mkItfStatusOp ItUnknown (IsOther l) /\ wf_payload l.
Definition unknown_status (l : list N) : action :=
  AStatus (mkStatusOperand StInterface 34 (StatusInterface (mkItfStatusOp ItUnknown (IsOther l)))).
(** A TxStatus (wizzilab). *)
Definition parsed_tx_status {E : Env} (v : tx_status_op) : Prop :=
  txo_opcode v < 64 /\ u8 (txo_itf_id v) /\
  match txo_status v with
  | TxDash7 s => txo_itf_id v = 0xD7 /\ wf_tx_status s
  | TxOther l => txo_itf_id v <> 0xD7 /\ wf_payload l
  end.
Definition is_tx_status (a : action) : bool := match a with ATxStatus _ => true | _ => false end.
(** Everything the parser returns. *)
Definition parsed_action {E : Env} (a : action) : Prop :=
  wf_action a \/ (exists l, a = unknown_status l /\ wf_payload l) \/
  (e_feat = Wizzilab /\ exists v, a = ATxStatus v /\ parsed_tx_status v).

(** The two flag bits of the first byte, as the number bit 7, bit 6. *)
Definition flag_bits (a : action) : N :=
  let two (x y : bool) := 2 * b2n x + b2n y in
  let h v := two (h_group v) (h_response v) in
  match a with
  | ANop v | AExtension v => h (nop_header v)
  | AReadFileData v => h (rf_header v)
  | AReadFileProperties v | AExistFile v | ADeleteFile v | ARestoreFile v | AFlushFile v
  | AExecuteFile v => h (fi_header v)
  | AWriteFileData v | AWriteFileDataFlush v | AReturnFileData v => h (fd_header v)
  | AWriteFileProperties v | ACreateNewFile v | AReturnFileProperties v => h (fpr_header v)
  | AActionQuery v | ABreakQuery v | AVerifyChecksum v => h (aq_header v)
  | APermissionRequest v => h (prq_header v)
  | ACopyFile v => h (cf_header v)
  | AStatus v => match so_type v with StAction => 0 | StInterface => 1 | StInterfaceFinal => 2 end
  | AResponseTag v => two (rt_eop v) (rt_error v)
  | ATxStatus _ => 1
  | AChunk v =>
      match ck_step v with ChunkContinue => 0 | ChunkStart => 1 | ChunkEnd => 2 | ChunkStartEnd => 3 end
  | ALogic v => match lg_op v with LogicOr => 0 | LogicXor => 1 | LogicNor => 2 | LogicNand => 3 end
  | AForward v => two false (fw_response v)
  | AIndirectForward v => two (if_overloaded v) (if_response v)
  | ARequestTag v => two (rq_eop v) false
  end.

(** The payload of a TxStatus. *)
Definition enc_dash7_tx_status {E : Env} (v : dash7_tx_status) : list N :=
  enc_channel (tx_channel v) ++ [enc_i8 (tx_target_rx_level v); code_final (tx_error v); 0; 0; 0]
  ++ enc_native 4 (tx_lts v) ++ enc_addressee (tx_addressee v).
Definition enc_tx_payload {E : Env} (v : interface_tx_status) : list N :=
  match v with TxDash7 s => enc_dash7_tx_status s | TxOther l => l end.

(** The lengths whose encoding starts with the id byte of a known interface (0 to 3, or 0xD7). *)
Definition clashes (k : N) : Prop := k < 4 \/ (23 * 2 ^ 24 <= k /\ k < 24 * 2 ^ 24).

(** Parsed actions that parsing gives back after serialising them. *)
Definition reencodable {E : Env} (a : action) : Prop :=
  match a with
  | ATxStatus _ => False
  | AStatus (mkStatusOperand _ _ (StatusInterface (mkItfStatusOp ItUnknown (IsOther l)))) =>
      e_rewind = true /\ ~ clashes (N.of_nat (length l))
  | _ => True
  end.

(** The actions [c], one after the other from byte [p] on, end in front of byte [q]. *)
Inductive actions_at {E : Env} (d : list N) : nat -> list action -> nat -> Prop :=
| at_nil p : actions_at d p [] p
| at_cons p n a p' n' c q :
    read_action (mkRd d p [] n) = Ok (a, mkRd d p' [] n') -> actions_at d p' c q ->
    actions_at d p (a :: c) q.
(** An IndirectForward occurs at most at the end. *)
Definition indirect_last (c : command) : Prop :=
  forall pre a post, c = pre ++ a :: post -> is_indirect a = true -> post = [].
