(** C73: from_reader on a stream that has been read from before. *)
From Coq Require Import List NArith ZArith Bool.
From Verif Require Import Base Deku Utils Types Physical Link Network Session Data Query Interface File
  Operation Action Command Frames Position WellFormed SpecLayout SpecApi SpecDecode Samples SpecFrames SpecFrameDecode SpecPosition LPosition.
Import ListNotations.
Open Scope N_scope.

(** At the start of the stream this is the from_reader of the other properties. *)
Theorem C73_start : forall A (m : reader A) d off,
  d_from_reader m d off = rbind (from_stream m d 0 off) (fun x => Ok (fst x)) /\
  u_from_reader m d off = rbind (from_stream m d 0 off) (fun x => Ok (fst x)).
Proof. exact @from_start. Qed.
Print Assumptions C73_start.

(** ** What was read before does not matter: value, count, error, and bytes taken are the same. *)
Theorem C73_action : forall E : Env, anywhere read_action.
Proof. exact @anywhere_action. Qed.
Print Assumptions C73_action.

Theorem C73_command : forall E : Env, anywhere (read_command 0).
Proof. exact @anywhere_command. Qed.
Print Assumptions C73_command.

Theorem C73_types : forall E : Env,
  anywhere read_length /\ anywhere read_varint /\ anywhere read_file_offset /\
  anywhere read_channel_header /\ anywhere read_channel /\ anywhere read_channel_status /\
  anywhere read_sub_band /\ anywhere read_sub_profile /\ anywhere read_access_profile /\
  anywhere read_addressee /\ anywhere read_qos /\ anywhere read_dash7_status /\
  anywhere read_dash7_tx_status /\ anywhere read_final_status_code /\ anywhere read_file_header.
Proof. exact @anywhere_types. Qed.
Print Assumptions C73_types.

Theorem C73_operations : forall E : Env,
  anywhere read_query /\ anywhere read_dash7_config /\ anywhere read_lorawan_config /\
  anywhere read_interface_config /\ anywhere read_indirect_interface /\
  anywhere read_itf_status_op /\ anywhere read_itf_final_op /\ anywhere read_bframe.
Proof. exact @anywhere_operations. Qed.
Print Assumptions C73_operations.

Theorem C73_enums : forall E : Env,
  anywhere read_bandwidth /\ anywhere read_channel_band /\ anywhere read_channel_class /\ anywhere read_channel_coding /\
  anywhere read_csma_ca_mode /\ anywhere read_group_condition /\ anywhere read_address_type /\ anywhere read_nls_method /\
  anywhere read_response_mode /\ anywhere read_retry_mode /\ anywhere read_action_condition /\ anywhere read_storage_class /\
  anywhere read_eng_method /\ anywhere read_arith_cmp /\ anywhere read_range_cmp /\ anywhere read_permission_level /\
  anywhere read_status_type /\ anywhere read_chunk_step /\ anywhere read_logic_op.
Proof. exact @anywhere_enums. Qed.
Print Assumptions C73_enums.

(** ** Where the stream is left *)
Theorem C73_left_types : forall E : Env,
  leaves read_length dec_length /\ leaves read_varint dec_varint /\ leaves read_file_offset dec_file_offset /\
  leaves read_channel_header dec_channel_header /\ leaves read_channel dec_channel /\
  leaves read_channel_status dec_channel_status /\ leaves read_sub_band dec_sub_band /\
  leaves read_sub_profile dec_sub_profile /\ leaves read_access_profile dec_access_profile /\
  leaves read_addressee dec_addressee /\ leaves read_qos dec_qos /\
  leaves read_dash7_status dec_dash7_status /\ leaves read_dash7_tx_status dec_dash7_tx /\
  leaves read_final_status_code dec_final /\ leaves read_file_header dec_file_header.
Proof. exact @leaves_types. Qed.
Print Assumptions C73_left_types.

Theorem C73_left_operations : forall E : Env,
  leaves read_query dec_query /\ leaves read_dash7_config dec_dash7_config /\
  leaves read_lorawan_config dec_lorawan /\ leaves read_interface_config dec_interface_config /\
  leaves read_indirect_interface dec_indirect_interface /\
  leaves read_itf_status_op dec_itf_status /\ leaves read_itf_final_op dec_itf_final /\ leaves read_bframe dec_bframe.
Proof. exact @leaves_operations. Qed.
Print Assumptions C73_left_operations.

(** Action::from_reader leaves the stream right behind the action; the count is 8 more. *)
Theorem C73_left_action : forall (E : Env) d p, bytes d -> (p <= length d)%nat ->
  match dec_action (skipn p d) with
  | Some (a, rest) => (length rest < length d - p)%nat /\
      from_stream read_action d p 0 =
        Ok (8 + 8 * (length d - p - length rest) - (if is_tx a then 2 else 0), a, length d - length rest)%nat
  | None => exists e, from_stream read_action d p 0 = Err e
  end.
Proof. exact @action_left. Qed.
Print Assumptions C73_left_action.

(** So actions can be read from a stream one at a time, whatever they are: also behind an indirect
    forward, where a command stops. *)
Theorem C73_one_by_one : forall (E : Env) l bs pre,
  Forall wf_action l -> Forall2 (fun a b => action_to_bytes a = Ok b) l bs -> bytes pre ->
  one_by_one read_action (length l) (pre ++ concat bs) (length pre) = Some l.
Proof. exact @actions_one_by_one. Qed.
Print Assumptions C73_one_by_one.

(** Command::from_reader takes one byte that does not belong to the command. *)
Theorem C73_left_command_refuted : forall E : Env, exists d c rest n q, bytes d /\ dec_command d = Some (c, rest) /\
  from_stream (read_command 0) d 0 0 = Ok (n, c, q) /\ q <> (length d - length rest)%nat.
Proof. exact @command_refuted. Qed.
Print Assumptions C73_left_command_refuted.

(** It does so exactly if there are bytes behind the command. *)
Theorem C73_left_command_exact : forall (E : Env) d p, bytes d -> (p <= length d)%nat ->
  match dec_command (skipn p d) with
  | Some (c, rest) => (length rest <= length d - p)%nat /\
      from_stream (read_command 0) d p 0 =
        Ok (8 * (length d - p - length rest) + 8 * length c - 2 * count_tx c, c,
            length d - length rest + match rest with [] => 0 | _ => 1 end)%nat
  | None => exists e, from_stream (read_command 0) d p 0 = Err e
  end.
Proof. exact @command_left. Qed.
Print Assumptions C73_left_command_exact.

(** ** Foreground frames: what was read before matters. *)
Theorem C73_frame_refuted : forall E : Env, ~ anywhere read_fframe.
Proof. exact @frame_refuted. Qed.
Print Assumptions C73_frame_refuted.

(** The length field is compared with the position in the stream. *)
Theorem C73_frame_exact : forall (E : Env) d p, bytes d -> (p <= length d)%nat ->
  match dec_fframe_at (N.of_nat p) (skipn p d) with
  | Some (v, rest) => (length rest <= length d - p)%nat /\
      from_stream read_fframe d p 0 = Ok (frame_bits (length d - p - length rest) v, v, length d - length rest)%nat
  | None => exists e, from_stream read_fframe d p 0 = Err e
  end.
Proof. exact @fframe_left. Qed.
Print Assumptions C73_frame_exact.

(** A frame that starts behind as many bytes as it claims to have is read without its actions. *)
Theorem C73_frame_late : forall (E : Env) d p n v q, bytes d -> (p <= length d)%nat ->
  from_stream read_fframe d p 0 = Ok (n, v, q) ->
  ff_length v <> 0 -> ff_length v <= N.of_nat p -> tf_command (nf_frame (ff_frame v)) = [].
Proof. exact @frame_late. Qed.
Print Assumptions C73_frame_late.

(** Only frames of length 0 do not care. *)
Theorem C73_frame_unlimited : forall (E : Env) p d rest, dec_length d = Some (0, rest) -> dec_fframe_at p d = dec_fframe d.
Proof. exact @frame_unlimited. Qed.
Print Assumptions C73_frame_unlimited.

(** Two actions behind three bytes of something else; two commands, the first of which ends with an
    indirect forward: reading the second starts at its second byte, while the actions can be read
    one by one; a frame alone, and the same behind nine other bytes: its action is taken for the
    first half of the checksum. *)
Example C73_example :
  let d := [9; 9; 9; 0x41; 0; 0; 8; 0x34; 7] in
  let tag n := ARequestTag (mkRequestTag false 52 n) in
  let indirect := AIndirectForward (mkIndirectForward false false 51 None) in
  let frame := [9; 1; 66; 16; 10; 0; 6; 7; 0; 0xAB; 0xCD] in
  from_stream (read_action (E := env_spec)) d 3 0 =
    Ok (40%nat, AReadFileData (mkReadFileData (mkHeader false true) 1 (mkFileOffset 0 0) 8), 7%nat) /\
  from_stream (read_action (E := env_spec)) d 7 0 = Ok (24%nat, tag 7, 9%nat) /\
  from_stream (read_action (E := env_spec)) d 9 0 = Err EIncomplete /\
  from_stream (read_command (E := env_spec) 0) [0x34; 7; 0x33; 0x34; 8] 0 0 = Ok (40%nat, [tag 7; indirect], 4%nat) /\
  from_stream (read_command (E := env_spec) 0) [0x34; 7; 0x33; 0x34; 8] 4 0 = Err EIncomplete /\
  one_by_one (read_action (E := env_spec)) 3 [0x34; 7; 0x33; 0x34; 8] 0 = Some [tag 7; indirect; tag 8] /\
  from_stream (read_fframe (E := env_spec)) frame 0 0 = Ok (96%nat, small_frame 9 [plain_nop] 0xCDAB, 11%nat) /\
  from_stream (read_fframe (E := env_spec)) ([1; 2; 3; 4; 5; 6; 7; 8; 9] ++ frame) 9 0 = Ok (80%nat, small_frame 9 [] 0xAB00, 19%nat).
Proof. vm_compute. repeat split. Qed.
