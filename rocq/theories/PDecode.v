(** C50, C51: parsing agrees with the reference decoder of SpecDecode.v, which works on bytes and knows
    nothing of readers, leftover bits, seeks and counters. *)
From Coq Require Import List NArith ZArith Bool.
From Verif Require Import Base Deku Utils Types Physical Link Network Session Data Query Interface File
  Operation Action Command WellFormed SpecLayout SpecApi SpecDecode Samples LDecodeLoop.
Import ListNotations.
Open Scope N_scope.

(** One action: accepted with the same value or rejected with an error, never a panic. The bytes
    handed back are one too few (see C14), except after a transmission status. *)
Theorem C50_action : forall (E : Env) d, bytes d ->
  match dec_action d with
  | Some (a, rest) => action_from_bytes d 0 =
      Ok ((if is_tx a then (rest, 6%nat) else (skipn 1 rest, 0%nat)), a)
  | None => exists e, action_from_bytes d 0 = Err e
  end.
Proof. exact @decode_action_from_bytes. Qed.
Print Assumptions C50_action.

Theorem C50_action_try_from : forall (E : Env) d, bytes d ->
  match dec_action d with
  | Some (a, rest) => if Nat.leb (length rest) (if is_tx a then 0 else 1) then action_try_from d = Ok a
                      else action_try_from d = Err ETooMuchData
  | None => exists e, action_try_from d = Err e
  end.
Proof. exact @decode_action_try_from. Qed.
Print Assumptions C50_action_try_from.

(** A command. [rest] is not empty only if decoding stopped at an indirect forward. *)
Theorem C50_command : forall (E : Env) d, bytes d ->
  match dec_command d with
  | Some (c, rest) => command_from_bytes d 0 =
      let read := (8 * (length d - length rest) + 8 * length c - 2 * count_tx c)%nat in
      Ok ((skipn (Nat.div read 8) d, Nat.modulo read 8), c)
  | None => exists e, command_from_bytes d 0 = Err e
  end.
Proof. exact @decode_command_from_bytes. Qed.
Print Assumptions C50_command.

Theorem C50_command_try_from : forall (E : Env) d, bytes d ->
  match dec_command d with
  | Some (c, rest) =>
      if Nat.leb (4 * length rest + count_tx c) (4 * length c) then command_try_from d = Ok c
      else command_try_from d = Err ETooMuchData
  | None => exists e, command_try_from d = Err e
  end.
Proof. exact @decode_command_try_from. Qed.
Print Assumptions C50_command_try_from.

(** The reference decoder undoes the reference encoder of SpecLayout.v. *)
Theorem C50_references : forall (E : Env) a s, wf_action a -> bytes s ->
  dec_action (enc_action a ++ s) = Some (a, s).
Proof. exact @decode_encoded. Qed.
Print Assumptions C50_references.

(** A tag and file data; a bad length; an indirect forward with one byte behind it; transmission
    statuses. *)
Example C50_example : forall E : Env,
  dec_command [0xB4; 7; 0x20; 0x40; 0x40; 5; 0x40; 1; 9] =
    Some ([sample_tag; AReturnFileData (mkFileData (mkHeader false false) 32 (mkFileOffset 0x40 5) (FOther [9]))], []) /\
  command_try_from [0xB4; 7; 0x20; 0x40; 0x40; 5; 0x40; 1; 9] =
    Ok [sample_tag; AReturnFileData (mkFileData (mkHeader false false) 32 (mkFileOffset 0x40 5) (FOther [9]))] /\
  dec_command [0xB4; 7; 0x20; 0x40; 5; 0x42; 1; 9] = None /\
  dec_command [0x33; 0x40; 0xAA; 0xBB] =
    Some ([AIndirectForward (mkIndirectForward false false 0x33 None)], [0x40; 0xAA; 0xBB]) /\
  command_try_from [0x33; 0x40; 0xAA; 0xBB] = Err ETooMuchData /\
  command_try_from [0x33; 0x40] = Ok [AIndirectForward (mkIndirectForward false false 0x33 None)].
Proof. intros [[] [] []]; repeat split. Qed.
Example C50_example_tx :
  dec_action (E := env_wizzilab) [0x66; 0x98; 0x04; 0x06; 0xA8; 0xFF] =
    Some (ATxStatus (mkTxStatusOp 38 1 (TxOther [0xAA])), [0xFF]) /\
  action_from_bytes (E := env_wizzilab) [0x66; 0x98; 0x04; 0x06; 0xA8; 0xFF] 0 =
    Ok (([0xFF], 6%nat), ATxStatus (mkTxStatusOp 38 1 (TxOther [0xAA]))) /\
  dec_command (E := env_wizzilab) [0x66; 0x98; 0x04; 0x06; 0xA8; 0xD0; 0x07] =
    Some ([ATxStatus (mkTxStatusOp 38 1 (TxOther [0xAA])); ARequestTag (mkRequestTag true 16 7)], []).
Proof. repeat split. Qed.

(** C51. *)
Theorem C51_types : forall E : Env,
  decodes read_length dec_length /\ decodes read_varint dec_varint /\ decodes read_file_offset dec_file_offset /\
  decodes read_channel_header dec_channel_header /\ decodes read_channel dec_channel /\
  decodes read_channel_status dec_channel_status /\ decodes read_sub_band dec_sub_band /\
  decodes read_sub_profile dec_sub_profile /\ decodes read_access_profile dec_access_profile /\
  decodes read_addressee dec_addressee /\ decodes read_qos dec_qos /\
  decodes read_dash7_status dec_dash7_status /\ decodes read_dash7_tx_status dec_dash7_tx /\
  decodes read_final_status_code dec_final /\ decodes read_file_header dec_file_header.
Proof. exact @decodes_types. Qed.
Print Assumptions C51_types.

Theorem C51_operations : forall E : Env,
  decodes read_query dec_query /\ decodes read_dash7_config dec_dash7_config /\
  decodes read_lorawan_config dec_lorawan /\ decodes read_interface_config dec_interface_config /\
  decodes read_indirect_interface dec_indirect_interface /\
  decodes read_itf_status_op dec_itf_status /\ decodes read_itf_final_op dec_itf_final.
Proof. exact @decodes_operations. Qed.
Print Assumptions C51_operations.

(** Files, by number and announced length. *)
Theorem C51_file : forall (E : Env) b n d, bytes d ->
  match dec_file b n d with
  | Some (f, rest) => file_from_bytes d 0 (file_id_of b) n = Ok ((rest, 0%nat), f)
  | None => exists e, file_from_bytes d 0 (file_id_of b) n = Err e
  end.
Proof. exact @decode_file. Qed.
Print Assumptions C51_file.

Example C51_example : forall E : Env,
  dec_file_offset [0x40; 0x41; 2; 3] = Some (mkFileOffset 0x40 0x102, [3]) /\
  d_from_bytes read_file_offset [0x40; 0x41; 2; 3] 0 = Ok (([3], 0%nat), mkFileOffset 0x40 0x102) /\
  d_try_from read_file_offset [0x40; 0x41; 2; 3] = Err ETooMuchData /\
  d_try_from read_file_offset [0x40; 0x41; 2] = Ok (mkFileOffset 0x40 0x102) /\
  dec_file 6 0 [1; 2; 3] = Some (FVId (VId 0x102), [3]).
Proof. intros [[] [] []]; repeat split. Qed.
