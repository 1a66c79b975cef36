(** C61, C62: parsing frames agrees with the reference decoder of SpecFrameDecode.v; frames of length 0. *)
From Coq Require Import List NArith ZArith Bool.
From Verif Require Import Base Deku Utils Types Physical Link Network Session Data Query Interface File
  Operation Action Command Frames WellFormed SpecLayout SpecApi SpecDecode SpecFrameDecode Samples SpecFrames LFramesW LDecodeFrame.
Import ListNotations.
Open Scope N_scope.

(** A frame is accepted with the value the decoder gives, or rejected where it gives none. The bytes
    handed back, a panic in from_bytes and the judgement of try_from depend only on the number of
    bytes decoded, the number of actions and the number of transmission statuses. *)
Theorem C61_frame : forall (E : Env) d, bytes d ->
  match dec_fframe d with
  | Some (v, rest) =>
      let read := frame_bits (length d - length rest) v in
      (exists n, (n <= length d)%nat /\ rest = skipn n d)
      /\ fframe_from_bytes d 0 =
           (if Nat.leb (Nat.div read 8) (length d) then Ok ((skipn (Nat.div read 8) d, Nat.modulo read 8), v) else Panic)
      /\ fframe_try_from d = (if Nat.eqb (Nat.div read 8) (length d) then Ok v else Err ETooMuchData)
  | None => exists e, fframe_from_bytes d 0 = Err e /\ fframe_try_from d = Err e
  end.
Proof. exact @decode_fframe. Qed.
Print Assumptions C61_frame.

Theorem C61_background_frame : forall E : Env, decodes read_bframe dec_bframe.
Proof. exact @decodes_bframe. Qed.
Print Assumptions C61_background_frame.

(** A frame with every optional field, one byte behind it; the same without the checksum; with
    wizzilab everything is seven bits late; an action behind a transmission status is found if there
    is a limit, and is taken for the checksum if the limit is reached before it. *)
Example C61_example :
  let d := [29; 1; 194; 18; 52; 224; 184; 10; 0; 129; 1; 130; 2; 131; 3; 132;
            127; 6; 7; 80; 4; 28; 48; 8; 9; 129; 0; 0; 8; 205; 171] in
  dec_fframe (E := env_spec) (d ++ [0]) = Some (full_frame 29 [read_uid] 0xABCD, [0]) /\
  dec_fframe (E := env_spec) (firstn 29 d) = None /\
  dec_fframe (E := env_wizzilab) [9; 1; 66; 16; 20; 0; 12; 14; 0; 0; 0] = Some (small_frame 9 [plain_nop] 0, []) /\
  frame_bits (E := env_wizzilab) 11 (small_frame 9 [plain_nop] 0) = 95%nat /\
  dec_fframe (E := env_spec) [9; 1; 66; 16; 10; 0; 6; 7; 0; 0; 0; 0] = Some (small_frame 9 [plain_nop] 0, [0]) /\
  fframe_from_bytes (E := env_spec) [9; 1; 66; 16; 10; 0; 6; 7; 0; 0; 0] 0 = Panic /\
  dec_fframe (E := env_wizzilab) [15; 1; 66; 16; 20; 0; 12; 14; 0x66; 0x98; 4; 6; 0xA8; 0xB4; 7; 1; 2; 0xAA] =
    Some (small_frame 15 [ATxStatus (mkTxStatusOp 38 1 (TxOther [0xAA])); ARequestTag (mkRequestTag true 52 7)] 0x201, [0xAA]) /\
  dec_fframe (E := env_wizzilab) [13; 1; 66; 16; 20; 0; 12; 14; 0x66; 0x98; 4; 6; 0xA8; 0xB4; 7; 1; 2; 0xAA] =
    Some (small_frame 13 [ATxStatus (mkTxStatusOp 38 1 (TxOther [0xAA]))] 0x7B4, [1; 2; 0xAA]).
Proof. vm_compute. repeat split. Qed.

(** C62: a frame of length 0 whose command is empty is written and not given back, whatever follows it. *)
Theorem C62_refuted : forall E : Env,
  exists v l, ff_length v = 0 /\ fframe_to_bytes v = Ok l /\
    forall s rest, bytes s -> fframe_from_bytes (l ++ s) 0 <> Ok (rest, v) /\ fframe_try_from (l ++ s) <> Ok v.
Proof. exact @frame_0_refuted. Qed.
Print Assumptions C62_refuted.

(** The well-formed frames of length 0 that are given back: the command ends with an indirect forward,
    and the feature is not wizzilab. *)
Theorem C62_exact : forall (E : Env) v suf, wf_fframe v -> bytes suf -> ff_length v = 0 ->
  ((exists r, read_fframe (new_reader (enc_fframe v ++ suf)) = Ok (v, r)) <->
   e_feat <> Wizzilab /\ ends_indirect (command_of v)).
Proof. exact @frame_0_exact. Qed.
Print Assumptions C62_exact.

(** Whatever the bytes: what is accepted with length 0 ends with an indirect forward. *)
Theorem C62_accepted : forall (E : Env) d v, bytes d -> ff_length v = 0 ->
  (exists rest, fframe_from_bytes d 0 = Ok (rest, v)) \/ fframe_try_from d = Ok v ->
  exists c f, tf_command (nf_frame (ff_frame v)) = c ++ [AIndirectForward f].
Proof. exact @frame_0_accepted. Qed.
Print Assumptions C62_accepted.

(** The checksum of the empty frame is taken for two Nop actions; an indirect forward stops this. *)
Example C62_example :
  fframe_to_bytes (E := env_spec) (small_frame 0 [] 0) = Ok [0; 1; 66; 16; 10; 0; 6; 7; 0; 0] /\
  fframe_try_from (E := env_spec) [0; 1; 66; 16; 10; 0; 6; 7; 0; 0] = Err EIncomplete /\
  fframe_try_from (E := env_spec) [0; 1; 66; 16; 10; 0; 6; 7; 0x33; 1; 2; 0xEE]
  = Ok (small_frame 0 [AIndirectForward (mkIndirectForward false false 51 None)] 0x201).
Proof. vm_compute. repeat split. Qed.
