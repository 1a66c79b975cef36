(** C97: the two bits in front of an opcode. *)
From Coq Require Import List NArith ZArith Bool.
From Verif Require Import Base Deku Utils Types Physical Link Network Session Data Query Interface File
  Operation Action Command WellFormed SpecApi SpecDecode SpecFlags Samples LFlags LFlagsErr.
Import ListNotations.
Open Scope N_scope.

(** With other flags the same bytes give the same action but for the flags, and leave the same rest;
    what was rejected still is, with the same error. *)
Theorem C97_action : forall (E : Env) op x y x' y' t, op < 64 -> only_flags op x x' -> bytes t ->
  match action_from_bytes (first x y op :: t) 0 with
  | Ok (rest, a) => action_from_bytes (first x' y' op :: t) 0 = Ok (rest, reflag x' y' a)
  | Err e => action_from_bytes (first x' y' op :: t) 0 = Err e
  | Panic => False
  end.
Proof. exact @action_flags_all. Qed.
Print Assumptions C97_action.

(** In a command, all other actions stay as they are. *)
Theorem C97_command : forall (E : Env) op x y x' y' pre t c1, op < 64 -> only_flags op x x' -> bytes t ->
  Forall wf_action c1 -> Forall (fun a => SpecDecode.is_indirect a = false) c1 -> command_to_bytes c1 = Ok pre ->
  match command_try_from (pre ++ first x y op :: t) with
  | Ok c => exists a c2, c = c1 ++ a :: c2 /\
      command_try_from (pre ++ first x' y' op :: t) = Ok (c1 ++ reflag x' y' a :: c2)
  | Err e => command_try_from (pre ++ first x' y' op :: t) = Err e
  | Panic => False
  end.
Proof. exact @command_flags_all. Qed.
Print Assumptions C97_command.

(** Not for all opcodes: the first bit of an indirect forward says whether operands follow, *)
Theorem C97_refuted : forall E : Env, ~ (forall op x y x' y' t rest a, op < 64 -> bytes t ->
  action_from_bytes (first x y op :: t) 0 = Ok (rest, a) ->
  exists b, action_from_bytes (first x' y' op :: t) 0 = Ok (rest, b)).
Proof. exact @flags_refuted. Qed.
Print Assumptions C97_refuted.

(** and the two bits of a status say which kind it is; for those of a transmission there is one kind
    only. *)
Theorem C97_status : forall (E : Env) x y t a rest, bytes t ->
  (action_from_bytes (first x y 34 :: t) 0 = Ok (rest, a) ->
    exists o, a = AStatus o /\ so_type o = status_kind (so_status o) /\
      status_type_id (so_type o) = (if x then 2 else 0) + (if y then 1 else 0)) /\
  (action_from_bytes (first x y 38 :: t) 0 = Ok (rest, a) -> e_feat = Wizzilab /\ x = false /\ y = true).
Proof. exact @status_bits. Qed.
Print Assumptions C97_status.

(** A copy of a file behind a Nop and in front of a chunk, without flags and with the second; a chunk
    whose bits are its step; an indirect forward that lacks its operands; two kinds of status. *)
Example C97_example : let E := env_spec in
  let c x y := ACopyFile (mkCopyFile (mkHeader x y) 23 1 2) in
  let nop := ANop (mkNop (mkHeader true false) 0) in
  let chunk s := AChunk (mkChunk s 48) in
  first false false 23 = 0x17 /\ first false true 23 = 0x57 /\ reflag false true (c false false) = c false true /\
  command_try_from [0x80; 0x17; 1; 2; 0xB0] = Ok [nop; c false false; chunk ChunkEnd] /\
  command_try_from [0x80; 0x57; 1; 2; 0xB0] = Ok [nop; c false true; chunk ChunkEnd] /\
  command_try_from [0x80; 0x57; 1; 2; 0x70] = Ok [nop; c false true; chunk ChunkStart] /\
  action_from_bytes [0x73] 0 = Ok (([], 0%nat), AIndirectForward (mkIndirectForward false true 51 None)) /\
  (exists e, action_from_bytes [0xF3] 0 = Err e) /\
  action_from_bytes [0x22; 1; 0] 0 = Ok (([], 0%nat), AStatus (mkStatusOperand StAction 34 (StatusAction (mkActionStatus 1 0)))) /\
  action_from_bytes [0x62; 1; 0] 0 <> action_from_bytes [0x22; 1; 0] 0.
Proof. cbv zeta. repeat split; try (vm_compute; reflexivity). - eexists. vm_compute. reflexivity. - vm_compute. discriminate. Qed.
