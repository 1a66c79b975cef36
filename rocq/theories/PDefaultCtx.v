(** C65: the entry points of types that have a default context. *)
From Coq Require Import List NArith ZArith Bool.
From Verif Require Import Base Deku Utils Types Physical Link Network Session Data Query Interface File
  Operation Action Command Frames DefaultCtx WellFormed SpecLayout SpecApi SpecDecode SpecFrameDecode SpecDefaultCtx Samples SpecFrames
  LDefaultCtx LDefaultCtxRt.
Import ListNotations.
Open Scope N_scope.

(** A file without its context is the empty one, whatever the bytes. *)
Theorem C65_file : forall (E : Env) d,
  file_try_from d = (match d with [] => Ok (FOther []) | _ => Err ETooMuchData end)
  /\ file_default_from_bytes d 0 = Ok ((d, 0%nat), FOther []).
Proof. exact @file_default. Qed.
Print Assumptions C65_file.
Theorem C65_file_exact : forall (E : Env) f l, file_to_bytes f = Ok l ->
  (file_try_from l = Ok f <-> f = FOther []) /\
  (file_default_from_bytes l 0 = Ok ((l, 0%nat), f) <-> f = FOther []).
Proof. exact @file_exact. Qed.
Print Assumptions C65_file_exact.

(** A status without its context is an action status. *)
Theorem C65_status : forall (E : Env) d, bytes d ->
  match d with
  | a :: s :: rest =>
      status_try_from d = (match rest with [] => Ok (StatusAction (mkActionStatus a s)) | _ => Err ETooMuchData end)
      /\ status_from_bytes d 0 = Ok ((rest, 0%nat), StatusAction (mkActionStatus a s))
  | _ => exists e, status_try_from d = Err e /\ status_from_bytes d 0 = Err e
  end.
Proof. exact @status_default. Qed.
Print Assumptions C65_status.
Theorem C65_status_exact : forall (E : Env) s l, status_to_bytes s = Ok l ->
  (status_try_from l = Ok s <-> exists a c, a < 256 /\ c < 256 /\ s = StatusAction (mkActionStatus a c)).
Proof. exact @status_exact. Qed.
Print Assumptions C65_status_exact.

(** Network and transport frames: acceptance, value, bytes handed back and panics. *)
Theorem C65_network : forall (E : Env) d, bytes d ->
  match dec_nframe d with
  | Some (v, rest) =>
      let read := alone_bits (length d - length rest) (N.to_nat left_over) (tf_command (nf_frame v)) in
      (exists n, (n <= length d)%nat /\ rest = skipn n d)
      /\ nframe_from_bytes d 0 =
           (if Nat.leb (Nat.div read 8) (length d) then Ok ((skipn (Nat.div read 8) d, Nat.modulo read 8), v) else Panic)
      /\ nframe_try_from d = (if Nat.eqb (Nat.div read 8) (length d) then Ok v else Err ETooMuchData)
  | None => exists e, nframe_from_bytes d 0 = Err e /\ nframe_try_from d = Err e
  end.
Proof. exact @decode_nframe. Qed.
Print Assumptions C65_network.
Theorem C65_transport : forall (E : Env) d, bytes d ->
  match dec_tframe d with
  | Some (v, rest) =>
      let read := alone_bits (length d - length rest) 1 (tf_command v) in
      (exists n, (n <= length d)%nat /\ rest = skipn n d)
      /\ tframe_from_bytes d 0 =
           (if Nat.leb (Nat.div read 8) (length d) then Ok ((skipn (Nat.div read 8) d, Nat.modulo read 8), v) else Panic)
      /\ tframe_try_from d = (if Nat.eqb (Nat.div read 8) (length d) then Ok v else Err ETooMuchData)
  | None => exists e, tframe_from_bytes d 0 = Err e /\ tframe_try_from d = Err e
  end.
Proof. exact @decode_tframe. Qed.
Print Assumptions C65_transport.

(** How they are written: the fields one after the other, zero bits to the end of the last byte. *)
Theorem C65_layout : forall E : Env,
  (forall v, wf_tframe v -> tframe_to_bytes v = Ok (bytes_of_bits (bits_of_fields
     (tcontrol_fields (tf_control v) ++ transport_fields v ++ octets (enc_command (tf_command v)))))) /\
  (forall v, wf_nframe v -> nframe_to_bytes v = Ok (bytes_of_bits (bits_of_fields
     (ncontrol_fields (nf_control v) ++ network_fields v ++ tcontrol_fields (tf_control (nf_frame v)) ++
      transport_fields (nf_frame v) ++ octets (enc_command (tf_command (nf_frame v))))))).
Proof. exact @alone_layout. Qed.
Print Assumptions C65_layout.

(** A written value is not always read back as itself by the same type. *)
Theorem C65_refuted : forall E : Env,
  (exists f l, file_to_bytes f = Ok l /\ file_try_from l = Err ETooMuchData) /\
  (exists s l s', status_to_bytes s = Ok l /\ status_try_from l = Ok s' /\ s' <> s) /\
  (exists v l, wf_tframe v /\ tframe_to_bytes v = Ok l /\ tframe_try_from l <> Ok v) /\
  (exists v l, wf_nframe v /\ nframe_to_bytes v = Ok l /\ nframe_try_from l <> Ok v).
Proof. exact @alone_refuted. Qed.
Print Assumptions C65_refuted.

(** Without wizzilab a network frame survives exactly if its command is empty; with any other
    command from_bytes panics. *)
Theorem C65_network_exact : forall (E : Env) v, e_feat <> Wizzilab -> wf_nframe v ->
  exists l, nframe_to_bytes v = Ok l /\
  (nframe_try_from l = match tf_command (nf_frame v) with [] => Ok v | _ => Err ETooMuchData end) /\
  (nframe_from_bytes l 0 = match tf_command (nf_frame v) with [] => Ok (([], 0%nat), v) | _ => Panic end).
Proof. exact @nframe_exact_aligned. Qed.
Print Assumptions C65_network_exact.

(** With wizzilab, and for a transport frame always, the only command that survives is a single
    no-operation without flags. *)
Theorem C65_network_exact_wizzilab : forall (E : Env) v, e_feat = Wizzilab -> wf_nframe v ->
  exists l, nframe_to_bytes v = Ok l /\
  (nframe_try_from l = Ok v <-> tf_command (nf_frame v) = [plain_nop]) /\
  ((exists rest, nframe_from_bytes l 0 = Ok (rest, v)) <-> tf_command (nf_frame v) = [plain_nop]).
Proof. exact @nframe_exact_wizzilab. Qed.
Print Assumptions C65_network_exact_wizzilab.
Theorem C65_transport_exact : forall (E : Env) v, wf_tframe v -> exists l, tframe_to_bytes v = Ok l /\
  (tframe_try_from l = Ok v <-> tf_command v = [plain_nop]) /\
  ((exists rest, tframe_from_bytes l 0 = Ok (rest, v)) <-> tf_command v = [plain_nop]).
Proof. exact @tframe_exact. Qed.
Print Assumptions C65_transport_exact.

(** A host interface status read as an action status; a network frame with every optional field; the
    same with one action; a transport frame whose command, "read 8 bytes of file 0", comes back as
    "read 16 bytes of file 0" with the opcode of another action stored in it. *)
Example C65_example :
  file_to_bytes (E := env_spec) (FVId (VId 0x1234)) = Ok [0x12; 0x34] /\
  file_try_from (E := env_spec) [0x12; 0x34] = Err ETooMuchData /\
  status_to_bytes (E := env_spec) (StatusInterface (mkItfStatusOp ItHost IsHost)) = Ok [0; 0] /\
  status_try_from (E := env_spec) [0; 0] = Ok (StatusAction (mkActionStatus 0 0)) /\
  (let n c := ff_frame (full_frame 0 c 0) in
   let l := [224; 184; 10; 0; 129; 1; 130; 2; 131; 3; 132; 127; 6; 7; 80; 4; 28; 48; 8; 9] in
   nframe_to_bytes (E := env_spec) (n []) = Ok l /\ nframe_try_from (E := env_spec) l = Ok (n []) /\
   dec_nframe (E := env_spec) (l ++ [129; 0; 0; 8]) = Some (n [read_uid], []) /\
   alone_bits 24 0 [read_uid] = 200%nat /\
   nframe_try_from (E := env_spec) (l ++ [129; 0; 0; 8]) = Err ETooMuchData /\
   nframe_from_bytes (E := env_spec) (l ++ [129; 0; 0; 8]) 0 = Panic) /\
  (let n c := ff_frame (small_frame 0 c 0) in
   nframe_to_bytes (E := env_wizzilab) (n [plain_nop]) = Ok [16; 20; 0; 12; 14; 0] /\
   nframe_try_from (E := env_wizzilab) [16; 20; 0; 12; 14; 0] = Ok (n [plain_nop])) /\
  (let t c := nf_frame (ff_frame (small_frame 0 c 0)) in
   tframe_to_bytes (E := env_spec) (t [plain_nop]) = Ok [0; 12; 14; 0] /\
   tframe_try_from (E := env_spec) [0; 12; 14; 0] = Ok (t [plain_nop]) /\
   tframe_to_bytes (E := env_spec) (t [AReadFileData (mkReadFileData (mkHeader true false) 1 (mkFileOffset 0 0) 8)]) = Ok [0; 12; 15; 2; 0; 0; 16] /\
   tframe_try_from (E := env_spec) [0; 12; 15; 2; 0; 0; 16]
   = Ok (t [AReadFileData (mkReadFileData (mkHeader false false) 2 (mkFileOffset 0 0) 16)])).
Proof. vm_compute. repeat split. Qed.
