(** C86: the memory that is set aside while parsing. *)
From Coq Require Import List NArith Bool.
From Verif Require Import Base Deku Utils Types Action Command Frames Reserve WellFormed SpecApi SpecReserve LReserve.
Import ListNotations.
Open Scope N_scope.

(** The readers with notes are the readers. *)
Theorem C86_same : forall (E : Env) r,
  snd (n_action r) = read_action r /\ (forall n, snd (n_command n r) = read_command n r) /\ snd (n_fframe r) = read_fframe r.
Proof. exact @reserve_same. Qed.
Print Assumptions C86_same.

(** "No more elements are set aside than there are bytes" is false: seven bytes that do not even parse
    have a vector of 2^30 - 1 bytes made for them. *)
Theorem C86_refuted : forall (E : Env),
  exists d, bytes d /\ length d = 7%nat /\ action_reserved d = [2 ^ 30 - 1] /\ action_from_bytes d 0 = Err EIncomplete.
Proof. exact @reserve_refuted. Qed.
Print Assumptions C86_refuted.

(** It is never worse than that: no vector is larger, and all vectors but one are paid for by the input. *)
Theorem C86_bound : forall (E : Env) d l, l = action_reserved d \/ l = command_reserved d \/ l = fframe_reserved d ->
  Forall (fun n => n < 2 ^ 30) l /\ total l < N.of_nat (length d) + 2 ^ 30.
Proof. exact @reserve_bound. Qed.
Print Assumptions C86_bound.

(** Exactly the vectors of the result are set aside where there is one; where there is none, at most
    the last vector was not filled. *)
Theorem C86_action : forall (E : Env) d,
  (forall rest a, action_from_bytes d 0 = Ok (rest, a) ->
     action_reserved d = sizes (action_vectors a) /\ total (action_reserved d) <= N.of_nat (length d)) /\
  (forall e, action_from_bytes d 0 = Err e -> filled_but_last (length d) (action_reserved d) e).
Proof. exact @reserve_action. Qed.
Print Assumptions C86_action.
Theorem C86_command : forall (E : Env) d,
  (forall rest c, command_from_bytes d 0 = Ok (rest, c) ->
     command_reserved d = sizes (command_vectors c) /\ total (command_reserved d) <= N.of_nat (length d)) /\
  (forall e, command_from_bytes d 0 = Err e -> filled_but_last (length d) (command_reserved d) e).
Proof. exact @reserve_command. Qed.
Print Assumptions C86_command.
Theorem C86_frame : forall (E : Env) d,
  (forall rest f, fframe_from_bytes d 0 = Ok (rest, f) ->
     fframe_reserved d = sizes (command_vectors (tf_command (nf_frame (ff_frame f)))) /\
     total (fframe_reserved d) <= N.of_nat (length d)) /\
  (forall e, fframe_from_bytes d 0 = Err e -> filled_but_last (length d) (fframe_reserved d) e).
Proof. exact @reserve_frame. Qed.
Print Assumptions C86_frame.

(** A query with a mask and a value; two actions with one vector each; a file of 3 bytes and another
    one of 16383 bytes of which two are there; 255 channels of which the first is of no known band. *)
Example C86_example : let E := env_spec in
  action_reserved [8; 0x50; 2; 1; 2; 3; 4; 0x40; 0] = [2; 2] /\
  command_reserved [0x20; 0x40; 0; 3; 1; 2; 3; 8; 0x40; 2; 1; 2; 0x40; 0] = [3; 2] /\
  command_reserved [0x20; 0x40; 0; 3; 1; 2; 3; 0x20; 0x41; 0; 0x7F; 0xFF; 1; 2] = [3; 16383] /\
  command_from_bytes [0x20; 0x40; 0; 3; 1; 2; 3; 0x20; 0x41; 0; 0x7F; 0xFF; 1; 2] 0 = Err EIncomplete /\
  action_reserved [4; 9; 0; 30; 0; 0; 0; 0; 0; 0; 0; 0; 0; 0; 0; 0; 0; 0; 255; 0xFF; 0xFF; 0xFF] = [255] /\
  action_from_bytes [4; 9; 0; 30; 0; 0; 0; 0; 0; 0; 0; 0; 0; 0; 0; 0; 0; 0; 255; 0xFF; 0xFF; 0xFF] 0 = Err EParse /\
  fframe_reserved (E := env_wizzilab) [14; 1; 66; 16; 10; 0; 6; 7; 0x20; 0x40; 0; 3; 1; 2; 3; 0; 0; 0; 0] = [3].
Proof. vm_compute. repeat split; reflexivity. Qed.
