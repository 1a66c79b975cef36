(** Property C92. *)
From Coq Require Import List NArith Bool.
From Verif Require Import Base Deku Types Link Network Session Data Query Interface File Operation Action Command Frames
  Position WellFormed SpecApi SpecPutBack LPutBack.
Import ListNotations.
Open Scope list_scope.
Open Scope N_scope.

(** C92: whether deku puts the id of a variant that it found by a pattern back into the stream
    matters to nothing but the status of an interface that the crate does not know. *)
Theorem C92_written : forall E b b',
  (forall a, action_to_bytes (E := deku b E) a = action_to_bytes (E := deku b' E) a) /\
  (forall c, command_to_bytes (E := deku b E) c = command_to_bytes (E := deku b' E) c) /\
  (forall v, bframe_to_bytes (E := deku b E) v = bframe_to_bytes (E := deku b' E) v) /\
  (forall v, fframe_to_bytes (E := deku b E) v = fframe_to_bytes (E := deku b' E) v).
Proof. exact @written_same. Qed.
Print Assumptions C92_written.

(** Values without such a status are read alike from any stream at any bit. *)
Theorem C92_read : forall E,
  read_alike (fun a => negb (of_unknown_interface a)) (@read_action) E /\
  (forall n, read_alike none_unknown (fun E => @read_command E n) E) /\
  read_alike (fun v => none_unknown (tf_command (nf_frame (ff_frame v)))) (@read_fframe) E /\
  read_alike (fun _ => true) (@read_bframe) E.
Proof. exact @alike_all. Qed.
Print Assumptions C92_read.

(** Configurations of interfaces: the same results, errors included. *)
Theorem C92_configuration : forall E b b' d p,
  from_stream (read_interface_config (E := deku b E)) d p 0 = from_stream (read_interface_config (E := deku b' E)) d p 0 /\
  from_stream (read_indirect_interface (E := deku b E)) d p 0 = from_stream (read_indirect_interface (E := deku b' E)) d p 0.
Proof. exact @byte_same. Qed.
Print Assumptions C92_configuration.

(** Actions: the same results, errors included, unless the bytes begin with such a status. *)
Theorem C92_action : forall E b b' d, bytes d -> ~ begins_unknown d ->
  action_from_bytes (E := deku b E) d 0 = action_from_bytes (E := deku b' E) d 0 /\
  action_try_from (E := deku b E) d = action_try_from (E := deku b' E) d.
Proof. exact @action_input_all. Qed.
Print Assumptions C92_action.

(** And if they do: what is read is what the other deku reads when the id stands there twice. *)
Theorem C92_doubled : forall E i l x, byte i -> bytes l -> unknown_interface i ->
  (action_from_bytes (E := deku true E) (98 :: i :: l) 0 = Ok x <->
   action_from_bytes (E := deku false E) (98 :: i :: i :: l) 0 = Ok x).
Proof. exact @doubled. Qed.
Print Assumptions C92_doubled.

(** The bytes of such a status, in the two ways; a command with another status and a forward. *)
Example C92_example :
  unknown_interface 4 /\
  action_from_bytes (E := deku false env_spec) [98; 4; 1; 10; 11; 12; 13; 14] 0 =
    Ok (([12; 13; 14], 0%nat), AStatus (mkStatusOperand StInterface 34 (StatusInterface (mkItfStatusOp ItUnknown (IsOther [10]))))) /\
  action_from_bytes (E := deku true env_spec) [98; 4; 1; 10; 11; 12; 13; 14] 0 =
    Ok (([14], 0%nat), AStatus (mkStatusOperand StInterface 34 (StatusInterface (mkItfStatusOp ItUnknown (IsOther [1; 10; 11; 12]))))) /\
  action_from_bytes (E := deku false env_spec) [98; 4; 4; 1; 10; 11; 12; 13; 14] 0 =
    action_from_bytes (E := deku true env_spec) [98; 4; 1; 10; 11; 12; 13; 14] 0 /\
  ~ begins_unknown [50; 1; 0; 7] /\
  action_from_bytes (E := deku true env_spec) [50; 1; 0; 7] 0 =
    Ok (([7], 0%nat), AForward (mkForward false 50 IcSerial)).
Proof.
  split; [cbv; intuition discriminate|]. split; [vm_compute; reflexivity|]. split; [vm_compute; reflexivity|].
  split; [vm_compute; reflexivity|]. split; [intros (i & l & H & _); discriminate|vm_compute; reflexivity].
Qed.
