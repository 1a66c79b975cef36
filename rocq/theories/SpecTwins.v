(** Vocabulary for C99: values that are different and written as the same bytes. *)
From Coq Require Import List NArith Bool.
From Verif Require Import Base Deku Session Operation Action Command Frames SpecAction.
Import ListNotations.
Open Scope N_scope.

(** There are bytes the action can be parsed from. *)
Definition parseable {E : Env} (a : action) : Prop :=
  exists d rest, bytes d /\ action_from_bytes d 0 = Ok (rest, a).

Definition interface_action (t : interface_type) (s : interface_status) : action :=
  AStatus (mkStatusOperand StInterface 34 (StatusInterface (mkItfStatusOp t s))).
Definition serial_status : action := interface_action ItSerial IsSerial.
Definition host_status : action := interface_action ItHost IsHost.
(** A Nop, the byte 0. *)
Definition plain_nop : action := ANop (mkNop (mkHeader false false) 0).

(** The status of an unknown interface with one zero byte, and that of the serial interface. *)
Definition twin_statuses (a b : action) : Prop := a = unknown_status [0] /\ b = serial_status.
(** Transmission statuses that differ in nothing but the stored opcode, which is not written. *)
Definition twin_tx (a b : action) : Prop :=
  exists o v, a = ATxStatus v /\ b = ATxStatus (mkTxStatusOp o (txo_itf_id v) (txo_status v)).

(** Commands that are equal but for such statuses of either kind, and for an empty status of an unknown interface
    with a Nop behind it in the place of a status of the host interface. *)
Inductive twins : command -> command -> Prop :=
| twins_nil : twins [] []
| twins_same a c d : twins c d -> twins (a :: c) (a :: d)
| twins_tx o v c d : twins c d ->
    twins (ATxStatus v :: c) (ATxStatus (mkTxStatusOp o (txo_itf_id v) (txo_status v)) :: d)
| twins_serial c d : twins c d -> twins (unknown_status [0] :: c) (serial_status :: d)
| twins_serial_back c d : twins c d -> twins (serial_status :: c) (unknown_status [0] :: d)
| twins_host c d : twins c d -> twins (unknown_status [] :: plain_nop :: c) (host_status :: d)
| twins_host_back c d : twins c d -> twins (host_status :: c) (unknown_status [] :: plain_nop :: d).

(** There are bytes the foreground frame can be parsed from. *)
Definition frame_parseable {E : Env} (v : fframe) : Prop := exists d n, d_from_reader read_fframe d 0 = Ok (n, v).

(** Behind a transmission status and in a frame with wizzilab the opcode of an action can be stored wrongly.
    The same actions with their own opcodes. *)
Definition restored (c : command) : command := map (fun a => with_opcode (opcode_of a) a) c.
