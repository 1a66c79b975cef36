(** C99: different values that were parsed are written as different bytes. *)
From Coq Require Import List NArith Bool.
From Verif Require Import Base Deku Session Operation Action Command Frames SpecAction SpecApi SpecFrames
  SpecFrameUnique SpecTwins LTwins LTwinBits LTwinFrames LTwinFramesW.
Import ListNotations.
Open Scope N_scope.

(** False: the status of an unknown interface is written without its id, ... *)
Theorem C99_action_refuted : forall E : Env, exists a b, parseable a /\ parseable b /\ a <> b /\ action_to_bytes a = action_to_bytes b.
Proof. exact @twins_refuted. Qed.
Print Assumptions C99_action_refuted.

(** ... so that with one zero byte in it, it is taken for the status of the serial interface. Apart
    from transmission statuses that differ in the stored opcode these are the only two actions. *)
Theorem C99_action_exact : forall (E : Env) a b, parseable a -> parseable b ->
  (action_to_bytes a = action_to_bytes b <-> a = b \/ twin_statuses a b \/ twin_statuses b a \/ twin_tx a b).
Proof. exact @twins_action. Qed.
Print Assumptions C99_action_exact.

(** Commands do not even have the same number of actions. *)
Theorem C99_command_refuted : forall E : Env, exists c d l, Forall parseable c /\ Forall parseable d /\
  length c <> length d /\ command_to_bytes c = Ok l /\ command_to_bytes d = Ok l.
Proof. exact @twins_command_refuted. Qed.
Print Assumptions C99_command_refuted.

(** Exactly these commands are written as the same bytes. *)
Theorem C99_command_exact : forall (E : Env) c d l, Forall parseable c -> Forall parseable d ->
  command_to_bytes c = Ok l -> e_rewind = true \/ N.of_nat (length l) < 23 * 2 ^ 24 ->
  (command_to_bytes d = Ok l <-> twins c d).
Proof. exact @twins_commands. Qed.
Print Assumptions C99_command_exact.

(** Without the bound there are others, where the id of an unknown interface is not put back. *)
Theorem C99_command_long : forall E : Env, e_rewind = false -> exists c d l, Forall parseable c /\ Forall parseable d /\
  Forall (fun a => is_tx_status a = false) c /\ Forall (fun a => is_tx_status a = false) d /\
  command_to_bytes c = Ok l /\ command_to_bytes d = Ok l /\ ~ twins c d.
Proof. exact @long_twins. Qed.
Print Assumptions C99_command_long.

(** Commands as they are parsed: with wizzilab an action behind a transmission status has been given a
    wrong opcode, which is not written. *)
Theorem C99_command_parsed : forall (E : Env) x y c d l, command_try_from x = Ok c -> command_try_from y = Ok d ->
  command_to_bytes c = Ok l -> N.of_nat (length l) < 23 * 2 ^ 24 ->
  (command_to_bytes d = Ok l <-> twins (restored c) (restored d)).
Proof. exact @twin_commands_parsed. Qed.
Print Assumptions C99_command_parsed.

(** Commands without statuses of unknown interfaces are told apart. *)
Theorem C99_command_known : forall (E : Env) c d l, Forall parseable c -> Forall parseable d ->
  Forall (fun a => is_tx_status a = false /\ forall p, a <> unknown_status p) c ->
  Forall (fun a => is_tx_status a = false /\ forall p, a <> unknown_status p) d ->
  command_to_bytes c = Ok l -> command_to_bytes d = Ok l -> c = d.
Proof. exact @known_command. Qed.
Print Assumptions C99_command_known.

(** Foreground frames with commands of the former kind are written alike, ... *)
Theorem C99_frame_refuted : forall E : Env, exists v w l, frame_parseable v /\ frame_parseable w /\ v <> w /\
  fframe_to_bytes v = Ok l /\ fframe_to_bytes w = Ok l.
Proof. exact @twin_frames_any_refuted. Qed.
Print Assumptions C99_frame_refuted.

(** ... and no others: everything but the command is the same. *)
Theorem C99_frame_exact : forall (E : Env) v w l, e_feat <> Wizzilab -> frame_parseable v -> frame_parseable w ->
  fframe_to_bytes v = Ok l -> N.of_nat (length l) < 23 * 2 ^ 24 ->
  (fframe_to_bytes w = Ok l <-> twins (command_of v) (command_of w) /\ w = refill v (command_of w) (ff_crc v)).
Proof. exact @twin_frames. Qed.
Print Assumptions C99_frame_exact.

(** With wizzilab too, but there an action of a frame can have been given a wrong opcode. *)
Theorem C99_frame_any : forall (E : Env) v w l, frame_parseable v -> frame_parseable w ->
  fframe_to_bytes v = Ok l -> N.of_nat (length l) < 23 * 2 ^ 24 ->
  (fframe_to_bytes w = Ok l <->
    twins (restored (command_of v)) (restored (command_of w)) /\ w = refill v (command_of w) (ff_crc v)).
Proof. exact @twin_frames_any. Qed.
Print Assumptions C99_frame_any.

(** [62 40 01 00] is parsed as a status of an unknown interface, [62 01 00] as one of the serial
    interface, and both are written as the latter. [62 40 00 00] and [62 00 00] are two actions and
    one, and both are written as [62 00 00]. *)
Example C99_example : let E := env_spec in
  action_try_from [0x62; 0x40; 1; 0] = Ok (unknown_status [0]) /\
  action_try_from [0x62; 1; 0] = Ok serial_status /\
  action_to_bytes (unknown_status [0]) = Ok [0x62; 1; 0] /\ action_to_bytes serial_status = Ok [0x62; 1; 0] /\
  command_try_from [0x62; 0x40; 0; 0] = Ok [unknown_status []; plain_nop] /\
  command_try_from [0x62; 0; 0] = Ok [host_status] /\
  command_to_bytes [unknown_status []; plain_nop] = Ok [0x62; 0; 0] /\ command_to_bytes [host_status] = Ok [0x62; 0; 0].
Proof. repeat split; vm_compute; reflexivity. Qed.

(** The same two statuses in frames. *)
Example C99_frame_example : let E := env_spec in
  fframe_to_bytes (small_frame 10 [unknown_status [0]] 0) = Ok [10; 1; 66; 16; 10; 0; 6; 7; 0x62; 1; 0; 0; 0] /\
  fframe_to_bytes (small_frame 10 [serial_status] 0) = Ok [10; 1; 66; 16; 10; 0; 6; 7; 0x62; 1; 0; 0; 0] /\
  d_from_reader read_fframe [10; 1; 66; 16; 10; 0; 6; 7; 0x62; 1; 0; 0; 0] 0 = Ok (112%nat, small_frame 10 [serial_status] 0).
Proof. repeat split; vm_compute; reflexivity. Qed.

(** With wizzilab the stored opcode of a transmission status makes no difference, in a command either. *)
Example C99_tx_example : let E := env_wizzilab in
  let c o := [ATxStatus (mkTxStatusOp o 1 (TxOther [0xAA])); unknown_status []; plain_nop] in
  let d := [ATxStatus (mkTxStatusOp 38 1 (TxOther [0xAA])); host_status] in
  command_to_bytes (c 5) = Ok [0x40; 0x98; 0x04; 0x06; 0xA9; 0x88; 0; 0] /\
  command_to_bytes (c 38) = Ok [0x40; 0x98; 0x04; 0x06; 0xA9; 0x88; 0; 0] /\
  command_to_bytes d = Ok [0x40; 0x98; 0x04; 0x06; 0xA9; 0x88; 0; 0] /\ twins (c 5) d.
Proof.
  repeat split; try (vm_compute; reflexivity).
  apply (twins_tx 38 (mkTxStatusOp 5 1 (TxOther [0xAA]))), twins_host, twins_nil.
Qed.

(** With wizzilab, in a frame with length 0, an IndirectForward has been given the opcode 38 and is
    written like one with the opcode 51. The two statuses are written alike there, too. *)
Example C99_wizzilab_example : let E := env_wizzilab in
  let c o := [AIndirectForward (mkIndirectForward false true o None)] in
  d_from_reader read_fframe [0; 1; 66; 16; 20; 0; 12; 14; 0x66; 0x80; 0; 0; 0] 0 = Ok (95%nat, small_frame 0 (c 38) 128) /\
  restored (c 38) = c 51 /\ fframe_to_bytes (small_frame 0 (c 38) 128) = fframe_to_bytes (small_frame 0 (c 51) 128) /\
  d_from_reader read_fframe [10; 1; 66; 16; 20; 0; 12; 14; 0x62; 0x40; 1; 0; 0; 0] 0 = Ok (119%nat, small_frame 10 [unknown_status [0]] 0) /\
  d_from_reader read_fframe [10; 1; 66; 16; 20; 0; 12; 14; 0x62; 1; 0; 0; 0] 0 = Ok (111%nat, small_frame 10 [serial_status] 0) /\
  fframe_to_bytes (small_frame 10 [unknown_status [0]] 0) = Ok [10; 1; 66; 16; 20; 0; 12; 14; 0xC4; 2; 0; 0; 0] /\
  fframe_to_bytes (small_frame 10 [serial_status] 0) = Ok [10; 1; 66; 16; 20; 0; 12; 14; 0xC4; 2; 0; 0; 0].
Proof. repeat split; vm_compute; reflexivity. Qed.

(** A RequestTag behind a transmission status has been given the opcode 16. *)
Example C99_parsed_example : let E := env_wizzilab in
  let c o := [ATxStatus (mkTxStatusOp 38 1 (TxOther [0xAA])); ARequestTag (mkRequestTag true o 7)] in
  exists x, command_try_from x = Ok (c 16) /\ restored (c 16) = c 52 /\ command_to_bytes (c 16) = command_to_bytes (c 52).
Proof. exists [0x66; 0x98; 0x04; 0x06; 0xA8; 0xD0; 0x07]. repeat split; vm_compute; reflexivity. Qed.
