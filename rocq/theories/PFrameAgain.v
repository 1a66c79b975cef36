(** C74: foreground frames written and parsed again. *)
From Coq Require Import List NArith ZArith Bool.
From Verif Require Import Base Deku Utils Types Physical Link Network Session Data Query Interface File
  Operation Action Command Frames WellFormed SpecLayout SpecApi SpecAction SpecExact SpecFrames SpecFrameAgain
  LFrameAgain LFrameAll LFrameAllW LLagFrame.
Import ListNotations.
Open Scope N_scope.

(** Whatever was parsed as a frame can be written. *)
Theorem C74_written : forall (E : Env) d n v, d_from_reader read_fframe d 0 = Ok (n, v) ->
  exists l, fframe_to_bytes v = Ok l /\ bytes l.
Proof. exact @frame_writable. Qed.
Print Assumptions C74_written.

(** It is not always the frame that is parsed from what was written. *)
Theorem C74_refuted : forall E : Env,
  ~ (forall d n v, bytes d -> d_from_reader read_fframe d 0 = Ok (n, v) -> frame_survives v).
Proof. exact @frame_again_refuted. Qed.
Print Assumptions C74_refuted.

(** It is if each of its actions survives on its own and the length field still stops the action
    loop behind the last action, now that every number has its shortest form. *)
Theorem C74_reencode : forall (E : Env) d n v, e_feat <> Wizzilab -> e_rewind = true -> d_from_reader read_fframe d 0 = Ok (n, v) ->
  (frame_survives v <-> Forall reencodable (command_of v) /\ loop_stops v).
Proof. exact @frame_reencode_all. Qed.
Print Assumptions C74_reencode.
Theorem C74_reencode_known : forall (E : Env) d n v, e_feat <> Wizzilab -> d_from_reader read_fframe d 0 = Ok (n, v) ->
  known_actions (command_of v) -> (frame_survives v <-> loop_stops v).
Proof. exact @frame_reencode. Qed.
Print Assumptions C74_reencode_known.

(** Any value at all. *)
Theorem C74_exact : forall (E : Env) v, e_feat <> Wizzilab -> e_rewind = true \/ known_actions (command_of v) ->
  (frame_survives v <-> wf_fframe (without_command v) /\ Forall action_survives (command_of v) /\ indirect_last (command_of v) /\
     loop_stops v).
Proof. exact @frame_all. Qed.
Print Assumptions C74_exact.
(** Nothing behind the frame: the same for statuses of unknown interfaces that are not put back. *)
Theorem C74_alone : forall (E : Env) v, e_feat <> Wizzilab ->
  (frame_returns v <-> wf_fframe (without_command v) /\ Forall action_survives (command_of v) /\ indirect_last (command_of v) /\
     loop_stops v).
Proof. exact @frame_alone. Qed.
Print Assumptions C74_alone.
(** Such a frame is found again whatever follows it. *)
Theorem C74_followed : forall (E : Env) v l, e_feat <> Wizzilab -> frame_returns v -> fframe_to_bytes v = Ok l ->
  forall suf, exists n, d_from_reader read_fframe (l ++ suf) 0 = Ok (n, v).
Proof. exact @frame_followed. Qed.
Print Assumptions C74_followed.
Theorem C74_known : forall (E : Env) v, e_feat <> Wizzilab -> known_actions (command_of v) ->
  (frame_survives v <-> wf_fframe v /\ loop_stops v).
Proof. exact @frame_again. Qed.
Print Assumptions C74_known.

(** With wizzilab only an empty command or zero Nops survive, with checksum 0. *)
Theorem C74_wizzilab : forall (E : Env) v, e_feat = Wizzilab -> ff_length v <> 0 ->
  (frame_survives v <-> wf_fframe v /\ all_zero_tail v).
Proof. exact @frame_any_wizzilab. Qed.
Print Assumptions C74_wizzilab.
Theorem C74_wizzilab_wf : forall (E : Env) v, e_feat = Wizzilab -> wf_fframe v -> (frame_survives v <-> all_zero_tail v).
Proof. exact @frame_again_wizzilab. Qed.
Print Assumptions C74_wizzilab_wf.
(** With length 0 a frame survives that is not well formed: its IndirectForward has the opcode 38. *)
Theorem C74_wizzilab_odd : forall E : Env, e_feat = Wizzilab ->
  exists v, ff_length v = 0 /\ frame_survives v /\ ~ wf_fframe v.
Proof. exact @odd_exists. Qed.
Print Assumptions C74_wizzilab_odd.

(** A read of file 0 whose offset takes two bytes, with the length field that fits: it is written in
    one byte less, and then the loop goes on to the checksum and fails. With a smaller length field
    it comes back. *)
Example C74_example : let E := env_spec in
  let d l := [l; 1; 66; 16; 10; 0; 6; 7; 0x81; 0; 0x40; 0; 8; 0xCD; 0xAB] in
  let v l := small_frame l [read_uid] 0xABCD in
  d_from_reader read_fframe (d 13) 0 = Ok (128%nat, v 13) /\
  fframe_to_bytes (v 13) = Ok [13; 1; 66; 16; 10; 0; 6; 7; 0x81; 0; 0; 8; 0xCD; 0xAB] /\
  d_from_reader read_fframe [13; 1; 66; 16; 10; 0; 6; 7; 0x81; 0; 0; 8; 0xCD; 0xAB] 0 = Err EInvalidParam /\
  d_from_reader read_fframe (d 12) 0 = Ok (128%nat, v 12) /\
  d_from_reader read_fframe [12; 1; 66; 16; 10; 0; 6; 7; 0x81; 0; 0; 8; 0xCD; 0xAB] 0 = Ok (120%nat, v 12).
Proof. vm_compute. repeat split. Qed.

(** The status of an interface the crate does not know, with five bytes of data and with three: 3 is
    the id of a known interface, so that one does not come back. *)
Example C74_unknown : let E := env_spec in
  let v c l := small_frame l [unknown_status c] 0xABCD in
  reencodable (unknown_status [1; 2; 3; 4; 5]) /\
  fframe_to_bytes (v [1; 2; 3; 4; 5] 15) = Ok [15; 1; 66; 16; 10; 0; 6; 7; 0x62; 5; 1; 2; 3; 4; 5; 0xCD; 0xAB] /\
  d_from_reader read_fframe [15; 1; 66; 16; 10; 0; 6; 7; 0x62; 5; 1; 2; 3; 4; 5; 0xCD; 0xAB] 0
  = Ok (144%nat, v [1; 2; 3; 4; 5] 15) /\
  ~ reencodable (unknown_status [1; 2; 3]) /\
  fframe_to_bytes (v [1; 2; 3] 13) = Ok [13; 1; 66; 16; 10; 0; 6; 7; 0x62; 3; 1; 2; 3; 0xCD; 0xAB] /\
  d_from_reader read_fframe [13; 1; 66; 16; 10; 0; 6; 7; 0x62; 3; 1; 2; 3; 0xCD; 0xAB] 0 <> Ok (128%nat, v [1; 2; 3] 13).
Proof. exact unknown_frames. Qed.

(** Where the id is not put back a status of five fives only comes back with the help of what follows
    it: the checksum 0505 and one more 5. *)
Example C74_example_followed : let E := env_subiot in
  let v := small_frame 15 [unknown_status [5; 5; 5; 5; 5]] 0x0505 in
  let l := [15; 1; 66; 16; 10; 0; 6; 7; 0x62; 5; 5; 5; 5; 5; 5; 5; 5] in
  fframe_to_bytes v = Ok l /\ d_from_reader read_fframe l 0 = Err EIncomplete /\
  d_from_reader read_fframe (l ++ [5]) 0 = Ok (152%nat, v).
Proof. vm_compute. repeat split. Qed.
