(** C78: the inputs that come back unchanged when a foreground frame is parsed and serialised
    again. *)
From Coq Require Import List NArith ZArith Bool.
From Verif Require Import Base Deku Utils Types Physical Link Network Session Data Query Interface File
  Operation Action Command Frames SpecLayout SpecApi SpecAction SpecDecode SpecCanonical SpecFrames SpecFrameDecode
  SpecFrameCanonical LFrameCanonTop LFrameCanonW LLagFrame.
Import ListNotations.
Open Scope N_scope.

(** Not all of them. *)
Theorem C78_refuted : forall E : Env,
  ~ (forall d n v, bytes d -> d_from_reader read_fframe d 0 = Ok (n, v) ->
       exists l rest, d = l ++ rest /\ fframe_to_bytes v = Ok l).
Proof. exact @frame_canon_refuted. Qed.
Print Assumptions C78_refuted.

(** Without wizzilab: for a frame that is all of the input, and for a frame with something behind it
    unless it has the status of an unknown interface whose id is not put back. *)
Theorem C78_frame : forall (E : Env) d l rest v, e_feat <> Wizzilab -> d = l ++ rest -> bytes d ->
  rest = [] \/ e_rewind = true \/ Forall (fun a => forall l, a <> unknown_status l) (command_of v) ->
  ((exists n, d_from_reader read_fframe d 0 = Ok (n, v)) /\ fframe_to_bytes v = Ok l <->
   strict_fframe d = Some (v, rest)).
Proof. exact @frame_canon_all. Qed.
Print Assumptions C78_frame.

(** With wizzilab the command and the checksum are zeros only. *)
Theorem C78_wizzilab : forall (E : Env) d l rest v, e_feat = Wizzilab -> d = l ++ rest -> bytes d -> ff_length v <> 0 ->
  ((exists n, d_from_reader read_fframe d 0 = Ok (n, v)) /\ fframe_to_bytes v = Ok l <->
   strict_fframe d = Some (v, rest)).
Proof. exact @frame_canon_wizzilab. Qed.
Print Assumptions C78_wizzilab.

(** That is so because of the length field: without it a command can be found again. *)
Theorem C78_wizzilab_0 : forall E : Env, e_feat = Wizzilab ->
  exists d v, bytes d /\ (exists n, d_from_reader read_fframe d 0 = Ok (n, v)) /\ fframe_to_bytes v = Ok d /\
    ff_length v = 0 /\ command_of v <> [].
Proof. exact @frame_canon_unlimited. Qed.
Print Assumptions C78_wizzilab_0.

(** A frame with one read action; the same with its length in two bytes, with a set unused bit in
    the network control, and with its file offset in two bytes. With wizzilab three Nops, and the
    same with one of them marked. *)
Example C78_example :
  (let E := env_spec in
   strict_fframe [12; 1; 66; 16; 10; 0; 6; 7; 0x81; 0; 0; 8; 0xAB; 0xCD; 9] = Some (small_frame 12 [read_uid] 0xCDAB, [9]) /\
   fframe_to_bytes (small_frame 12 [read_uid] 0xCDAB) = Ok [12; 1; 66; 16; 10; 0; 6; 7; 0x81; 0; 0; 8; 0xAB; 0xCD] /\
   (exists n, d_from_reader read_fframe [0x40; 13; 1; 66; 16; 10; 0; 6; 7; 0x81; 0; 0; 8; 0xAB; 0xCD] 0 =
      Ok (n, small_frame 13 [read_uid] 0xCDAB)) /\
   strict_fframe [0x40; 13; 1; 66; 16; 10; 0; 6; 7; 0x81; 0; 0; 8; 0xAB; 0xCD] = None /\
   (exists n, d_from_reader read_fframe [12; 1; 66; 24; 10; 0; 6; 7; 0x81; 0; 0; 8; 0xAB; 0xCD] 0 =
      Ok (n, small_frame 12 [read_uid] 0xCDAB)) /\
   strict_fframe [12; 1; 66; 24; 10; 0; 6; 7; 0x81; 0; 0; 8; 0xAB; 0xCD] = None /\
   strict_fframe [13; 1; 66; 16; 10; 0; 6; 7; 0x81; 0; 0x40; 0; 8; 0; 0] = None) /\
  (let E := env_wizzilab in
   strict_fframe [11; 1; 66; 16; 20; 0; 12; 14; 0; 0; 0; 0; 0; 7] = Some (small_frame 11 [plain_nop; plain_nop; plain_nop] 0, [7]) /\
   fframe_to_bytes (small_frame 11 [plain_nop; plain_nop; plain_nop] 0) = Ok [11; 1; 66; 16; 20; 0; 12; 14; 0; 0; 0; 0; 0] /\
   (exists n v, d_from_reader read_fframe [11; 1; 66; 16; 20; 0; 12; 14; 0; 0x40; 0; 0; 0] 0 = Ok (n, v)) /\
   strict_fframe [11; 1; 66; 16; 20; 0; 12; 14; 0; 0x40; 0; 0; 0] = None).
Proof. vm_compute; repeat split; do 2 try eexists; reflexivity. Qed.

(** Where the id is not put back a status of five fives is written in one byte less than it was read
    from; with the checksum 0505 and a 5 behind it the rest looks the same. *)
Example C78_example_unknown : let E := env_subiot in
  let v := small_frame 15 [unknown_status [5; 5; 5; 5; 5]] 0x0505 in
  let l := [15; 1; 66; 16; 10; 0; 6; 7; 0x62; 5; 5; 5; 5; 5; 5; 5; 5] in
  fframe_to_bytes v = Ok l /\ d_from_reader read_fframe l 0 = Err EIncomplete /\
  d_from_reader read_fframe (l ++ [5]) 0 = Ok (152%nat, v) /\ strict_fframe l = None /\ strict_fframe (l ++ [5]) = None.
Proof. vm_compute. repeat split. Qed.
