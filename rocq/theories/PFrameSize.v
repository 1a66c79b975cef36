(** C81: parsed frames compared in size with what they were parsed from. *)
From Coq Require Import List NArith Bool.
From Verif Require Import Base Deku Utils Types Physical Link Network Session Data Query Interface File
  Operation Action Command Frames Position WellFormed SpecApi SpecLayout SpecFrames SpecGrow SpecJoin LFrameSize.
Import ListNotations.
Open Scope N_scope.

(** The actions of a frame and the elements of their vectors and strings together are at least ten
    less than there are bytes, from any byte of a stream on. *)
Theorem C81_held : forall (E : Env) d p n v q, bytes d -> (p <= length d)%nat ->
  from_stream read_fframe d p 0 = Ok (n, v, q) -> (command_held (command_of v) + 10 <= q - p)%nat.
Proof. exact @frame_held. Qed.
Print Assumptions C81_held.

(** A frame may be written in more bytes than it was parsed from. *)
Theorem C81_refuted : forall E : Env, ~ (forall d n v q l, bytes d -> from_stream read_fframe d 0 0 = Ok (n, v, q) ->
  fframe_to_bytes v = Ok l -> (length l <= q)%nat).
Proof. exact @frame_grows_refuted. Qed.
Print Assumptions C81_refuted.

(** By no more bytes than it has actions with an access profile or the status of 17 channels or more. *)
Theorem C81_written : forall (E : Env) d p n v q l, bytes d -> (p <= length d)%nat ->
  from_stream read_fframe d p 0 = Ok (n, v, q) -> fframe_to_bytes v = Ok l ->
  (length l <= q - p + length (filter swells (command_of v)))%nat.
Proof. exact @frame_grows. Qed.
Print Assumptions C81_written.

(** Three Nops in 13 bytes; the access profile of C75 in a frame, 79 bytes, 80 when written; a frame
    whose own length is given in four bytes is written in 11 instead of 14. *)
Example C81_example : let E := env_spec in
  let nop := ANop (mkNop (mkHeader false false) 0) in
  from_stream read_fframe [11; 1; 66; 16; 10; 0; 6; 7; 0; 0; 0; 0xAB; 0xCD] 0 0 = Ok (128%nat, small_frame 11 [nop; nop; nop] 0xCDAB, 13%nat) /\
  command_held (command_of (small_frame 11 [nop; nop; nop] 0xCDAB)) = 3%nat /\
  from_stream read_fframe ([9; 1; 66; 16; 10; 0; 6; 7; 0x20; 0x20; 0; 0] ++ repeat 0 67) 0 0 =
    Ok (640%nat, small_frame 9 [zero_profile] 0, 79%nat) /\
  fframe_to_bytes (small_frame 9 [zero_profile] 0) =
    Ok ([9; 1; 66; 16; 10; 0; 6; 7; 0x20; 0x20; 0; 0x40; 65] ++ repeat 0 67) /\
  from_stream read_fframe [0xC0; 0; 0; 12; 1; 66; 16; 10; 0; 6; 7; 0; 0xAB; 0xCD] 0 0 = Ok (120%nat, small_frame 12 [nop] 0xCDAB, 14%nat) /\
  fframe_to_bytes (small_frame 12 [nop] 0xCDAB) = Ok [12; 1; 66; 16; 10; 0; 6; 7; 0; 0xAB; 0xCD].
Proof. vm_compute. repeat split. Qed.
