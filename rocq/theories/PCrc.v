(** C87: the checksum of frames. *)
From Coq Require Import List NArith ZArith Bool.
From Verif Require Import Base Deku Utils Types Physical Link Network Session Data Query Interface File
  Operation Action Command Frames Position WellFormed SpecLayout SpecApi SpecFrames SpecCrc Samples LCrc.
Import ListNotations.
Open Scope N_scope.

(** Whatever the checksum is to be computed with, there are frames that are accepted with another. *)
Theorem C87_refuted : forall E : Env, ~ exists f : list N -> N, forall d p n v q, bytes d -> (p <= length d)%nat ->
  from_stream read_fframe d p 0 = Ok (n, v, q) -> ff_crc v = f (firstn (q - 2) d).
Proof. exact @no_checksum. Qed.
Print Assumptions C87_refuted.

(** The checksum is the last two bytes of a frame, and any two bytes are accepted there: nothing else
    changes. *)
Theorem C87_any : forall (E : Env) d p n v q, bytes d -> (p <= length d)%nat -> from_stream read_fframe d p 0 = Ok (n, v, q) ->
  (p + 2 <= q <= length d)%nat /\ d = firstn (q - 2) d ++ enc_native 2 (ff_crc v) ++ skipn q d /\
  forall c, c < 65536 -> from_stream read_fframe (firstn (q - 2) d ++ enc_native 2 c ++ skipn q d) p 0 = Ok (n, with_crc v c, q).
Proof. exact @carried. Qed.
Print Assumptions C87_any.
Theorem C87_try_from : forall (E : Env) d v, bytes d -> fframe_try_from d = Ok v ->
  exists k, (k + 2 <= length d)%nat /\ d = firstn k d ++ enc_native 2 (ff_crc v) ++ skipn (k + 2) d /\
    forall c, c < 65536 -> fframe_try_from (firstn k d ++ enc_native 2 c ++ skipn (k + 2) d) = Ok (with_crc v c).
Proof. exact @try_carried. Qed.
Print Assumptions C87_try_from.
Theorem C87_background : forall (E : Env) d v, bytes d -> bframe_try_from d = Ok v ->
  d = firstn 4 d ++ enc_native 2 (bf_crc v) /\
  forall c, c < 65536 -> bframe_try_from (firstn 4 d ++ enc_native 2 c) = Ok (bf_with_crc v c).
Proof. exact @background_carried. Qed.
Print Assumptions C87_background.

(** Nor is it computed when a frame is written: the field goes out as it is. *)
Theorem C87_written : forall (E : Env) v l c, fframe_to_bytes v = Ok l ->
  exists bits, l = bytes_of_bits (bits ++ bits_of_bytes (enc_native 2 (ff_crc v))) /\
    fframe_to_bytes (with_crc v c) = Ok (bytes_of_bits (bits ++ bits_of_bytes (enc_native 2 c))).
Proof. exact @carried_written. Qed.
Print Assumptions C87_written.

(** A frame with a Nop behind two other bytes and in front of one; the same with another checksum; with
    a marked Nop and the first checksum. *)
Example C87_example : let E := env_spec in
  let d x a b := [9; 9; 11; 1; 66; 16; 10; 0; 6; 7; x; a; b; 5] in
  let nop f := ANop (mkNop (mkHeader f false) 0) in
  from_stream read_fframe (d 0 0xAB 0xCD) 2 0 = Ok (96%nat, small_frame 11 [nop false] 0xCDAB, 13%nat) /\
  from_stream read_fframe (d 0 1 2) 2 0 = Ok (96%nat, small_frame 11 [nop false] 0x201, 13%nat) /\
  from_stream read_fframe (d 0x80 0xAB 0xCD) 2 0 = Ok (96%nat, small_frame 11 [nop true] 0xCDAB, 13%nat) /\
  bframe_try_from [1; 2; 3; 4; 5; 6] = Ok (mkBFrame 1 AtNbId 2 0x403 0x605) /\
  bframe_try_from [1; 2; 3; 4; 7; 8] = Ok (mkBFrame 1 AtNbId 2 0x403 0x807).
Proof. vm_compute. repeat split. Qed.
