(** Vocabulary for C87: the checksum of frames. *)
From Coq Require Import List NArith.
From Verif Require Import Base Deku Frames.
Import ListNotations.

(** The same frame with another checksum. *)
Definition with_crc (v : fframe) (c : N) : fframe :=
  mkFFrame (ff_length v) (ff_subnet v) (ff_type v) (ff_eirp v) (ff_target v) (ff_frame v) c.
Definition bf_with_crc (v : bframe) (c : N) : bframe :=
  mkBFrame (bf_subnet v) (bf_type v) (bf_tag v) (bf_payload v) c.
