(** When the bytes of one foreground frame begin with those of another. *)
From Coq Require Import List NArith.
From Verif Require Import Base Deku Utils Types Physical Link Network Session Data Query
  Interface File Operation Action Command Frames SpecLayout SpecFrames.
Import ListNotations.
Open Scope N_scope.

(** The same frame with another command and checksum. *)
Definition refill (v : fframe) (c : command) (crc : N) : fframe :=
  let n := ff_frame v in let t := nf_frame n in
  mkFFrame (ff_length v) (ff_subnet v) (ff_type v) (ff_eirp v) (ff_target v)
    (mkNFrame (nf_control n) (nf_hopping n) (nf_access n) (nf_origin n)
      (mkTFrame (tf_control t) (tf_dialog t) (tf_transaction t) (tf_target_rx t) (tf_listen t) (tf_exec_delay t)
         (tf_congestion t) (tf_ack t) c)) crc.
(** Command and checksum; with wizzilab one bit is missing for a whole number of bytes. *)
Definition fill {E : Env} (v : fframe) : list bool :=
  bits_of_bytes (enc_command (command_of v)) ++ bits_of_bytes (enc_native 2 (ff_crc v)) ++
  match e_feat with Wizzilab => [false] | _ => [] end.
