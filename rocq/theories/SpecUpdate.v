(** Vocabulary for C58: frames that differ in what the transport control field announces. *)
From Coq Require Import List NArith Bool.
From Verif Require Import Base Deku Frames.

Definition without_flags (v : fframe) : fframe :=
  let n := ff_frame v in let t := nf_frame n in
  mkFFrame (ff_length v) (ff_subnet v) (ff_type v) (ff_eirp v) (ff_target v)
    (mkNFrame (nf_control n) (nf_hopping n) (nf_access n) (nf_origin n)
      (mkTFrame (mkTControl false false false false false false false) (tf_dialog t) (tf_transaction t) (tf_target_rx t)
        (tf_listen t) (tf_exec_delay t) (tf_congestion t) (tf_ack t) (tf_command t))) (ff_crc v).
