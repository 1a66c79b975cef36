(** Vocabulary for C74: foreground frames written and parsed again. *)
From Coq Require Import List NArith Bool.
From Verif Require Import Base Deku Action Command Frames WellFormed SpecLayout SpecAction.
Import ListNotations.
Open Scope N_scope.

(** The bytes of the frame, with some bytes behind them, are taken for this frame. *)
Definition frame_survives {E : Env} (v : fframe) : Prop :=
  exists l suf n, fframe_to_bytes v = Ok l /\ bytes suf /\ d_from_reader read_fframe (l ++ suf) 0 = Ok (n, v).
(** No action is the status of an interface the crate does not know (C09, C57). *)
Definition known_actions {E : Env} (c : command) : Prop := Forall (fun a => forall l, a <> unknown_status l) c.

(** The frame without its command. *)
Definition without_command (v : fframe) : fframe :=
  let n := ff_frame v in let t := nf_frame n in
  mkFFrame (ff_length v) (ff_subnet v) (ff_type v) (ff_eirp v) (ff_target v)
    (mkNFrame (nf_control n) (nf_hopping n) (nf_access n) (nf_origin n)
      (mkTFrame (tf_control t) (tf_dialog t) (tf_transaction t) (tf_target_rx t) (tf_listen t) (tf_exec_delay t)
        (tf_congestion t) (tf_ack t) [])) (ff_crc v).

(** The bytes of the frame and nothing else are taken for this frame. *)
Definition frame_returns {E : Env} (v : fframe) : Prop :=
  exists l n, fframe_to_bytes v = Ok l /\ d_from_reader read_fframe l 0 = Ok (n, v).
