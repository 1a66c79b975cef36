(** Vocabulary for C82: frames between builds with different cargo features. *)
From Coq Require Import List NArith Bool.
From Verif Require Import Base Deku Utils Types Physical Link Network Session Data Query Interface
  File Operation Action Command Frames SpecLayout SpecFrames SpecVariants.
Import ListNotations.
Open Scope N_scope.

(** Bytes of a frame that its own build gives back mean the same to another build, or are rejected. *)
Definition frame_understood {E : Env} (F G : feature) : Prop := forall v d n x m,
  fframe_to_bytes (E := build F E) v = Ok d -> d_from_reader (read_fframe (E := build F E)) d 0 = Ok (n, v) ->
  d_from_reader (read_fframe (E := build G E)) d 0 = Ok (m, x) -> x = v.

(** No forward over DASH7. *)
Definition no_dash7_forward (v : fframe) : Prop := Forall (fun a => dash7_forward a = false) (command_of v).

(** The fields from the security method on are all zero. *)
Definition quiet {E : Env} (v : fframe) : Prop :=
  let n := ff_frame v in
  nc_nls (nf_control n) = NlsNone /\
  Forall (fun f => snd f = 0)
    (network_fields n ++ tcontrol_fields (tf_control (nf_frame n)) ++ transport_fields (nf_frame n)) /\
  Forall (fun b => b = 0) (enc_command (command_of v)) /\ ff_crc v = 0.

(** What a frame says in front of the security method. *)
Definition same_start (v w : fframe) : Prop :=
  ff_length v = ff_length w /\ ff_subnet v = ff_subnet w /\ ff_type v = ff_type w /\ ff_eirp v = ff_eirp w /\
  ff_target v = ff_target w /\
  nc_no_origin (nf_control (ff_frame v)) = nc_no_origin (nf_control (ff_frame w)) /\
  nc_hopping (nf_control (ff_frame v)) = nc_hopping (nf_control (ff_frame w)) /\
  nc_origin_type (nf_control (ff_frame v)) = nc_origin_type (nf_control (ff_frame w)).

(** A forward over DASH7 followed by a tag, in a frame. *)
Definition forward_frame : fframe :=
  small_frame 16 [sample_broadcast (mkAccessClass 0 1); ARequestTag (mkRequestTag true 52 7)] 0xABCD.
Definition forward_frame' : fframe :=
  small_frame 15 [sample_broadcast (mkAccessClass 1 0); ANop (mkNop (mkHeader false false) 0)] 0xABCD.
