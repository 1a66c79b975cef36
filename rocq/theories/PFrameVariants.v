(** C82: frames between builds with different cargo features. *)
From Coq Require Import List NArith Bool.
From Verif Require Import Base Deku Utils Types Physical Link Network Session Data Query Interface File
  Operation Action Command Frames WellFormed SpecApi SpecLayout SpecFrames SpecVariants SpecFrameVariants LFrameVariants.
Import ListNotations.
Open Scope N_scope.

(** For any two different features there is a frame that both accept and understand differently. *)
Theorem C82_refuted : forall (E : Env) F G, F <> G -> ~ frame_understood (E := E) F G.
Proof. exact frames_misread. Qed.
Print Assumptions C82_refuted.

(** Frames without a forward over DASH7 are read alike with and without the subiot feature, *)
Theorem C82_read_subiot : forall (E : Env) d n v, bytes d -> no_dash7_forward v ->
  (d_from_reader (read_fframe (E := build Subiot E)) d 0 = Ok (n, v) <->
   d_from_reader (read_fframe (E := build Spec E)) d 0 = Ok (n, v)).
Proof. exact subiot_frame_read. Qed.
Print Assumptions C82_read_subiot.

(** and are written alike. *)
Theorem C82_written_subiot : forall (E : Env) v, no_dash7_forward v ->
  fframe_to_bytes (E := build Subiot E) v = fframe_to_bytes (E := build Spec E) v.
Proof. exact subiot_frame_written. Qed.
Print Assumptions C82_written_subiot.

(** With and without the wizzilab feature a frame is written alike exactly if everything in it is
    zero from the security method on. *)
Theorem C82_written_wizzilab : forall (E : Env) v, wf_fframe (E := build Spec E) v ->
  (fframe_to_bytes (E := build Spec E) v = fframe_to_bytes (E := build Wizzilab E) v <-> quiet (E := build Spec E) v).
Proof. exact frame_written_wizzilab. Qed.
Print Assumptions C82_written_wizzilab.

(** If builds with and without wizzilab accept the same bytes, they agree up to the security
    method, of which the wizzilab build sees the upper three bits. *)
Theorem C82_common : forall (E : Env) F v w d n m, F <> Wizzilab -> bytes d ->
  d_from_reader (read_fframe (E := build F E)) d 0 = Ok (n, v) ->
  d_from_reader (read_fframe (E := build Wizzilab E)) d 0 = Ok (m, w) ->
  same_start v w /\ code_nls (nc_nls (nf_control (ff_frame w))) = code_nls (nc_nls (nf_control (ff_frame v))) / 2.
Proof. exact wizzilab_common. Qed.
Print Assumptions C82_common.

(** A frame with one Nop: wizzilab writes it with everything from the security method on moved by
    one bit, and takes the bytes of the others for access class 0 with mask 10 and dialog 3. A frame
    that is zero from the security method on is the same bytes for all builds. *)
Example C82_example : let E := env_spec in
  let nop := ANop (mkNop (mkHeader false false) 0) in
  let quiet_frame := mkFFrame 9 1 AtNoId 2 NoId (mkNFrame (mkNControl true false AtNoId NlsNone) None (mkAccessClass 0 0) NoId
      (mkTFrame no_flags 0 0 None None None None None [nop])) 0 in
  fframe_to_bytes (E := build Spec E) (small_frame 9 [nop] 0) = Ok [9; 1; 66; 16; 10; 0; 6; 7; 0; 0; 0] /\
  fframe_to_bytes (E := build Wizzilab E) (small_frame 9 [nop] 0) = Ok [9; 1; 66; 16; 20; 0; 12; 14; 0; 0; 0] /\
  match d_from_reader (read_fframe (E := build Wizzilab E)) [9; 1; 66; 16; 10; 0; 6; 7; 0; 0; 0] 0 with
  | Ok (_, w) => nf_access (ff_frame w) = mkAccessClass 0 10 /\ tf_dialog (nf_frame (ff_frame w)) = 3
  | _ => False
  end /\
  fframe_to_bytes (E := build Spec E) quiet_frame = Ok [9; 1; 66; 144; 0; 0; 0; 0; 0; 0; 0] /\
  fframe_to_bytes (E := build Wizzilab E) quiet_frame = Ok [9; 1; 66; 144; 0; 0; 0; 0; 0; 0; 0] /\
  fframe_to_bytes (E := build Spec E) forward_frame <> fframe_to_bytes (E := build Subiot E) forward_frame.
Proof. vm_compute. repeat split. discriminate. Qed.
