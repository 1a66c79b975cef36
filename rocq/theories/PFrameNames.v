(** C77: which error is reported for a frame, and whether more bytes help. *)
From Coq Require Import List NArith ZArith Bool.
From Verif Require Import Base Deku Utils Types Physical Link Network Session Data Query Interface File
  Operation Action Command Frames WellFormed SpecApi SpecAction SpecDecode SpecLive SpecErr SpecFrameDecode SpecFrameLive LFrameNames.
Import ListNotations.
Open Scope N_scope.

(** Not every frame that is reported as incomplete can be completed. *)
Theorem C77_incomplete_refuted : forall E : Env,
  exists d, bytes d /\ d_from_reader read_fframe d 0 = Err EIncomplete /\ ~ frame_can_end d.
Proof. exact @frame_incomplete_refuted. Qed.
Print Assumptions C77_incomplete_refuted.

Theorem C77_incomplete_exact : forall (E : Env) d e, bytes d -> d_from_reader read_fframe d 0 = Err e ->
  (e = EIncomplete <-> frame_can_end d \/ frame_stuck d).
Proof. exact @frame_incomplete. Qed.
Print Assumptions C77_incomplete_exact.

Theorem C77_stuck : forall (E : Env) d, bytes d -> frame_stuck d ->
  d_from_reader read_fframe d 0 = Err EIncomplete /\ ~ frame_can_end d.
Proof. exact @frame_stuck_spec. Qed.
Print Assumptions C77_stuck.

Theorem C77_names : forall (E : Env) d e, bytes d -> d_from_reader read_fframe d 0 = Err e ->
  (e = EInvalidParam <-> frame_unknown d) /\ (e = EIncomplete \/ e = EInvalidParam \/ e = EParse).
Proof. exact @frame_names. Qed.
Print Assumptions C77_names.

(** The other two entry points report the same; the one for whole inputs also reports what is left over. *)
Theorem C77_entry_points : forall (E : Env) d e, bytes d ->
  (fframe_from_bytes d 0 = Err e <-> d_from_reader read_fframe d 0 = Err e) /\
  (fframe_try_from d = Err e -> d_from_reader read_fframe d 0 = Err e \/ e = ETooMuchData /\ exists x, d_from_reader read_fframe d 0 = Ok x) /\
  (d_from_reader read_fframe d 0 = Err e -> fframe_try_from d = Err e).
Proof. exact @frame_entry_points. Qed.
Print Assumptions C77_entry_points.

Theorem C77_background : forall E : Env, names_errors read_bframe.
Proof. exact @names_bframe. Qed.
Print Assumptions C77_background.

(** A whole frame; cut after its header and after its action; with the unassigned opcode 3; with a
    file of which the contents are unknown; with the unassigned security method 14 or 15, cut after
    seven of its nine bits, and not cut. *)
Example C77_example :
  let E := env_spec in
  let run d := d_from_reader read_fframe d 0 in
  let head := [9; 1; 66; 16; 10; 0; 6; 7] in
  (exists x, run (head ++ [0; 0xAB; 0xCD]) = Ok x) /\ run head = Err EIncomplete /\ run (head ++ [0]) = Err EIncomplete /\
  run (head ++ [3]) = Err EInvalidParam /\ frame_unknown (head ++ [3]) /\
  run (head ++ [4; 5; 0; 9; 99]) = Err EParse /\
  run [9; 1; 66; 7] = Err EIncomplete /\ method_cut [9; 1; 66; 7] /\ run [9; 1; 66; 7; 0] = Err EParse.
Proof.
  assert (U : frame_unknown (E := env_spec) [9; 1; 66; 16; 10; 0; 6; 7; 3]).
  { exists 3, [3]. split.
    - do 6 eexists. exists 0, 3, []. split; [vm_compute; reflexivity|]. split; [vm_compute; reflexivity|]. split; [apply steps_here|].
      split; [right; vm_compute; reflexivity|]. split; reflexivity.
    - vm_compute. intros H. repeat (destruct H as [H|H]; [discriminate|]). exact H. }
  assert (M : method_cut (E := env_spec) [9; 1; 66; 7]).
  { split; [discriminate|]. eexists. exists 7. split; [vm_compute; reflexivity|discriminate]. }
  cbv zeta. split; [eexists; vm_compute; reflexivity|]. do 3 (split; [vm_compute; reflexivity|]). split; [exact U|].
  split; [vm_compute; reflexivity|]. split; [vm_compute; reflexivity|]. split; [exact M|vm_compute; reflexivity].
Qed.
