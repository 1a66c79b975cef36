(** C79: frame encodings are unambiguous. *)
From Coq Require Import List NArith ZArith Bool.
From Verif Require Import Base Deku Utils Types Physical Link Network Session Data Query Interface File
  Operation Action Command Frames WellFormed SpecLayout SpecApi SpecAction SpecFrames SpecFrameUnique LFrameUnique.
Import ListNotations.
Open Scope N_scope.

Theorem C79_unambiguous : forall (E : Env) v w l, wf_fframe v -> wf_fframe w ->
  fframe_to_bytes v = Ok l -> fframe_to_bytes w = Ok l -> v = w.
Proof. exact @frame_injective. Qed.
Print Assumptions C79_unambiguous.

(** But the bytes of a frame can begin with those of another one. *)
Theorem C79_prefix_refuted : forall E : Env,
  ~ (forall v w l s, wf_fframe v -> wf_fframe w ->
       fframe_to_bytes v = Ok l -> fframe_to_bytes w = Ok (l ++ s) -> s = []).
Proof. exact @frame_prefix_refuted. Qed.
Print Assumptions C79_prefix_refuted.

(** This happens only to frames with the same headers, the same length field among them. *)
Theorem C79_prefix_exact : forall (E : Env) v w l m s, wf_fframe v -> wf_fframe w -> bytes s ->
  fframe_to_bytes v = Ok l -> fframe_to_bytes w = Ok m ->
  (l ++ s = m <-> w = refill v (command_of w) (ff_crc w) /\ fill v ++ bits_of_bytes s = fill w).
Proof. exact @frame_prefix. Qed.
Print Assumptions C79_prefix_exact.

(** It does not happen if the length fields say how many bytes follow. *)
Theorem C79_counted : forall (E : Env) v w l s, wf_fframe v -> wf_fframe w -> bytes s ->
  N.to_nat (ff_length v) = bytes_after_length v -> N.to_nat (ff_length w) = bytes_after_length w ->
  fframe_to_bytes v = Ok l -> fframe_to_bytes w = Ok (l ++ s) -> v = w /\ s = [].
Proof. exact @frame_counted. Qed.
Print Assumptions C79_counted.

Theorem C79_background : forall (E : Env) v w l s, wf_bframe v -> wf_bframe w ->
  bframe_to_bytes v = Ok l -> bframe_to_bytes w = Ok (l ++ s) -> v = w /\ s = [].
Proof. exact @bframe_injective. Qed.
Print Assumptions C79_background.

(** A frame without actions; one with the same headers, a Nop and another checksum, and one with
    the length field that fits. *)
Example C79_example : let E := env_spec in
  fframe_to_bytes (small_frame 9 [] 0) = Ok [9; 1; 66; 16; 10; 0; 6; 7; 0; 0] /\
  fframe_to_bytes (small_frame 9 [plain_nop] 0x700) = Ok [9; 1; 66; 16; 10; 0; 6; 7; 0; 0; 7] /\
  small_frame 9 [plain_nop] 0x700 = refill (small_frame 9 [] 0) [plain_nop] 0x700 /\
  fill (small_frame 9 [] 0) ++ bits_of_bytes [7] = fill (small_frame 9 [plain_nop] 0x700) /\
  fframe_to_bytes (small_frame 10 [plain_nop] 0x700) = Ok [10; 1; 66; 16; 10; 0; 6; 7; 0; 0; 7] /\
  bytes_after_length (small_frame 9 [] 0) = 9%nat /\ bytes_after_length (small_frame 10 [plain_nop] 0x700) = 10%nat.
Proof. vm_compute. repeat split. Qed.
