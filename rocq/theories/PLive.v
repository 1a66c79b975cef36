(** C63: [Incomplete] is reported exactly where more input can help, and for the inputs [stuck] of
    SpecLive.v, where it cannot. *)
From Coq Require Import List NArith ZArith Bool.
From Verif Require Import Base Deku Utils Types Physical Link Network Session Data Query Interface File
  Operation Action Command WellFormed SpecApi SpecDecode SpecLive LLiveLoop.
Import ListNotations.
Open Scope N_scope.

(** Not every input that is reported as incomplete can be completed. *)
Theorem C63_incomplete_refuted : forall (E : Env),
  exists d, bytes d /\ action_from_bytes d 0 = Err EIncomplete /\ ~ action_can_end d.
Proof. exact @incomplete_refuted. Qed.
Print Assumptions C63_incomplete_refuted.

Theorem C63_action_exact : forall (E : Env) d e, bytes d -> action_from_bytes d 0 = Err e ->
  (e = EIncomplete <-> action_can_end d \/ action_stuck d).
Proof. exact @action_incomplete. Qed.
Print Assumptions C63_action_exact.

Theorem C63_action_stuck : forall (E : Env) d, bytes d -> action_stuck d ->
  action_from_bytes d 0 = Err EIncomplete /\ ~ action_can_end d.
Proof. exact @action_stuck_spec. Qed.
Print Assumptions C63_action_stuck.

Theorem C63_command_exact : forall (E : Env) d e, bytes d -> command_try_from d = Err e ->
  (e = EIncomplete <-> command_can_end d \/ command_stuck d).
Proof. exact @command_incomplete. Qed.
Print Assumptions C63_command_exact.

Theorem C63_command_stuck : forall (E : Env) d, bytes d -> command_stuck d ->
  command_try_from d = Err EIncomplete /\ ~ command_can_end d.
Proof. exact @command_stuck_spec. Qed.
Print Assumptions C63_command_stuck.

(** A read cut after the file id can be completed; file data of file 5 with an unknown method
    cannot, and is not reported as incomplete; a version text that starts with 0xFF cannot, and is. *)
Example C63_example :
  action_from_bytes (E := env_spec) [1; 7] 0 = Err EIncomplete /\
  action_from_bytes (E := env_spec) [1; 7; 0; 4] 0 = Ok (([], 0%nat), AReadFileData (mkReadFileData (mkHeader false false) 1 (mkFileOffset 7 0) 4)) /\
  action_from_bytes (E := env_spec) [4; 5; 0; 9; 99] 0 = Err EParse /\
  action_from_bytes (E := env_spec) [4; 2; 0; 15; 1; 1; 0xFF] 0 = Err EIncomplete /\
  action_from_bytes (E := env_spec) [4; 2; 0; 15; 1; 1; 0xFF; 0; 0; 0; 0; 0] 0 = Err EParse.
Proof. repeat split; vm_compute; reflexivity. Qed.
(** wizzilab: the error code of a transmission starts with the bits 01. *)
Example C63_example_tx :
  action_from_bytes (E := env_wizzilab) [0x66; 3; 92; 0; 0; 0; 0; 1] 0 = Err EIncomplete /\
  action_stuck (E := env_wizzilab) [0x66; 3; 92; 0; 0; 0; 0; 1] /\
  ~ action_stuck (E := env_wizzilab) [0x66; 3; 92; 0; 0; 0; 0; 3] /\
  (exists r x, action_from_bytes (E := env_wizzilab)
     [0x66; 3; 92; 0; 0; 0; 0; 3; 252; 0; 0; 0; 0; 0; 0; 0; 64; 0; 0; 0] 0 = Ok (r, ATxStatus x)).
Proof.
  split; [vm_compute; reflexivity|]. split; [|split].
  - exists 0x66, [3; 92; 0; 0; 0; 0; 1]. split; [reflexivity|]. right. right. split; [reflexivity|]. split; [reflexivity|].
    exists 0x66. eexists. eexists. eexists. eexists. eexists. eexists.
    split; [reflexivity|]. split; [reflexivity|]. split; [vm_compute; reflexivity|]. split; [vm_compute; reflexivity|].
    split; [vm_compute; reflexivity|]. left. reflexivity.
  - intros (b & l & H & Hs). injection H as <- <-. revert Hs. intros [(H & _)|[(H & _)|(_ & _ & h & tl & l & n & l2 & c & x & H & _ & _ & _ & _ & Hw)]].
    + discriminate.
    + cbn [In] in H. decompose [or] H; try discriminate; contradiction.
    + injection H as <- <-. destruct Hw; discriminate.
  - eexists. eexists. vm_compute. reflexivity.
Qed.
