(** Values built without a check: lemmas for C58 and C59. *)
From Coq Require Import List NArith ZArith Bool Lia.
From Verif Require Import Base Deku Utils Types Physical Link Network Session Data Query Interface File
  Operation Action Command Construct WellFormed SpecApi SpecReturn SpecSurvive SpecAction SpecExact
  LBits LReader LTypes LNumbers LApi LConstruct LSurvive.
Import ListNotations.
Open Scope N_scope.

Lemma unchecked v ceil :
  (varint_new v ceil = inl (varint_new_unchecked v ceil) <->
   exists l, to_bytes (write_varint (varint_new_unchecked v ceil)) = Ok l).
Proof.
  unfold varint_new, varint_is_valid, varint_new_unchecked. change varint_max with 507904.
  destruct (N.leb_spec v 507904) as [H|H]; cbn [negb].
  - split; [|reflexivity]. intros _. pose proof (layout_varint (mkVarInt v ceil) H) as L. unfold to_bytes. rewrite L. eexists. reflexivity.
  - split; [discriminate|]. intros (l & K). exfalso. unfold to_bytes, write_varint in K. cbn [vi_value vi_ceil] in K.
    rewrite (compress_too_large v ceil H) in K. discriminate.
Qed.
Lemma from_u32 v : u32_of_varint (varint_of_u32 v) = v /\
  (comes_back (write_varint (varint_of_u32 v)) read_varint (varint_of_u32 v) <-> exists e m, e < 8 /\ m < 32 /\ v = 4 ^ e * m).
Proof.
  split; [reflexivity|]. assert (S : survivors read_varint write_varint wf_varint) by (pose (E := env_spec); apply (@survive_types E)).
  destruct S as (A & B & _). split.
  - intros H. apply B in H. exact (proj2 H).
  - intros H. destruct (A (varint_of_u32 v)) as (l & (R & _) & _ & K); [split; [reflexivity|exact H]|].
    exists l, ([], 0%nat). split; [exact R|]. specialize (K []). rewrite app_nil_r in K. exact K.
Qed.
Lemma update_file_data_nothing {E : Env} : exists v w,
  file_data_update v = Ok v /\ ~ action_survives (AWriteFileData v) /\ action_survives (AWriteFileData w) /\
  fd_data v = fd_data w /\ fd_header v = fd_header w.
Proof.
  exists (mkFileData (mkHeader false false) 4 (mkFileOffset 0 0) (FOther [1; 2])), (mkFileData (mkHeader false false) 4 (mkFileOffset 0x42 0) (FOther [1; 2])).
  split; [reflexivity|]. split; [|split; [|split; reflexivity]].
  - known. unfold wf_file_data. cbn. intuition. 
  - known. unfold wf_file_data. cbn. repeat split.
    + intuition discriminate.
    + repeat constructor.
Qed.
