(** Lemmas for C58: update of a frame. *)
From Coq Require Import List NArith ZArith Bool.
From Verif Require Import Base Deku Utils Types Physical Link Network Session Data Query Interface File
  Operation Action Command Frames Construct WellFormed SpecLayout SpecApi SpecAction SpecFrames SpecFrameAgain SpecUpdate SpecExact
  LFrameAgain LFrameAllW.
Import ListNotations.
Open Scope N_scope.

Lemma update_frame_nothing {E : Env} : exists v w,
  fframe_update v = Ok v /\ ~ frame_survives v /\ frame_survives w /\
  tf_listen (nf_frame (ff_frame v)) <> None /\ without_flags v = without_flags w.
Proof.
  pose (v b := mkFFrame 1 1 AtNoId 2 NoId
    (mkNFrame (mkNControl false false AtNoId NlsNone) None (mkAccessClass 1 4) NoId
      (mkTFrame (mkTControl false b false false false false false) 6 7 None (Some (mkVarInt 3 false)) None None None [])) 0).
  exists (v false), (v true). split; [reflexivity|]. split.
  - assert (W : ~ wf_fframe (v false)).
    { intros (_ & _ & _ & _ & _ & _ & W). destruct W as (_ & _ & _ & _ & _ & W). cbn in W. intuition discriminate. }
    intros S. apply W. destruct e_feat eqn:F.
    1, 2: apply (frame_again (v false)); [rewrite F; discriminate|constructor|exact S].
    apply (frame_any_wizzilab (v false) F); [discriminate|exact S].
  - split; [|split; [discriminate|reflexivity]].
    unfold frame_survives. destruct E as [[] [] []]; do 3 eexists; (split; [vm_compute; reflexivity|]); (split; [apply Forall_nil|vm_compute; reflexivity]).
Qed.

Lemma update_useless {E : Env} :
  (forall a, exists b, action_update a = Ok b /\ action_to_bytes b = action_to_bytes a /\ (action_survives b <-> action_survives a)) /\
  (forall q, exists w, query_update q = Ok w /\ to_bytes (write_query w) = to_bytes (write_query q) /\
     forall h op, action_survives (AActionQuery (mkActionQuery h op w)) <-> action_survives (AActionQuery (mkActionQuery h op q))) /\
  (forall v, exists w, action_query_update v = Ok w /\ action_to_bytes (AActionQuery w) = action_to_bytes (AActionQuery v) /\
     (action_survives (AActionQuery w) <-> action_survives (AActionQuery v))) /\
  (forall v, exists w, forward_update v = Ok w /\ action_to_bytes (AForward w) = action_to_bytes (AForward v) /\
     (action_survives (AForward w) <-> action_survives (AForward v))) /\
  (forall c, exists w, dash7_config_update c = Ok w /\ to_bytes (write_dash7_config w) = to_bytes (write_dash7_config c) /\
     forall r op, action_survives (AForward (mkForward r op (IcDash7 w))) <-> action_survives (AForward (mkForward r op (IcDash7 c)))) /\
  (forall v, exists w, file_data_update v = Ok w /\ action_to_bytes (AWriteFileData w) = action_to_bytes (AWriteFileData v) /\
     (action_survives (AWriteFileData w) <-> action_survives (AWriteFileData v)) /\
     (action_survives (AReturnFileData w) <-> action_survives (AReturnFileData v))) /\
  (forall v, exists w, fframe_update v = Ok w /\ fframe_to_bytes w = fframe_to_bytes v /\ (frame_survives w <-> frame_survives v)).
Proof. repeat split; intros v; exists v; tauto. Qed.
