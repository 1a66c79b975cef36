(** Concrete values used in the examples next to the theorems. *)
From Coq Require Import List NArith ZArith Bool Lia.
From Verif Require Import Base Deku Utils Types Physical Link Network Session Data Query
  Interface File Operation Action Command WellFormed.
Import ListNotations.
Open Scope N_scope.

(** WriteFileData: three bytes at offset 300 of file 0x40, with response. *)
Definition sample_write : action :=
  AWriteFileData (mkFileData (mkHeader false true) 4 (mkFileOffset 0x40 300) (FOther [1; 2; 3])).
(** RequestTag 7, end of packet. *)
Definition sample_tag : action := ARequestTag (mkRequestTag true 52 7).
(** Forward over DASH7 to a VID with an AES-CCM-32 state. *)
Definition sample_addressee : addressee :=
  mkAddressee GcAny AtVId false NlsAesCcm32 (mkAccessClass 2 1) (VId 0xABCD) (NsAesCcm32 [1; 2; 3; 4; 5]).
Definition sample_config : dash7_config :=
  mkDash7Config (mkQos false true RtFifoFast RmPreferred) (mkVarInt 96 false) (mkVarInt 0 false) sample_addressee.
Definition sample_forward : action := AForward (mkForward true 50 (IcDash7 sample_config)).
(** IndirectForward with an overloaded address. *)
Definition sample_indirect : action :=
  AIndirectForward (mkIndirectForward true false 51 (Some (IiDash7 sample_addressee))).
(** A query with mask and value. *)
Definition sample_query : action :=
  AActionQuery (mkActionQuery (mkHeader true true) 8
    (QCmpValue (mkCmpValue true (mkArithParams true CmpGe) 2 [0xFF; 0x0F] [9; 99] (mkFileOffset 4 5)))).
(** A nop. *)
Definition sample_nop : action := ANop (mkNop (mkHeader true false) 0).
(** A status of an unknown interface. *)
Definition sample_unknown (l : list N) : action :=
  AStatus (mkStatusOperand StInterface 34 (StatusInterface (mkItfStatusOp ItUnknown (IsOther l)))).
(** TxStatus (wizzilab). *)
Definition sample_tx : action := ATxStatus (mkTxStatusOp 38 9 (TxOther [1; 2])).

Lemma sample_write_wf {E : Env} : wf_action sample_write.
Proof.
  split; [reflexivity|]. split; [split; [reflexivity|reflexivity]|]. split.
  - cbn. intuition discriminate.
  - split; [repeat constructor|reflexivity].
Qed.
Lemma sample_tag_wf {E : Env} : wf_action sample_tag.
Proof. split; reflexivity. Qed.
Lemma sample_addressee_wf {E : Env} : wf_addressee sample_addressee.
Proof.
  split; [right; split; reflexivity|]. split; [exact I|]. split; [exact I|]. split; [split; reflexivity|].
  split; [reflexivity|]. split; [repeat constructor|reflexivity].
Qed.
Lemma sample_config_wf {E : Env} : wf_dash7_config sample_config.
Proof.
  split; [|split; [|split; [|apply sample_addressee_wf]]].
  - split; [reflexivity|]. exists 1, 24. repeat split.
  - split; [reflexivity|]. exists 0, 0. repeat split.
  - reflexivity.
Qed.
Lemma sample_forward_wf {E : Env} : wf_action sample_forward.
Proof. split; [reflexivity|apply sample_config_wf]. Qed.
Lemma sample_indirect_wf {E : Env} : wf_action sample_indirect.
Proof. split; [reflexivity|apply sample_addressee_wf]. Qed.
Lemma sample_query_wf {E : Env} : wf_action sample_query.
Proof.
  split; [reflexivity|]. split; [reflexivity|]. split; [split; [repeat constructor|reflexivity]|].
  split; [split; [repeat constructor|reflexivity]|]. split; reflexivity.
Qed.
Lemma sample_nop_wf {E : Env} : wf_action sample_nop.
Proof. reflexivity. Qed.

(** The samples as commands. *)
Definition sample_command : command := [sample_tag; sample_write; sample_query; sample_forward].
Lemma sample_command_all {E : Env} : Forall wf_action sample_command.
Proof.
  apply Forall_cons; [apply sample_tag_wf|]. apply Forall_cons; [apply sample_write_wf|].
  apply Forall_cons; [apply sample_query_wf|]. apply Forall_cons; [apply sample_forward_wf|]. apply Forall_nil.
Qed.
Lemma sample_command_wf {E : Env} : wf_command sample_command.
Proof.
  split; [apply sample_command_all|]. intros pre a post H Hi. exfalso.
  assert (G : In a sample_command) by (rewrite H; apply in_elt).
  destruct G as [<-|[<-|[<-|[<-|[]]]]]; discriminate.
Qed.
