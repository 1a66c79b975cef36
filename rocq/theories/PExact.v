(** C56, C57: exactly which values survive being written and parsed again. *)
From Coq Require Import List NArith ZArith Bool.
From Verif Require Import Base Deku Utils Types Physical Link Network Session Data Query Interface File
  Operation Action Command WellFormed SpecLayout SpecApi SpecAction SpecExact Samples LExact LLagUse.
Import ListNotations.
Open Scope N_scope.

(** An action can be written and parsed again without change exactly if it is well formed, or is a
    status of an unknown interface whose length byte is not the id of a known interface.  The
    second case needs the id byte to be given back to the stream when it is not recognised. *)
Theorem C56_action : forall (E : Env) a, action_survives a <->
  wf_action a \/ exists l, a = unknown_status l /\ wf_payload l /\ e_rewind = true /\ ~ clashes (N.of_nat (length l)).
Proof. exact @action_exact. Qed.
Print Assumptions C56_action.

(** A write of file data survives, an indirect forward whose flag does not say that an address
    follows does not; the status of an unknown interface survives with five bytes, not with three. *)
Example C56_example :
  @action_survives env_wizzilab sample_write /\
  ~ @action_survives env_wizzilab (AIndirectForward (mkIndirectForward false false 51 (Some (IiDash7 sample_addressee)))) /\
  @action_survives env_spec (sample_unknown [1; 2; 3; 4; 5]) /\
  ~ @action_survives env_spec (sample_unknown [1; 2; 3]).
Proof.
  repeat split.
  - exists [0x44; 0x40; 0x41; 0x2C; 3; 1; 2; 3]. split; vm_compute; reflexivity.
  - intros (l & H & T). vm_compute in H. injection H as <-. vm_compute in T. discriminate.
  - exists [0x62; 5; 1; 2; 3; 4; 5]. split; vm_compute; reflexivity.
  - intros (l & H & T). vm_compute in H. injection H as <-. vm_compute in T. discriminate.
Qed.

(** A command survives exactly if each of its actions does and an indirect forward only comes last. *)
Theorem C57_command : forall (E : Env) c, command_survives c <->
  Forall action_survives c /\ forall pre a post, c = pre ++ a :: post -> is_indirect a = true -> post = [].
Proof. exact @command_exact_any. Qed.
Print Assumptions C57_command.

(** Without statuses of unknown interfaces these are the well-formed commands of C12. *)
Theorem C57_command_known : forall (E : Env) c, Forall (fun a => forall l, a <> unknown_status l) c ->
  (command_survives c <-> wf_command c).
Proof. exact @command_known. Qed.
Print Assumptions C57_command_known.

(** They are too where the id of an unknown interface is not put back. Its status is then read from
    one byte more than it is written in, and nothing behind it makes up for that byte: not the
    files of C75, which are written longer than they are read, either. *)
Theorem C57_not_put_back : forall (E : Env) c, e_rewind = false -> (command_survives c <-> wf_command c).
Proof. exact @none_put_back. Qed.
Print Assumptions C57_not_put_back.

(** A tag before an indirect forward survives, an action behind one does not. *)
Example C57_example :
  @command_survives env_wizzilab [sample_tag; sample_indirect] /\
  ~ @command_survives env_wizzilab [sample_indirect; sample_tag].
Proof.
  split.
  - eexists. split; [vm_compute; reflexivity|]. vm_compute. reflexivity.
  - intros (l & H & T). vm_compute in H. injection H as <-. vm_compute in T. discriminate.
Qed.

(** Five bytes of an unknown interface are written in seven bytes and read from eight. *)
Example C57_example_unknown : let E := env_subiot in
  command_to_bytes [sample_unknown [5; 5; 5; 5; 5]] = Ok [0x62; 5; 5; 5; 5; 5; 5] /\
  command_try_from [0x62; 5; 5; 5; 5; 5; 5] = Err EIncomplete /\
  command_try_from [0x62; 5; 5; 5; 5; 5; 5; 5] = Ok [sample_unknown [5; 5; 5; 5; 5]].
Proof. vm_compute. repeat split. Qed.
