(** C28: the byte order of the host. *)
From Coq Require Import List NArith ZArith Bool Lia.
From Verif Require Import Base Deku Utils Types Physical Link Network Session Interface File Operation Action Command
  Frames SpecApi SpecHost LHost.
Import ListNotations.
Open Scope N_scope.

(** What is written depends on it ... *)
Theorem C28_refuted : forall E : Env,
  ~ (forall a, same_bytes (fun E => @write_action E a) E) /\
  ~ (forall f, same_bytes (fun E => @write_bframe E f) E) /\
  ~ (forall f, same_bytes (fun E => @write_file E f) E) /\
  ~ (forall c, same_bytes (fun E => @write_interface_config E c) E) /\
  ~ (forall s, same_bytes (fun E => @write_interface_tx_status E s) E).
Proof. exact host_refuted. Qed.
Print Assumptions C28_refuted.

(** ... exactly when something is written and a field without a declared order is not symmetric ... *)
Theorem C28_exact : forall E : Env,
  (forall f, same_bytes (fun E => @write_file E f) E <->
     unwritable (fun E => @write_file E f) E \/ Forall symmetric (file_natives f)) /\
  (forall c, same_bytes (fun E => @write_interface_config E c) E <->
     unwritable (fun E => @write_interface_config E c) E \/ Forall symmetric (config_natives c)) /\
  (forall s, same_bytes (fun E => @write_interface_tx_status E s) E <->
     unwritable (fun E => @write_interface_tx_status E s) E \/ Forall symmetric (tx_natives s)) /\
  (forall a, same_bytes (fun E => @write_action E a) E <->
     unwritable (fun E => @write_action E a) E \/ Forall symmetric (action_natives a)) /\
  (forall c, same_bytes (fun E => @write_command E c) E <->
     unwritable (fun E => @write_command E c) E \/ Forall symmetric (command_natives c)) /\
  (forall f, same_bytes (fun E => @write_bframe E f) E <->
     unwritable (fun E => @write_bframe E f) E \/ Forall symmetric (bframe_natives f)) /\
  (forall f, same_bytes (fun E => @write_fframe E f) E <->
     unwritable (fun E => @write_fframe E f) E \/ Forall symmetric (fframe_natives f)).
Proof. exact host_exact. Qed.
Print Assumptions C28_exact.

(** ... and then it is what the other machine writes for the value with those fields reversed. *)
Theorem C28_turned_writing : forall E : Env,
  (forall f, to_bytes (@write_file (on Big E) f) = to_bytes (@write_file (on Little E) (turn_file f))) /\
  (forall a, @action_to_bytes (on Big E) a = @action_to_bytes (on Little E) (turn_action a)) /\
  (forall c, @command_to_bytes (on Big E) c = @command_to_bytes (on Little E) (map turn_action c)) /\
  (forall f, @bframe_to_bytes (on Big E) f = @bframe_to_bytes (on Little E) (turn_bframe f)) /\
  (forall f, @fframe_to_bytes (on Big E) f = @fframe_to_bytes (on Little E) (turn_fframe f)).
Proof. exact host_turned_writing. Qed.
Print Assumptions C28_turned_writing.

(** Reading: the same bytes are consumed and accepted, and give the value with those fields reversed. *)
Theorem C28_turned_reading : forall (E : Env) r,
  (forall id n, turned turn_file (@read_file (on Little E) id n r) (@read_file (on Big E) id n r)) /\
  turned turn_config (@read_interface_config (on Little E) r) (@read_interface_config (on Big E) r) /\
  turned turn_action (@read_action (on Little E) r) (@read_action (on Big E) r) /\
  (forall n, turned (map turn_action) (@read_command (on Little E) n r) (@read_command (on Big E) n r)) /\
  turned turn_bframe (@read_bframe (on Little E) r) (@read_bframe (on Big E) r) /\
  turned turn_fframe (@read_fframe (on Little E) r) (@read_fframe (on Big E) r).
Proof. exact host_turned_reading. Qed.
Print Assumptions C28_turned_reading.

(** A background frame with payload 0x0102 and a symmetric checksum. *)
Example C28_example : forall E : Env,
  let f := mkBFrame 0xF1 AtUId 0x16 0x0102 0x0303 in
  @bframe_to_bytes (on Little E) f = Ok [0xF1; 0x96; 2; 1; 3; 3] /\
  @bframe_to_bytes (on Big E) f = Ok [0xF1; 0x96; 1; 2; 3; 3] /\
  turn_bframe f = mkBFrame 0xF1 AtUId 0x16 0x0201 0x0303 /\
  symmetric (2%nat, 0x0303) /\ ~ symmetric (2%nat, 0x0102) /\
  same_bytes (fun E => @write_action E (ANop (mkNop (mkHeader true false) 0))) E.
Proof. intros [[] [] []]; repeat split; intros H; vm_compute in H; discriminate. Qed.
