(** Lemmas for C58 and C59. *)
From Coq Require Import List NArith ZArith Bool Lia.
From Verif Require Import Base Deku Utils Types Physical Link Network Session Data Query Interface File
  Operation Action Command Construct WellFormed SpecLayout SpecApi SpecReturn SpecAction SpecExact Samples
  LBits LReader LLayout LRound LApi LCount LReturn LExact.
Import ListNotations.
Open Scope N_scope.

Lemma survives_known {E : Env} a : (forall l, a <> unknown_status l) -> (action_survives a <-> wf_action a).
Proof.
  intros H. rewrite action_exact. split; [|intros; left; assumption].
  intros [Hw|(l & -> & _)]; [exact Hw|]. contradiction (H l). reflexivity.
Qed.
Ltac known := rewrite survives_known by (intros l; discriminate); cbn [wf_action].

Lemma update_nothing {E : Env} : exists v a,
  action_update (AIndirectForward v) = Ok a /\ ~ action_survives a /\
  action_survives (AIndirectForward (indirect_forward_update v)).
Proof.
  exists (mkIndirectForward false false 51 (Some IiHost)), (AIndirectForward (mkIndirectForward false false 51 (Some IiHost))).
  split; [reflexivity|]. split.
  - known. intros (_ & H). exact H.
  - known. split; [reflexivity|exact I].
Qed.
Lemma update_query_nothing {E : Env} : exists z h q,
  query_update (QCmpZero z) = Ok q /\ action_query_update (mkActionQuery h 8 q) = Ok (mkActionQuery h 8 q) /\
  ~ action_survives (AActionQuery (mkActionQuery h 8 q)) /\
  action_survives (AActionQuery (mkActionQuery h 8 (QCmpZero (cmp_zero_update z)))).
Proof.
  exists (mkCmpZero false (mkArithParams false CmpEqual) 0 [7] (mkFileOffset 0x40 0)), (mkHeader false false),
    (QCmpZero (mkCmpZero false (mkArithParams false CmpEqual) 0 [7] (mkFileOffset 0x40 0))).
  split; [reflexivity|]. split; [reflexivity|]. split.
  - known. intros (_ & _ & (_ & H) & _). discriminate.
  - known. repeat split. repeat constructor.
Qed.
Lemma update_config_nothing {E : Env} : exists v c r,
  dash7_config_update v = Ok c /\ forward_update (mkForward r 50 (IcDash7 c)) = Ok (mkForward r 50 (IcDash7 c)) /\
  ~ action_survives (AForward (mkForward r 50 (IcDash7 c))) /\
  action_survives (AForward (mkForward r 50 (IcDash7 (mkDash7Config (dc_qos v) (dc_dormant v) (dc_exec_delay v)
    (addressee_update (dc_addressee v)))))).
Proof.
  set (v := mkDash7Config (mkQos false false RtNo RmNo) (mkVarInt 0 false) (mkVarInt 0 false)
              (mkAddressee GcAny AtNoId false NlsNone (mkAccessClass 0 0) (VId 5) NsNone)).
  exists v, v, false. split; [reflexivity|]. split; [reflexivity|]. split.
  - known. intros (_ & _ & _ & _ & (_ & H & _)). exact H.
  - known. repeat split; try (right; split; reflexivity); try reflexivity;
    try (exists 0, 0; repeat split; reflexivity).
Qed.

Definition fits {E : Env} (c : option indirect_interface) : Prop :=
  match c with Some i => wf_indirect_interface i | None => True end.
Lemma indirect_updated {E : Env} v : action_survives (AIndirectForward (indirect_forward_update v)) <->
  if_opcode v = 51 /\ match if_config v with Some i => wf_indirect_interface i | None => True end.
Proof.
  known. unfold indirect_forward_update, wf_indirect_forward. cbn [if_opcode if_overloaded if_config].
  destruct (if_config v); reflexivity.
Qed.
Lemma address_kind_matches a : address_matches (address_kind a) a.
Proof. destruct a; exact I. Qed.
Lemma nls_kind_matches s : nls_matches (nls_state_method s) s.
Proof. destruct s; exact I. Qed.
Lemma addressee_updated {E : Env} v : wf_addressee (addressee_update v) <->
  (e_feat = Wizzilab \/ (ad_group v = GcAny /\ ad_use_vid v = false)) /\
  wf_access_class (ad_access v) /\ wf_address (ad_address v) /\ wf_nls_state (ad_state v).
Proof.
  unfold wf_addressee, addressee_update. cbn [ad_group ad_type ad_use_vid ad_nls ad_access ad_address ad_state].
  pose proof (address_kind_matches (ad_address v)). pose proof (nls_kind_matches (ad_state v)). tauto.
Qed.
Lemma forward_updated {E : Env} r c : action_survives (AForward (forward_new r (IcDash7 (mkDash7Config (dc_qos c) (dc_dormant c) (dc_exec_delay c)
    (addressee_update (dc_addressee c)))))) <->
  wf_varint (dc_dormant c) /\ wf_varint (dc_exec_delay c) /\ (e_feat = Subiot -> dc_exec_delay c = mkVarInt 0 false) /\
  (e_feat = Wizzilab \/ (ad_group (dc_addressee c) = GcAny /\ ad_use_vid (dc_addressee c) = false)) /\
  wf_access_class (ad_access (dc_addressee c)) /\ wf_address (ad_address (dc_addressee c)) /\ wf_nls_state (ad_state (dc_addressee c)).
Proof.
  known. unfold wf_forward, forward_new. cbn [fw_opcode fw_config wf_interface_config]. unfold wf_dash7_config.
  cbn [dc_dormant dc_exec_delay dc_addressee]. rewrite addressee_updated. tauto.
Qed.

(** Constructors. *)
Lemma forward_built {E : Env} r c : action_survives (AForward (forward_new r c)) <-> wf_interface_config c.
Proof. known. unfold wf_forward, forward_new. cbn [fw_opcode fw_config]. tauto. Qed.
Lemma indirect_built {E : Env} r c : action_survives (AIndirectForward (indirect_forward_new r c)) <->
  match c with Some i => wf_indirect_interface i | None => True end.
Proof. known. unfold wf_indirect_forward, indirect_forward_new. cbn [if_opcode if_overloaded if_config]. destruct c; tauto. Qed.
Lemma addressee_built {E : Env} u g a s c : wf_addressee (addressee_new u g a s c) <->
  (e_feat = Wizzilab \/ (g = GcAny /\ u = false)) /\ wf_access_class c /\ wf_address a /\ wf_nls_state s.
Proof. exact (addressee_updated (mkAddressee g AtNoId u NlsNone c a s)). Qed.
Lemma file_data_built {E : Env} h o f op :
  (action_survives (AWriteFileData (file_data_new h o f op)) <-> op = 4 /\ wf_file_offset o /\ wf_file (fo_file_id o) f) /\
  (action_survives (AWriteFileDataFlush (file_data_new h o f op)) <-> op = 5 /\ wf_file_offset o /\ wf_file (fo_file_id o) f) /\
  (action_survives (AReturnFileData (file_data_new h o f op)) <-> op = 32 /\ wf_file_offset o /\ wf_file (fo_file_id o) f).
Proof. split; [|split]; known; unfold wf_file_data, file_data_new; cbn [fd_opcode fd_offset fd_data]; reflexivity. Qed.
Lemma file_data_other {E : Env} : exists h o l, bytes l /\ wf_file_offset o /\
  (exists b, action_to_bytes (AWriteFileData (file_data_new h o (FOther l) 4)) = Ok b /\
     action_try_from b <> Ok (AWriteFileData (file_data_new h o (FOther l) 4))).
Proof.
  exists (mkHeader false false), (mkFileOffset 6 0), [1; 2]. split; [repeat constructor|]. split; [split; reflexivity|].
  exists [4; 6; 0; 2; 1; 2]. split; [reflexivity|]. intros H.
  assert (S : action_survives (AWriteFileData (file_data_new (mkHeader false false) (mkFileOffset 6 0) (FOther [1; 2]) 4)))
    by (exists [4; 6; 0; 2; 1; 2]; split; [reflexivity|exact H]).
  apply file_data_built in S as (_ & _ & S & _). apply S. cbn. tauto.
Qed.
Lemma chunk_built {E : Env} s : action_survives (AChunk (chunk_step_into s)).
Proof. known. reflexivity. Qed.
Lemma nop_built {E : Env} g r : action_survives (ANop (mkNop (header_new g r) 0)).
Proof. known. reflexivity. Qed.
Lemma status_built {E : Env} s : action_survives (AStatus (status_into_operand s)) <->
  match s with
  | StatusAction v => u8 (as_action_id v) /\ u8 (as_status v)
  | StatusInterface (mkItfStatusOp ItUnknown (IsOther l)) => wf_payload l /\ e_rewind = true /\ ~ clashes (N.of_nat (length l))
  | StatusInterface v => wf_itf_status_op v
  | StatusInterfaceFinal v => e_feat = Wizzilab /\ wf_itf_final_op v
  end.
Proof.
  destruct s as [v|v|v].
  - known. unfold wf_status_operand, status_into_operand. cbn [status_kind so_type so_opcode so_status]. tauto.
  - assert (K : (exists l, v = mkItfStatusOp ItUnknown (IsOther l)) \/ forall l, v <> mkItfStatusOp ItUnknown (IsOther l)).
    { destruct v as [[] []]; try (right; intros; discriminate). left. eexists. reflexivity. }
    destruct K as [(l & ->)|K].
    + rewrite action_exact. split.
      * intros [(_ & H)|(p & H & R)]; [destruct H|]. injection H as ->. exact R.
      * intros R. right. exists l. split; [reflexivity|exact R].
    + rewrite survives_known by (intros l H; injection H as ->; contradiction (K l); reflexivity).
      cbn [wf_action]. unfold wf_status_operand, status_into_operand. cbn [status_kind so_type so_opcode so_status].
      destruct v as [[] []]; try tauto. contradiction (K l). reflexivity.
  - known. unfold wf_status_operand, status_into_operand. cbn [status_kind so_type so_opcode so_status]. tauto.
Qed.
Lemma final_from s : itf_final_op_from s = Panic <-> exists l, s = FinOther l.
Proof. destruct s; split; try discriminate; [intros (l & H); discriminate|intros _; eexists; reflexivity|reflexivity]. Qed.
Lemma tx_from s : itf_tx_op_from s = Panic <-> exists l, s = TxOther l.
Proof. destruct s; split; try discriminate; [intros (l & H); discriminate|intros _; eexists; reflexivity|reflexivity]. Qed.
Lemma final_built {E : Env} s v : itf_final_op_from s = Ok v ->
  (action_survives (AStatus (status_into_operand (itf_final_op_into v))) <-> e_feat = Wizzilab).
Proof.
  destruct s; [|discriminate]. intros H. injection H as <-. unfold itf_final_op_into. rewrite status_built.
  unfold wf_itf_final_op. cbn [ifo_status ifo_id]. tauto.
Qed.
Lemma channel_header_last v : W (write_channel_header v) [enc_channel_header v].
Proof. unfold write_channel_header, enc_channel_header. flat. pk. Qed.
Lemma access_class_last v : wf_access_class v -> W (write_access_class v) [enc_access_class v].
Proof. intros (H1 & H2). unfold write_access_class, enc_access_class. flat. pk. Qed.
Lemma parts_built i b c d : u8 i ->
  transfers (write_file_offset (file_offset_no_offset i)) read_file_offset [i; 0] (file_offset_no_offset i) /\
  transfers (write_access_class access_class_unavailable) read_access_class [0xFF] access_class_unavailable /\
  transfers (write_channel_header (channel_header_new b c d)) read_channel_header
    [16 * code_band b + 4 * code_class c + code_coding d] (channel_header_new b c d).
Proof.
  intros Hi. assert (O : wf_file_offset (file_offset_no_offset i)) by (split; [exact Hi|reflexivity]).
  assert (U : wf_access_class access_class_unavailable) by (split; reflexivity). split; [|split].
  - apply transfers_of; [|apply Count_A, Count_file_offset]. apply RT_round_trips_as; [exact (W_file_offset _ O)|exact (RT_file_offset _ O)].
  - apply transfers_of; [|apply Count_A, Count_access_class]. apply RT_round_trips_as; [exact (access_class_last _ U)|exact (RT_access_class _ U)].
  - apply transfers_of; [|apply Count_A, Count_channel_header].
    replace (16 * code_band b + 4 * code_class c + code_coding d) with (enc_channel_header (channel_header_new b c d)) by (destruct b, c, d; reflexivity).
    apply RT_round_trips_as; [apply channel_header_last|apply RT_channel_header].
Qed.

(** ** What the constructors put where *)
Lemma header_bytes {E : Env} g r : action_to_bytes (ANop (mkNop (header_new g r) 0)) = Ok [128 * b2n g + 64 * b2n r].
Proof. destruct g, r; reflexivity. Qed.
Lemma access_class_built s m : s < 16 -> m < 16 ->
  transfers (write_access_class (access_class_new s m)) read_access_class [16 * s + m] (access_class_new s m).
Proof.
  intros Hs Hm. assert (U : wf_access_class (access_class_new s m)) by (split; assumption).
  replace (16 * s + m) with (enc_access_class (access_class_new s m)).
  - apply transfers_of; [|apply Count_A, Count_access_class].
    apply RT_round_trips_as; [exact (access_class_last _ U)|exact (RT_access_class _ U)].
  - unfold enc_access_class, access_class_new, pack. cbn [ac_specifier ac_mask fold_left fst snd].
    change (2 ^ 4) with 16. lia.
Qed.
Lemma tx_built s v : itf_tx_op_from s = Ok v -> v = (0xD7, s).
Proof. destruct s; [|discriminate]. intros H. injection H as <-. reflexivity. Qed.
Lemma itf_status_built {E : Env} v : (forall l, v <> mkItfStatusOp ItUnknown (IsOther l)) ->
  (action_survives (AStatus (status_into_operand (itf_status_op_into v))) <-> wf_itf_status_op v).
Proof.
  intros H. unfold itf_status_op_into. rewrite status_built. destruct v as [[] []]; try reflexivity.
  exfalso. eapply H. reflexivity.
Qed.
