(** Lemmas for C74: foreground frames written and parsed again. *)
From Coq Require Import List NArith ZArith Bool Lia Arith ZifyBool ZifyNat ZifyN.
From Verif Require Import Base Deku Utils Types Physical Link Network Session Data Query
  Interface File Operation Action Command Frames WellFormed SpecLayout SpecAction SpecApi SpecReturn SpecFrames SpecFrameAgain
  LBits LReader LTypes LUtf8 LLayout LRound LRoundOps LAction LApi LNumbers LNice LNiceFile LNiceOps LCount
  LActionApi LReencode LCommandApi LFail LReturn LWrite LFiles LFrames LFramesW.
Import ListNotations.
Open Scope N_scope.

(** ** Everything parsed can be written *)
Definition writes (w : writer) : Prop := exists l, w = Ok l.
Lemma writes_seq a b : writes a -> writes b -> writes (a +++ b).
Proof. intros (x & ->) (y & ->). eexists. reflexivity. Qed.
Lemma parsed_writes {E : Env} a : parsed_action a -> writes (write_action a).
Proof.
  intros [H|[(l & -> & H)|(_ & v & -> & H)]].
  - destruct (W_action a H) as (G & _). eexists. exact G.
  - destruct (unknown_W l H) as (G & _). eexists. exact G.
  - eexists. exact (tx_written v H).
Qed.
Lemma write_opcode {E : Env} o a : write_action (with_opcode o a) = write_action a.
Proof. destruct a; reflexivity. Qed.
Lemma loop_writes {E : Env} fuel : forall L acc r c r', RWf r -> read_actions fuel L acc r = Ok (c, r') ->
  Forall (fun a => writes (write_action a)) acc -> Forall (fun a => writes (write_action a)) c.
Proof.
  induction fuel as [|fuel IH]; intros L acc r c r' Hr H Ha; [discriminate|].
  cbn [read_actions] in H. unfold bind in H.
  assert (exists ok r1, valid_length L r = Ok (ok, r1) /\ RWf r1) as (ok & r1 & E1 & Hr1).
  { unfold valid_length. destruct (L =? 0).
    - do 2 eexists. split; [reflexivity|exact Hr].
    - unfold bind, stream_position, ret. do 2 eexists. split; [reflexivity|].
      destruct Hr as (R1 & R2 & R3). unfold RWf. cbn [data pos left length]. repeat split; lia. }
  rewrite E1 in H. destruct ok; [|injection H as <- _; exact Ha].
  destruct (at_end_spec r1 Hr1) as (e & r2 & E2 & Hr2 & _). rewrite E2 in H.
  destruct e; [injection H as <- _; exact Ha|]. destruct (last_is_indirect acc); [injection H as <- _; exact Ha|].
  pose proof (Nice_action r2 Hr2) as N8. destruct (read_action r2) as [[a r3]|er|]; try discriminate.
  destruct N8 as (P & R3 & _). refine (IH L (acc ++ [a]) r3 c r' R3 H _). apply Forall_app. split; [exact Ha|].
  constructor; [|constructor]. apply parsed_writes in P. destruct (is_tx_status a); [exact P|].
  rewrite write_opcode in P. exact P.
Qed.
Lemma write_commands {E : Env} c : Forall (fun a => writes (write_action a)) c -> writes (write_command c).
Proof.
  induction 1 as [|a c Ha _ IH]; [eexists; reflexivity|].
  exact (writes_seq _ _ Ha IH).
Qed.
Lemma frame_written {E : Env} d v r : read_fframe (new_reader d) = Ok (v, r) -> exists l, fframe_to_bytes v = Ok l /\ bytes l.
Proof.
  intros H. rewrite read_fframe_eq in H. unfold bind at 1 in H.
  pose proof (Nice_head (new_reader d) (new_RWf d)) as N1.
  destruct (read_head (new_reader d)) as [[h r1]| |]; try discriminate. destruct N1 as ((Hh & Hn) & R1 & _).
  unfold bind in H. destruct (read_command (ff_length h) r1) as [[m r2]| |] eqn:E2; try discriminate.
  destruct (read_native 2 r2) as [[k r3]| |]; try discriminate. unfold ret in H. injection H as <- _.
  assert (G : writes (write_fframe (with_body h m k))).
  { rewrite write_fframe_eq, with_body_command. apply writes_seq; [|apply writes_seq].
    - eexists. exact (F_head h Hh).
    - apply write_commands. eapply loop_writes; [exact R1|exact E2|constructor].
    - destruct (W_native 2 k) as (G & _). eexists. exact G. }
  destruct G as (l & G). exists (bytes_of_bits l). unfold fframe_to_bytes, to_bytes. rewrite G. split; [reflexivity|apply bytes_of_bits_bytes].
Qed.

(** ** Without wizzilab what is parsed is well formed *)
Lemma loop_parsed {E : Env} fuel : e_feat <> Wizzilab -> forall L acc d p n c r', (p <= length d)%nat ->
  read_actions fuel L acc (mkRd d p [] n) = Ok (c, r') -> Forall parsed_action acc -> Forall parsed_action c.
Proof.
  intros Hz. induction fuel as [|fuel IH]; intros L acc d p n c r' Hp H Hacc; [discriminate|].
  pose proof (At_start d p n Hp) as Hr.
  cbn [read_actions] in H. unfold bind at 1 in H. rewrite valid_length_at in H.
  destruct (orb (L =? 0) (N.of_nat p <? L)); [|injection H as <- _; exact Hacc].
  unfold bind at 1 in H. destruct (skipn p d) as [|b t] eqn:Hs.
  - destruct (at_end_nil _ p Hr Hs) as (Ee & _). rewrite Ee in H. injection H as <- _. exact Hacc.
  - destruct (at_end_cons _ p b t Hr Hs) as (r1 & Ee & Er & Hr1). rewrite Ee in H.
    assert (D1 : data r1 = d) by (subst r1; reflexivity).
    destruct (last_is_indirect acc); [injection H as <- _; exact Hacc|].
    unfold bind in H. destruct (read_action r1) as [[a r2]| |] eqn:Ea; try discriminate.
    assert (Hs1 : skipn p (data r1) = b :: t) by (rewrite D1; exact Hs).
    pose proof (no_tx_status r1 p b t a r2 Hz Hr1 Hs1 Ea) as Hta.
    destruct (read_action_moved r1 p b t a r2 Hr1 Hs1 Ea Hta) as (q & Hq & Hr2 & D2 & B2).
    destruct (read_action_parsed r1 p b t a r2 Hr1 Hs1 Ea) as (_ & _ & _ & HP).
    pose proof (read_action_left r1 p b t a r2 Hr1 Hs1 Ea Hta) as L2. rewrite (At_state r2 q Hr2 L2), D2, D1 in H.
    assert (Hqd : (q <= length d)%nat) by (rewrite <- D1, <- D2; apply Hr2).
    eapply IH; [exact Hqd|exact H|]. apply Forall_app. split; [exact Hacc|]. constructor; [exact HP|constructor].
Qed.
Lemma known_wf {E : Env} a : e_feat <> Wizzilab -> parsed_action a -> (forall l, a <> unknown_status l) -> wf_action a.
Proof. intros Hz [H|[(l & -> & _)|(Hw & _)]] K; [exact H| |]; [destruct (K l eq_refl)|contradiction]. Qed.
Lemma with_body_wf {E : Env} h m k : wf_fframe h -> wf_command m -> u16 k -> wf_fframe (with_body h m k).
Proof.
  unfold wf_fframe, wf_nframe, wf_tframe, with_body. cbv zeta.
  cbn [ff_length ff_subnet ff_type ff_eirp ff_target ff_frame ff_crc nf_control nf_hopping nf_access nf_origin nf_frame
    tf_control tf_dialog tf_transaction tf_target_rx tf_listen tf_exec_delay tf_congestion tf_ack tf_command].
  tauto.
Qed.
Lemma frame_wf {E : Env} d v r : e_feat <> Wizzilab -> read_fframe (new_reader d) = Ok (v, r) ->
  known_actions (command_of v) -> wf_fframe v.
Proof.
  intros Hz H K. rewrite read_fframe_eq in H. unfold bind at 1 in H.
  pose proof (Nice_head (new_reader d) (new_RWf d)) as N1.
  destruct (read_head (new_reader d)) as [[h r1]| |] eqn:E1; try discriminate. destruct N1 as ((Hh & Hn) & R1 & _).
  pose proof (Count_head _ _ _ (new_RWf d) E1) as M.
  assert (M0 : moved 0 (new_reader d) r1) by (revert M; unfold head_rest; destruct e_feat; auto; contradiction). clear M.
  pose proof (moved_left _ _ (new_RWf d) eq_refl M0) as L1. destruct M0 as (W1 & D1 & _ & k & B1 & C1).
  cbn [new_reader data bread] in D1, C1. change (BP (new_reader d)) with 0%nat in B1. cbn [Nat.add] in *.
  assert (Er : r1 = mkRd d k [] (8 * k)).
  { destruct r1 as [x y z w]. cbn [left data bread] in *. subst. unfold BP in B1. cbn [pos left length] in B1. f_equal. lia. }
  assert (Hk : (k <= length d)%nat) by (destruct W1 as (W1 & _); rewrite Er in W1; exact W1).
  unfold bind in H. destruct (read_command (ff_length h) r1) as [[m r2]| |] eqn:E2; try discriminate.
  destruct (read_native 2 r2) as [[c r3]| |] eqn:E3; try discriminate. unfold ret in H. injection H as <- _.
  rewrite with_body_command in K. unfold known_actions in K.
  pose proof (read_command_shape _ _ _ _ R1 E2) as Hi.
  pose proof (read_command_safe (ff_length h) r1 R1) as N2. rewrite E2 in N2.
  pose proof (Nice_native 2 (2 ^ 16) eq_refl r2 ltac:(apply N2)) as N3. rewrite E3 in N3.
  apply with_body_wf; [exact Hh| |apply N3].
  split; [|exact Hi]. rewrite Er in E2.
  pose proof (loop_parsed _ Hz _ _ _ _ _ _ _ Hk E2 (Forall_nil _)) as P.
  rewrite Forall_forall in *. intros a Ia. apply known_wf; [exact Hz|exact (P a Ia)|exact (K a Ia)].
Qed.

(** ** Which frames survive *)
Lemma from_reader_0 {A} (m : reader A) d n v : d_from_reader m d 0 = Ok (n, v) <-> exists r, m (new_reader d) = Ok (v, r) /\ bread r = n.
Proof.
  assert (Eq : d_from_reader m d 0 = rbind (m (new_reader d)) (fun x => Ok (bread (snd x), fst x))).
  { unfold d_from_reader, start. reflexivity. }
  rewrite Eq. destruct (m (new_reader d)) as [[x r]| |]; cbn [rbind fst snd]; split; try discriminate.
  - intros H. injection H as <- <-. eauto.
  - intros (r' & H & <-). injection H as <- <-. reflexivity.
  - intros (r' & H & _). discriminate.
  - intros (r' & H & _). discriminate.
Qed.
Lemma frame_again {E : Env} v : e_feat <> Wizzilab -> known_actions (command_of v) ->
  (frame_survives v <-> wf_fframe v /\ loop_stops v).
Proof.
  intros Hz K. split.
  - intros (l & suf & n & Hw & Hs & H). apply from_reader_0 in H. destruct H as (r & H & _).
    pose proof (frame_wf _ _ _ Hz H K) as Hv. split; [exact Hv|].
    rewrite (fframe_bytes v Hv) in Hw. injection Hw as <-.
    destruct (frame_exact v suf Hz Hv) as (_ & H2). destruct (frame_loop v suf Hz Hv) as [(G & _)|(G & _)]; [exact G|].
    exfalso. exact (H2 G r H).
  - intros (Hv & G). destruct (frame_exact v [] Hz Hv) as (H1 & _). destruct (H1 G) as (r & H & _).
    exists (enc_fframe v), [], (bread r). split; [apply fframe_bytes; exact Hv|]. split; [constructor|].
    apply from_reader_0. eauto.
Qed.
Lemma frame_again_wizzilab {E : Env} v : e_feat = Wizzilab -> wf_fframe v -> (frame_survives v <-> all_zero_tail v).
Proof.
  intros Hz Hv. split.
  - intros (l & suf & n & Hw & Hs & H). apply from_reader_0 in H. destruct H as (r & H & _).
    rewrite (fframe_bytes v Hv) in Hw. injection Hw as <-. apply (frame_wizzilab v suf Hz Hv Hs). eauto.
  - intros G. apply (frame_wizzilab v [] Hz Hv (Forall_nil _)) in G. destruct G as (r & H).
    exists (enc_fframe v), [], (bread r). split; [apply fframe_bytes; exact Hv|]. split; [constructor|].
    apply from_reader_0. eauto.
Qed.
Lemma frame_reencode {E : Env} d n v : e_feat <> Wizzilab -> d_from_reader read_fframe d 0 = Ok (n, v) ->
  known_actions (command_of v) -> (frame_survives v <-> loop_stops v).
Proof.
  intros Hz H K. rewrite (frame_again v Hz K). apply from_reader_0 in H. destruct H as (r & H & _).
  pose proof (frame_wf _ _ _ Hz H K). tauto.
Qed.
Lemma frame_writable {E : Env} d n v : d_from_reader read_fframe d 0 = Ok (n, v) -> exists l, fframe_to_bytes v = Ok l /\ bytes l.
Proof. intros H. apply from_reader_0 in H. destruct H as (r & H & _). exact (frame_written _ _ _ H). Qed.

(** ** Frames that do not survive: a number in more bytes than necessary; with wizzilab any checksum
    other than 0. *)
Definition wide_frame {E : Env} : list N :=
  match e_feat with
  | Wizzilab => [1; 1; 66; 16; 20; 0; 12; 14; 1; 1]
  | _ => [13; 1; 66; 16; 10; 0; 6; 7; 0x81; 0; 0x40; 0; 8; 0; 0]
  end.
Definition wide_value {E : Env} : fframe :=
  match e_feat with Wizzilab => small_frame 1 [] 257 | _ => small_frame 13 [read_uid] 0 end.
Lemma wide_read {E : Env} : bytes wide_frame /\ exists n, d_from_reader read_fframe wide_frame 0 = Ok (n, wide_value).
Proof.
  split; [unfold wide_frame; destruct e_feat; repeat constructor|].
  destruct E as [[] [] []]; eexists; vm_compute; reflexivity.
Qed.
Lemma wide_lost {E : Env} : ~ frame_survives wide_value.
Proof.
  intros H. destruct e_feat eqn:F.
  1,2: assert (Hz : e_feat <> Wizzilab) by (rewrite F; discriminate); unfold wide_value in H; rewrite F in H;
    apply (frame_again _ Hz) in H; [|repeat constructor; discriminate]; destruct H as (_ & [H|(H & _)]); [|discriminate H];
    destruct E as [[] [] []]; try discriminate F; vm_compute in H; lia.
  unfold wide_value in H; rewrite F in H. apply frame_again_wizzilab in H; [|exact F|].
  - destruct H as (_ & H & _). discriminate H.
  - apply small_wf; [lia|apply wf_nil|lia].
Qed.
Lemma frame_again_refuted {E : Env} :
  ~ (forall d n v, bytes d -> d_from_reader read_fframe d 0 = Ok (n, v) -> frame_survives v).
Proof. intros H. destruct wide_read as (B & n & Q). exact (wide_lost (H _ _ _ B Q)). Qed.
