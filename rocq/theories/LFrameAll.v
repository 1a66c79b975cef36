(** Lemmas for C74: foreground frames that need not be well formed. *)
From Coq Require Import List NArith ZArith Bool Lia Arith ZifyBool ZifyNat ZifyN.
From Verif Require Import Base Deku Utils Types Physical Link Network Session Data Query
  Interface File Operation Action Command Frames WellFormed SpecLayout SpecAction SpecApi SpecReturn SpecExact SpecFrames SpecFrameAgain
  LBits LReader LTypes LUtf8 LLayout LRound LRoundOps LAction LApi LNumbers LNice LNiceFile LNiceOps LCount
  LActionApi LReencode LCommandApi LCommandMore LFail LReturn LWrite LExact LFiles LFrames LFramesW LFrameAgain.
Import ListNotations.
Open Scope N_scope.

(** ** Parsed frames *)
Definition head_wf {E : Env} (v : fframe) : Prop := wf_fframe (without_command v).
Lemma head_wf_body {E : Env} h m k : wf_fframe h -> u16 k -> head_wf (with_body h m k).
Proof. intros H1 H2. apply (with_body_wf h [] k H1); [apply wf_nil|exact H2]. Qed.
Lemma frame_parsed {E : Env} d v r : e_feat <> Wizzilab -> read_fframe (new_reader d) = Ok (v, r) ->
  head_wf v /\ Forall parsed_action (command_of v) /\ indirect_last (command_of v).
Proof.
  intros Hz H. rewrite read_fframe_eq in H. unfold bind at 1 in H.
  pose proof (Nice_head (new_reader d) (new_RWf d)) as N1.
  destruct (read_head (new_reader d)) as [[h r1]| |] eqn:E1; try discriminate. destruct N1 as ((Hh & Hn) & R1 & _).
  pose proof (Count_head _ _ _ (new_RWf d) E1) as M.
  assert (M0 : moved 0 (new_reader d) r1) by (revert M; unfold head_rest; destruct e_feat; auto; contradiction). clear M.
  pose proof (moved_left _ _ (new_RWf d) eq_refl M0) as L1. destruct M0 as (W1 & D1 & _ & k & B1 & C1).
  cbn [new_reader data bread] in D1, C1. change (BP (new_reader d)) with 0%nat in B1. cbn [Nat.add] in *.
  assert (Er : r1 = mkRd d k [] (8 * k)).
  { destruct r1 as [x y z w]. cbn [left data bread] in *. subst. unfold BP in B1. cbn [pos left length] in B1. f_equal. lia. }
  assert (Hk : (k <= length d)%nat) by (destruct W1 as (W1 & _); rewrite Er in W1; exact W1).
  unfold bind in H. destruct (read_command (ff_length h) r1) as [[m r2]| |] eqn:E2; try discriminate.
  destruct (read_native 2 r2) as [[c r3]| |] eqn:E3; try discriminate. unfold ret in H. injection H as <- _.
  rewrite with_body_command.
  pose proof (read_command_shape _ _ _ _ R1 E2) as Hi.
  pose proof (read_command_safe (ff_length h) r1 R1) as N2. rewrite E2 in N2.
  pose proof (Nice_native 2 (2 ^ 16) eq_refl r2 ltac:(apply N2)) as N3. rewrite E3 in N3.
  split; [apply head_wf_body; [exact Hh|apply N3]|]. split; [|exact Hi].
  rewrite Er in E2. exact (loop_parsed _ Hz _ _ _ _ _ _ _ Hk E2 (Forall_nil _)).
Qed.

(** ** Without wizzilab *)
Lemma survives_sound {E : Env} a : action_survives a -> readable a /\ W (write_action a) (enc_action a).
Proof.
  intros H. apply action_exact in H as [H|(l & -> & H & He & Hc)].
  - split; [apply wf_readable; exact H|apply W_action; exact H].
  - split; [|rewrite unknown_enc; apply unknown_W; exact H].
    apply parses_readable; [discriminate|]. rewrite unknown_enc. apply unknown_parses; assumption.
Qed.
Lemma unknown_clash_at {E : Env} l s r p r' : wf_payload l -> At r p ->
  skipn p (data r) = enc_action (unknown_status l) ++ s -> read_action r = Ok (unknown_status l, r') ->
  ~ clashes (N.of_nat (length l)).
Proof.
  intros (Hb & Hl) Hr Hs H. rewrite unknown_enc in Hs. cbn [app] in Hs. rewrite <- app_assoc in Hs.
  set (k := N.of_nat (length l)) in *.
  rewrite (read_status_62 _ p (enc_length k ++ l ++ s) Hr Hs) in H.
  destruct (enc_length_first k Hl) as (x & t & Ex & Hx & HT).
  destruct (skipn_cons_nth _ _ _ _ Hs) as (_ & Hs1 & Hlt).
  assert (Hp1 : (S p <= length (data r))%nat) by lia.
  unfold read_itf_status_op, bind at 1 in H.
  rewrite (read_interface_type_cons (data r) (S p) (bread r + 16) x (t ++ l ++ s)) in H; [|exact Hp1|rewrite Hs1, Ex; reflexivity|exact Hx].
  destruct (assoc x interface_type_tbl) as [ty|] eqn:Ha; [|apply HT; reflexivity].
  exfalso. assert (ty = ItUnknown).
  { unfold bind in H. destruct (read_length _) as [[n r2]| |]; try discriminate.
    destruct (read_interface_status _ _ _) as [[z r3]| |]; try discriminate.
    injection H as H _. unfold unknown_status in H. congruence. }
  subst ty. cbn [assoc interface_type_tbl] in Ha.
  repeat (destruct (N.eqb _ _); [discriminate|]). discriminate.
Qed.
(** The loop returns the actions it was given only if each of them is read back. *)
Lemma loop_survives {E : Env} c : forall fuel L acc d p n t r, e_feat <> Wizzilab ->
  e_rewind = true \/ known_actions c -> Forall parsed_action c -> (p <= length d)%nat ->
  skipn p d = enc_command c ++ t ->
  read_actions fuel L acc (mkRd d p [] n) = Ok (acc ++ c, r) -> Forall action_survives c.
Proof.
  induction c as [|a c IH]; intros fuel L acc d p n t r Hz He Hpa Hp Hs H; [constructor|].
  apply Forall_cons_iff in Hpa as (Pa & Pc).
  assert (Hec : e_rewind = true \/ known_actions c) by (destruct He as [He|He]; [left; exact He|right; apply Forall_cons_iff in He; apply He]).
  cbn [enc_command flat_map] in Hs. fold (enc_command c) in Hs. rewrite <- app_assoc in Hs.
  assert (Hne : (exists b u, enc_action a = b :: u) /\ is_tx_status a = false).
  { destruct Pa as [Pa|[(l & -> & _)|(Q & _)]]; [|split; [eexists _, _|]; reflexivity|contradiction].
    split; [exact (readable_first a (wf_readable a Pa))|]. apply (stored_is_opcode a Pa). }
  destruct Hne as ((b & u & Eb) & Ht).
  assert (Hs' : skipn p d = b :: (u ++ enc_command c ++ t)) by (rewrite Hs, Eb; reflexivity).
  destruct fuel as [|fuel]; [discriminate|].
  assert (Len : forall x y : command, acc ++ x = acc ++ y -> x = y) by (intros x y; apply app_inv_head).
  cbn [read_actions] in H. unfold bind at 1 in H. rewrite valid_length_at in H.
  destruct (orb (L =? 0) (N.of_nat p <? L)).
  2: { assert (Q : acc ++ [] = acc ++ a :: c) by (unfold ret in H; rewrite app_nil_r; congruence). apply Len in Q. discriminate. }
  destruct (at_end_cons _ p b _ (At_start d p n Hp) Hs') as (r1 & Ee & Er & Hr1).
  unfold bind at 1 in H. rewrite Ee in H. cbv iota in H.
  destruct (last_is_indirect acc) eqn:Hl.
  { assert (Q : acc ++ [] = acc ++ a :: c) by (unfold ret in H; rewrite app_nil_r; congruence). apply Len in Q. discriminate. }
  assert (D1 : data r1 = d) by (subst r1; reflexivity).
  unfold bind in H. pose proof (Nice_action r1 (proj1 Hr1)) as N8.
  destruct (read_action r1) as [[a' r3]|er|] eqn:Ea; try discriminate.
  destruct (read_actions_prefix _ _ _ _ _ _ ltac:(apply N8) H) as (new & Hnew).
  assert (a' = a /\ new = c) as (-> & ->).
  { rewrite <- app_assoc in Hnew. apply Len in Hnew. cbn [app] in Hnew. injection Hnew as -> ->. auto. }
  assert (Sa : action_survives a).
  { apply action_exact. destruct Pa as [Pa|[(l & -> & Pa)|(Q & _)]]; [left; exact Pa| |contradiction].
    right. exists l. split; [reflexivity|]. split; [exact Pa|]. split.
    - destruct He as [He|He]; [exact He|]. apply Forall_cons_iff in He as (He & _). contradiction (He l). reflexivity.
    - eapply (unknown_clash_at l _ r1 p r3 Pa Hr1); [rewrite D1; exact Hs|exact Ea]. }
  constructor; [exact Sa|].
  destruct (survives_sound a Sa) as ((_ & Hrd) & _).
  rewrite (Hrd r1 p _ Hr1) in Ea by (rewrite D1; exact Hs). injection Ea as <-. rewrite D1 in H.
  destruct (skipn_app_eq p d (enc_action a) _ Hp Hs) as (Hs1 & Hp1).
  replace (acc ++ a :: c) with ((acc ++ [a]) ++ c) in H by (rewrite <- app_assoc; reflexivity).
  exact (IH fuel L (acc ++ [a]) d _ _ t r Hz Hec Pc Hp1 Hs1 H).
Qed.
Lemma without_body v : without_command v = with_body v [] (ff_crc v).
Proof. reflexivity. Qed.
Lemma parsed_laid {E : Env} a : e_feat <> Wizzilab -> parsed_action a -> W (write_action a) (enc_action a).
Proof.
  intros Hz [H|[(l & -> & H)|(Q & _)]]; [apply W_action; exact H|rewrite unknown_enc; apply unknown_W; exact H|contradiction].
Qed.
Lemma frame_all {E : Env} v : e_feat <> Wizzilab -> e_rewind = true \/ known_actions (command_of v) ->
  (frame_survives v <-> wf_fframe (without_command v) /\ Forall action_survives (command_of v) /\ indirect_last (command_of v) /\
     loop_stops v).
Proof.
  intros Hz He. split.
  - intros (l & suf & n & Hw & Hs & H). apply from_reader_0 in H. destruct H as (r & H & _).
    destruct (frame_parsed _ _ _ Hz H) as (Hh & Hp & Hi). unfold head_wf in Hh. split; [exact Hh|].
    assert (Hl : laid v).
    { split; [exact Hh|]. revert Hp. apply Forall_impl. intros a. apply parsed_laid. exact Hz. }
    rewrite (laid_bytes v Hl) in Hw. injection Hw as <-.
    assert (Sv : Forall action_survives (command_of v)).
    { rewrite read_fframe_eq in H. unfold bind at 1 in H. rewrite (laid_head_read v suf Hz Hl) in H.
      destruct (laid_fframe_split v Hz Hl) as (Es & El & _).
      set (d := enc_fframe v ++ suf) in *. unfold bind in H. unfold read_command in H. cbn [data] in H.
      destruct (read_actions _ _ _ _) as [[m r1]|e|] eqn:Ea; try discriminate.
      destruct (read_native 2 r1) as [[k r2]|e|] eqn:En; try discriminate. unfold ret in H.
      assert (Q : with_body (with_body v [] 0) m k = v) by congruence.
      assert (m = command_of v) by (rewrite <- Q; reflexivity). subst m.
      change (ff_length (with_body v [] 0)) with (ff_length v) in Ea. change (command_of v) with ([] ++ command_of v) in Ea.
      assert (Hd : d = header_bytes v ++ enc_command (command_of v) ++ enc_native 2 (ff_crc v) ++ suf).
      { unfold d. rewrite Es, <- !app_assoc. reflexivity. }
      refine (loop_survives (command_of v) _ _ [] d _ _ (enc_native 2 (ff_crc v) ++ suf) r1 Hz He Hp _ _ Ea).
      - rewrite Hd, app_length. lia.
      - rewrite Hd, skipn_app, <- El, Nat.sub_diag, skipn_all. reflexivity. }
    split; [exact Sv|]. split; [exact Hi|].
    assert (So : sound v).
    { split; [exact Hl|]. split; [|exact Hi]. revert Sv. apply Forall_impl. intros a Ha. apply (survives_sound a Ha). }
    destruct (sound_frame_exact v suf Hz So) as (_ & H2). destruct (sound_frame_loop v suf Hz So) as [(G & _)|(G & _)]; [exact G|].
    exfalso. exact (H2 G r H).
  - intros (Hh & Sv & Hi & G).
    assert (So : sound v).
    { split; [split; [exact Hh|]|split; [|exact Hi]]; revert Sv; apply Forall_impl; intros a Ha; apply (survives_sound a Ha). }
    destruct (sound_frame_exact v [] Hz So) as (H1 & _). destruct (H1 G) as (r & H & _).
    exists (enc_fframe v), [], (bread r). split; [apply laid_bytes; apply So|]. split; [constructor|].
    apply from_reader_0. eauto.
Qed.
Lemma reencodable_survives {E : Env} a : e_feat <> Wizzilab -> parsed_action a -> (reencodable a <-> action_survives a).
Proof.
  intros Hz Hp. rewrite action_exact. split.
  - intros Hr. destruct Hp as [H|[(l & -> & H)|(Q & _)]]; [left; exact H| |contradiction].
    right. exists l. destruct Hr as (He & Hc). repeat split; try assumption; apply H.
  - intros [H|(l & -> & H & He & Hc)]; [|split; assumption].
    destruct a; try exact I; [|destruct H].
    destruct v as [ty op [s|s|s]]; try exact I. destruct s as [[] s]; try exact I. destruct s; try exact I.
    exfalso. cbn [wf_action] in H. unfold wf_status_operand in H. cbn in H. destruct H as (_ & H). destruct ty; exact H.
Qed.
Lemma frame_reencode_all {E : Env} d n v : e_feat <> Wizzilab -> e_rewind = true -> d_from_reader read_fframe d 0 = Ok (n, v) ->
  (frame_survives v <-> Forall reencodable (command_of v) /\ loop_stops v).
Proof.
  intros Hz He H. rewrite (frame_all v Hz (or_introl He)). apply from_reader_0 in H. destruct H as (r & H & _).
  destruct (frame_parsed _ _ _ Hz H) as (Hh & Hp & Hi).
  assert (Q : Forall reencodable (command_of v) <-> Forall action_survives (command_of v)).
  { rewrite !Forall_forall in *. split; intros G a Ia; specialize (G a Ia); apply (reencodable_survives a Hz (Hp a Ia)); exact G. }
  rewrite Q. unfold head_wf in Hh. tauto.
Qed.
