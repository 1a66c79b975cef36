(** Which values survive being written and read again with a default context. *)
From Coq Require Import List NArith ZArith Bool Lia ZifyBool ZifyNat ZifyN Arith.
From Verif Require Import Base Deku Utils Types Physical Link Network Session Data Query
  Interface File Operation Action Command Frames DefaultCtx SpecDecode SpecFrameDecode SpecDefaultCtx LDecode LDecodeOps LDecodeLoop LDecodeFrame LDefaultCtx
  WellFormed SpecLayout SpecAction SpecApi SpecReturn SpecFrames
  LBits LReader LTypes LUtf8 LLayout LRound LRoundOps LAction LApi LNumbers LNice LNiceFile LNiceOps LCount
  LActionApi LReencode LCommandApi LFail LReturn LWrite LFiles LFrames LFramesW.
Import ListNotations.
Open Scope N_scope.

(** ** Layout *)
Definition write_thead (v : tframe) : writer :=
  write_tcontrol (tf_control v) +++ write_u8 (tf_dialog v) +++ write_u8 (tf_transaction v)
  +++ write_opt write_u8 (tf_target_rx v) +++ write_opt write_varint (tf_listen v)
  +++ write_opt write_varint (tf_exec_delay v) +++ write_opt write_varint (tf_congestion v)
  +++ write_opt write_ack (tf_ack v).
Definition write_nhead {E : Env} (v : nframe) : writer :=
  write_ncontrol (nf_control v) +++ write_opt write_hopping (nf_hopping v)
  +++ write_access_class (nf_access v) +++ write_address (nf_origin v) +++ write_thead (nf_frame v).
Lemma write_tframe_eq {E : Env} v : write_tframe v = write_thead v +++ write_command (tf_command v).
Proof. unfold write_tframe, write_thead. rewrite !wseq_assoc. reflexivity. Qed.
Lemma write_nframe_eq {E : Env} v : write_nframe v = write_nhead v +++ write_command (tf_command (nf_frame v)).
Proof. unfold write_nframe, write_nhead. rewrite write_tframe_eq, !wseq_assoc. reflexivity. Qed.

Definition thead_fields (v : tframe) : list (N * N) := tcontrol_fields (tf_control v) ++ transport_fields v.
Definition nhead_fields {E : Env} (v : nframe) : list (N * N) :=
  ncontrol_fields (nf_control v) ++ network_fields v ++ thead_fields (nf_frame v).
Lemma F_thead {E : Env} v : wf_tframe v -> F (write_thead v) (thead_fields v).
Proof.
  intros (K1 & K2 & K3 & K4 & K5 & K6 & K7 & K8). unfold write_thead, thead_fields, transport_fields. cbn [app].
  apply F_app; [apply F_tcontrol|]. apply F_cons; [apply F_u8|]. apply F_cons; [apply F_u8|].
  apply F_app; [apply (F_opt _ _ _ _ _ K3), W_u8_last|]. apply F_app; [apply (F_opt _ _ _ _ _ K4), W_varint|].
  apply F_app; [apply (F_opt _ _ _ _ _ K5), W_varint|]. apply F_app; [apply (F_opt _ _ _ _ _ K6), W_varint|].
  apply (F_opt _ _ _ _ _ K7), W_ack.
Qed.
Lemma F_nhead {E : Env} v : wf_nframe v -> F (write_nhead v) (nhead_fields v).
Proof.
  intros (G1 & G2 & G3 & G4 & G5). unfold write_nhead, nhead_fields, network_fields. rewrite <- !app_assoc. cbn [app].
  apply F_app; [apply F_ncontrol|]. apply F_app; [apply F_hopping|].
  apply F_cons; [apply F_access_class; exact G2|]. apply F_app; [apply F_W, W_address; exact G4|]. apply F_thead. exact G5.
Qed.
Lemma tframe_bytes {E : Env} v : wf_tframe v ->
  tframe_to_bytes v = Ok (bytes_of_bits (bits_of_fields (thead_fields v) ++ bits_of_bytes (enc_command (tf_command v)))).
Proof.
  intros H. unfold tframe_to_bytes. rewrite write_tframe_eq. rewrite (F_thead v H).
  assert (Hc : wf_command (tf_command v)) by apply H. destruct (W_command _ (proj1 Hc)) as (Hw & _). rewrite Hw. reflexivity.
Qed.
Lemma nframe_bytes {E : Env} v : wf_nframe v ->
  nframe_to_bytes v = Ok (bytes_of_bits (bits_of_fields (nhead_fields v) ++ bits_of_bytes (enc_command (tf_command (nf_frame v))))).
Proof.
  intros H. unfold nframe_to_bytes. rewrite write_nframe_eq. rewrite (F_nhead v H).
  assert (Hc : wf_command (tf_command (nf_frame v))) by apply H. destruct (W_command _ (proj1 Hc)) as (Hw & _). rewrite Hw. reflexivity.
Qed.
Lemma thead_width v : exists k, length (bits_of_fields (thead_fields v)) = (8 * k + 7)%nat.
Proof.
  rewrite bits_of_fields_length. unfold thead_fields. rewrite total_width_app. destruct (transport_width v) as (k & ->).
  exists k. change (total_width (tcontrol_fields (tf_control v))) with 7%nat. lia.
Qed.
Lemma nhead_width {E : Env} v : exists k,
  length (bits_of_fields (nhead_fields v)) = (8 * S k + match e_feat with Wizzilab => 7 | _ => 0 end)%nat.
Proof.
  unfold nhead_fields. rewrite !bits_of_fields_app, !app_length, !bits_of_fields_length, ncontrol_fields_width.
  destruct (network_width v) as (a & ->). destruct (thead_width (nf_frame v)) as (b & Hb). rewrite bits_of_fields_length in Hb. rewrite Hb.
  unfold ncontrol_width. destruct e_feat; [exists (a + b + 1)%nat|exists (a + b + 1)%nat|exists (a + b)%nat]; lia.
Qed.

(** ** Reading the header back *)
Definition mk_t (v : tframe) (m : command) : tframe :=
  mkTFrame (tf_control v) (tf_dialog v) (tf_transaction v) (tf_target_rx v) (tf_listen v) (tf_exec_delay v) (tf_congestion v) (tf_ack v) m.
Definition mk_n (v : nframe) (m : command) : nframe :=
  mkNFrame (nf_control v) (nf_hopping v) (nf_access v) (nf_origin v) (mk_t (nf_frame v) m).
Lemma RT_thead {E : Env} v : wf_tframe v -> RT (write_thead v) (c <- read_tcontrol ;; g_trans c) (mk_t v).
Proof.
  intros (K1 & K2 & K3 & K4 & K5 & K6 & K7 & K8). unfold write_thead, g_trans, mk_t.
  eapply RT_bind; [apply RT_tcontrol|]. eapply RT_bind; [apply RT_u8; exact K1|]. eapply RT_bind; [apply RT_u8; exact K2|].
  eapply RT_bind; [apply (RT_present _ _ _ _ _ K3), RT_u8|]. eapply RT_bind; [apply (RT_present _ _ _ _ _ K4), RT_varint|].
  eapply RT_bind; [apply (RT_present _ _ _ _ _ K5), RT_varint|]. eapply RT_bind; [apply (RT_present _ _ _ _ _ K6), RT_varint|].
  eapply RT_last; [apply (RT_present _ _ _ _ _ K7), RT_ack|reflexivity].
Qed.
Definition n_head {E : Env} : reader (command -> nframe) :=
  c <- read_ncontrol ;; h <- read_cond (nc_hopping c) read_hopping ;; a <- read_access_class ;;
  o <- read_address (nc_origin_type c) ;; tr <- (c <- read_tcontrol ;; g_trans c) ;; ret (fun m => mkNFrame c h a o (tr m)).
Lemma RT_nhead {E : Env} v : wf_nframe v -> RT (write_nhead v) n_head (mk_n v).
Proof.
  intros (G1 & G2 & G3 & G4 & G5). unfold write_nhead, n_head, mk_n. apply address_matches_kind in G3.
  eapply RT_bind; [apply RT_ncontrol|]. eapply RT_bind; [apply (RT_present _ _ _ _ _ G1); intros; apply RT_hopping|].
  eapply RT_bind; [apply RT_access_class; exact G2|]. rewrite G3. eapply RT_bind; [apply RT_address; exact G4|].
  eapply RT_last; [apply RT_thead; exact G5|reflexivity].
Qed.
Lemma read_nframe_head {E : Env} L r : read_nframe L r = (h <- n_head ;; m <- read_command L ;; ret (h m)) r.
Proof.
  unfold read_nframe, n_head. rewrite !bind_bind. apply bind_ext. intros c r1. rewrite !bind_bind. apply bind_ext. intros h r2.
  rewrite !bind_bind. apply bind_ext. intros a r3. rewrite !bind_bind. apply bind_ext. intros o r4.
  transitivity ((f <- (h <- (c0 <- read_tcontrol ;; g_trans c0) ;; m <- read_command L ;; ret (h m)) ;; ret (mkNFrame c h a o f)) r4).
  { unfold bind at 1. rewrite read_tframe_parts. reflexivity. }
  unfold bind. destruct (read_tcontrol r4) as [[tc r5]|e|]; [|reflexivity..].
  destruct (g_trans tc r5) as [[tr r6]|e|]; [|reflexivity..]. unfold ret.
  destruct (read_command L r6) as [[m r7]|e|]; reflexivity.
Qed.

(** ** The command behind the header *)
(** One bit too late, to the end. *)
Lemma shifted_all {E : Env} c : forall fuel acc d p n x r, Forall wf_action c -> bytes d ->
  (p <= length d)%nat -> last_is_indirect acc = false ->
  x :: bits_of_bytes (skipn p d) = bits_of_bytes (enc_command c) ++ [false] ->
  read_actions fuel 0 acc (mkRd d p [] n) = Ok (acc ++ c, r) -> x = false /\ Forall (fun a => a = plain_nop) c.
Proof.
  induction c as [|a c IH]; intros fuel acc d p n x r Hc Hd Hp Hl Hbits H.
  - cbn [enc_command flat_map bits_of_bytes app] in Hbits. split; [congruence|constructor].
  - inversion Hc as [|? ? Ha Hc']; subst. cbn [enc_command flat_map] in Hbits. fold (enc_command c) in Hbits.
    rewrite bits_of_bytes_app, <- app_assoc in Hbits. destruct fuel as [|fuel]; [discriminate|].
    destruct (enc_action_first a Ha) as (b0 & u & E0 & _).
    assert (exists b t, skipn p d = b :: t) as (b & t & Hs).
    { destruct (skipn p d) as [|b t]; [|eauto]. apply (f_equal (@length bool)) in Hbits.
      rewrite !app_length, bits_of_bytes_length, E0 in Hbits. cbn [bits_of_bytes length] in Hbits. lia. }
    assert (G : goes_on 0 p) by (left; reflexivity).
    destruct (at_end_cons _ p b t (At_start d p n Hp) Hs) as (r1 & Ee & Er & Hr1).
    cbn [read_actions] in H. unfold bind at 1 in H. rewrite valid_length_go in H by exact G. cbv iota in H. unfold bind at 1 in H. rewrite Ee in H. cbv iota in H.
    rewrite Hl in H. unfold bind in H.
    assert (Eq : read_action r1 = read_action (mkRd d p [] n)).
    { rewrite (read_action_at r1 p b t Hr1) by (rewrite Er; exact Hs).
      rewrite (read_action_at (mkRd d p [] n) p b t (At_start d p n Hp)) by exact Hs. rewrite Er. reflexivity. }
    rewrite Eq in H. pose proof (Nice_action (mkRd d p [] n) (proj1 (At_start d p n Hp))) as N8.
    destruct (read_action (mkRd d p [] n)) as [[a' r3]|er|] eqn:Ea; try discriminate.
    destruct (read_actions_prefix _ _ _ _ _ _ ltac:(apply N8) H) as (new & Hnew).
    assert (a' = a /\ new = c) as (-> & ->).
    { rewrite <- app_assoc in Hnew. apply app_inv_head in Hnew. cbn [app] in Hnew. injection Hnew as -> ->. auto. }
    assert (Hne : bits_of_bytes (enc_command c) ++ [false] <> []).
    { intros Q. apply app_eq_nil in Q as (_ & Q). discriminate. }
    destruct (shifted_action a d p n x _ r3 Ha Hd Hp Hne Hbits Ea) as (_ & Hi & Hpl & -> & rest' & Hr' & Hb').
    destruct (skipn_cons_nth _ _ _ _ Hs) as (_ & _ & Hlt).
    replace (acc ++ a :: c) with ((acc ++ [a]) ++ c) in H by (rewrite <- app_assoc; reflexivity).
    destruct (IH fuel (acc ++ [a]) d (S p) _ x r Hc' Hd ltac:(lia) ltac:(rewrite last_is_indirect_snoc; exact Hi) Hb' H) as (Hx & Hall).
    split; [exact Hx|]. constructor; auto.
Qed.

Lemma alone_late {E : Env} {V} (hd : reader (command -> V)) mk get hb k c :
  (forall m : command, get (mk m) = m) -> Reads hd hb mk -> length hb = (8 * k + 7)%nat -> wf_command c ->
  let d := bytes_of_bits (hb ++ bits_of_bytes (enc_command c)) in
  let run := (h <- hd ;; m <- read_command 0 ;; ret (h m)) (new_reader d) in
  (forall s, run = Ok (mk c, s) -> (Nat.div (bread s) 8 <= length d)%nat -> c = [plain_nop]) /\
  (c = [plain_nop] -> exists s, run = Ok (mk c, s) /\ (Nat.div (bread s) 8 = length d)%nat).
Proof.
  intros Hget HR Hhb Hc. cbv zeta. set (d := bytes_of_bits _).
  assert (Hd : bytes d) by apply bytes_of_bits_bytes.
  assert (Hbd : bits_of_bytes d = hb ++ bits_of_bytes (enc_command c) ++ [false]).
  { unfold d. rewrite (bytes_of_bits_7 _ (k + length (enc_command c))).
    - rewrite <- app_assoc. reflexivity.
    - rewrite app_length, bits_of_bytes_length. lia. }
  assert (Hld : length d = (S k + length (enc_command c))%nat).
  { apply (f_equal (@length bool)) in Hbd. rewrite !app_length, !bits_of_bytes_length in Hbd. cbn [length] in Hbd. lia. }
  destruct (after_7 d (S k) ltac:(lia) ltac:(lia)) as (x & HA). replace (8 * S k - 1)%nat with (8 * k + 7)%nat in HA by lia.
  assert (HL : (8 * k + 7 <= length (view (new_reader d)))%nat) by (rewrite view_new, bits_of_bytes_length; lia).
  pose proof (view_adv (new_reader d) _ (RWf_new d) HL) as Hview. rewrite HA, view_new, Hbd in Hview.
  unfold view in Hview. cbn [left pos data app] in Hview. rewrite skipn_app, (skipn_all2 hb), Hhb, Nat.sub_diag, skipn_O in Hview by lia. cbn [app] in Hview.
  assert (HH : hd (new_reader d) = Ok (mk, mkRd d (S k) [x] (8 * k + 7))).
  { rewrite (HR _ (RWf_new d)), Hhb, HA; [reflexivity|]. exists (bits_of_bytes (enc_command c) ++ [false]). rewrite view_new. exact Hbd. }
  rewrite (bind_ok _ _ _ _ _ HH). clear HH HA HL.
  pose proof (body_at mk d (S k) [x] Hd ltac:(lia) ltac:(cbn; lia)) as R. cbn [length] in R.
  replace (8 * S k - 1)%nat with (8 * k + 7)%nat in R by lia.
  split.
  - intros s H Hs. unfold bind at 1 in H. destruct (read_command 0 _) as [[c' r1]|e|] eqn:Ec; try discriminate. unfold ret in H.
    assert (mk c' = mk c /\ r1 = s) as (Q & ->) by (split; congruence). apply (f_equal get) in Q. rewrite !Hget in Q. subst c'. clear H.
    destruct c as [|a c0].
    { exfalso. rewrite skipn_all2 in R by (rewrite Hld; cbn; lia).
      cbn [dec_limited length] in R. change (0 =? 0) with true in R. cbn [orb] in R. cbv iota in R. change (N.of_nat 1 =? 0) with false in R. cbv iota in R.
      destruct R as [e R]. unfold bind in R. rewrite Ec in R. discriminate. }
    set (c := a :: c0) in *.
    assert (Hlen : (1 <= length (enc_command c))%nat).
    { pose proof (enc_command_len c (wf_all_readable _ (proj1 Hc))) as L. unfold c in L at 1. cbn [length] in L. lia. }
    unfold read_command in Ec. cbn [data] in Ec.
    apply wizzilab_loop_eq in Ec; [|lia|apply Hc].
    change c with ([] ++ c) in Ec at 1.
    destruct (shifted_all c _ [] d (S k) _ x _ (proj1 Hc) Hd ltac:(lia) eq_refl Hview Ec) as (-> & Hall).
    assert (Hsk : skipn (S k) d = enc_command c).
    { rewrite (enc_plain c Hall), bits_zero_bytes in Hview. change [false] with (repeat false 1) in Hview.
      rewrite <- repeat_app, Nat.add_1_r in Hview. cbn [repeat] in Hview. assert (Hv : bits_of_bytes (skipn (S k) d) = repeat false (8 * length c)) by congruence.
      rewrite <- bits_zero_bytes, <- (enc_plain c Hall) in Hv. apply bits_of_bytes_inj in Hv; [exact Hv| |apply (W_command _ (proj1 Hc))].
      rewrite <- (firstn_skipn (S k) d) in Hd. apply Forall_app in Hd. apply Hd. }
    assert (Hn : Forall (fun a => is_indirect a = false) c) by (eapply Forall_impl; [|exact Hall]; intros ? ->; reflexivity).
    pose proof (enc_plain c Hall) as Henc. apply (f_equal (@length N)) in Henc. rewrite repeat_length in Henc.
    destruct (read_actions_many c (S (length d)) [] (mkRd d (S k) [] (8 * k + 7)) (S k) [] (wf_all_readable _ (proj1 Hc)) Hn eq_refl
      (At_start d (S k) _ ltac:(lia)) ltac:(cbn [data]; rewrite app_nil_r; exact Hsk) ltac:(lia)) as (r' & E1 & D1 & B1 & _ & A1 & S1).
    cbn [app] in Ec, E1. rewrite E1 in Ec. replace (S (length d) - length c)%nat with (S (length d - length c)) in Ec by lia.
    rewrite (read_actions_end _ _ _ _ A1) in Ec by (rewrite D1; exact S1). assert (r' = s) by congruence. subst r'.
    rewrite B1 in Hs. cbn [bread] in Hs. unfold LAction.counted in Hs. rewrite Henc, Hld in Hs. rewrite Henc in Hs.
    assert (length c <= 1)%nat by (clear - Hs; divlia).
    unfold c in *. destruct c0; [|cbn [length] in *; lia]. inversion Hall; subst. reflexivity.
  - intros ->. change (enc_command [plain_nop]) with [0] in *. cbn [length] in Hld.
    assert (Hsk : skipn (S k) d = [0]).
    { change (bits_of_bytes [0] ++ [false]) with (false :: bits_of_bytes [0]) in Hview.
      assert (Hv : bits_of_bytes (skipn (S k) d) = bits_of_bytes [0]) by congruence.
      apply bits_of_bytes_inj in Hv; [exact Hv| |constructor; [reflexivity|constructor]].
      rewrite <- (firstn_skipn (S k) d) in Hd. apply Forall_app in Hd. apply Hd. }
    rewrite Hsk in R.
    assert (Q : dec_limited (length [0]) 0 (N.of_nat (S k)) (N.of_nat 1) [0] = Some ([plain_nop], [])).
    { cbn [length dec_limited]. change (0 =? 0) with true. cbn [orb]. cbv iota. change (N.of_nat 1) with 1. change (part 1 6 0) with 0.
      assert (Q : dec_operand 0 [0] = Some (plain_nop, [])) by (destruct E as [[] [] []]; reflexivity). rewrite Q. reflexivity. }
    rewrite Q in R. destruct R as (s & R & Bs & _). exists s. split; [exact R|]. rewrite Bs. unfold alone_bits, count_tx.
    cbn [length filter is_tx plain_nop]. rewrite Hld. clear. divlia.
Qed.

Lemma alone_aligned {E : Env} {V} (hd : reader (command -> V)) mk hb k c :
  Reads hd hb mk -> length hb = (8 * k)%nat -> wf_command c ->
  let d := bytes_of_bits (hb ++ bits_of_bytes (enc_command c)) in
  exists s, (h <- hd ;; m <- read_command 0 ;; ret (h m)) (new_reader d) = Ok (mk c, s) /\
    bread s = (8 * length d + 8 * length c)%nat.
Proof.
  intros HR Hhb Hc. cbv zeta. set (d := bytes_of_bits _).
  assert (Hd : bytes d) by apply bytes_of_bits_bytes.
  assert (Hbd : bits_of_bytes d = hb ++ bits_of_bytes (enc_command c)).
  { unfold d. apply bits_of_bytes_of_bits with (k := (k + length (enc_command c))%nat). rewrite app_length, bits_of_bytes_length. lia. }
  assert (Hld : length d = (k + length (enc_command c))%nat).
  { apply (f_equal (@length bool)) in Hbd. rewrite !app_length, !bits_of_bytes_length in Hbd. lia. }
  assert (HA : adv (new_reader d) (8 * k) = mkRd d k [] (8 * k)).
  { rewrite adv_aligned; [reflexivity|apply RWf_new|reflexivity|rewrite view_new, bits_of_bytes_length; lia]. }
  assert (Hsk : skipn k d = enc_command c).
  { assert (HL : (8 * k <= length (view (new_reader d)))%nat) by (rewrite view_new, bits_of_bytes_length; lia).
    pose proof (view_adv (new_reader d) _ (RWf_new d) HL) as Hview. rewrite HA, view_new, Hbd in Hview.
    unfold view in Hview. cbn [left pos data app] in Hview. rewrite skipn_app, (skipn_all2 hb), Hhb, Nat.sub_diag, skipn_O in Hview by lia. cbn [app] in Hview.
    apply bits_of_bytes_inj in Hview; [exact Hview| |apply (W_command _ (proj1 Hc))].
    rewrite <- (firstn_skipn k d) in Hd. apply Forall_app in Hd. apply Hd. }
  assert (HH : hd (new_reader d) = Ok (mk, mkRd d k [] (8 * k))).
  { rewrite (HR _ (RWf_new d)), Hhb, HA; [reflexivity|]. exists (bits_of_bytes (enc_command c)). rewrite view_new. exact Hbd. }
  rewrite (bind_ok _ _ _ _ _ HH). unfold read_command, bind. cbn [data].
  pose proof (wf_all_readable _ (proj1 Hc)) as Hrd. pose proof (enc_command_len c Hrd) as Hcl.
  rewrite (loop_many c (S (length d)) 0 [] d k (8 * k) [] Hrd);
    [|cbn [app]; apply removelast_plain; exact (proj2 Hc)|lia|intros; left; reflexivity|rewrite app_nil_r; exact Hsk|lia].
  cbn [app]. replace (S (length d) - length c)%nat with (S (length d - length c)) by lia.
  assert (A1 : At (mkRd d (k + length (enc_command c)) [] (8 * k + LAction.counted c)) (k + length (enc_command c))) by (apply At_start; lia).
  rewrite (read_actions_end _ _ _ _ A1) by (cbn [data]; apply skipn_all2; lia).
  eexists. split; [reflexivity|]. cbn [bread]. unfold LAction.counted. lia.
Qed.

(** ** Frames *)
Lemma mk_t_same v : mk_t v (tf_command v) = v. Proof. destruct v. reflexivity. Qed.
Lemma mk_n_same v : mk_n v (tf_command (nf_frame v)) = v. Proof. destruct v as [? ? ? ? []]. reflexivity. Qed.
Lemma exact_of {A} (m : reader A) v d (P : Prop) :
  (forall s, m (new_reader d) = Ok (v, s) -> (Nat.div (bread s) 8 <= length d)%nat -> P) ->
  (P -> exists s, m (new_reader d) = Ok (v, s) /\ (Nat.div (bread s) 8 = length d)%nat) ->
  (d_try_from m d = Ok v <-> P) /\ ((exists rest, d_from_bytes m d 0 = Ok (rest, v)) <-> P).
Proof.
  intros H1 H2. rewrite d_try_from_eq, d_from_bytes_0. split; split.
  - destruct (m (new_reader d)) as [[x s]|e|] eqn:Em; try discriminate. destruct (Nat.eqb_spec (Nat.div (bread s) 8) (length d)) as [Q|Q]; [|discriminate].
    intros H. injection H as ->. apply (H1 s eq_refl). lia.
  - intros H. destruct (H2 H) as (s & -> & ->). rewrite Nat.eqb_refl. reflexivity.
  - intros (rest & H). destruct (m (new_reader d)) as [[x s]|e|] eqn:Em; try discriminate.
    destruct (Nat.leb_spec (Nat.div (bread s) 8) (length d)) as [Q|Q]; [|discriminate]. injection H as _ ->. apply (H1 s eq_refl). lia.
  - intros H. destruct (H2 H) as (s & -> & ->). rewrite Nat.leb_refl. eauto.
Qed.
Lemma tframe_exact {E : Env} v : wf_tframe v -> exists l, tframe_to_bytes v = Ok l /\
  (tframe_try_from l = Ok v <-> tf_command v = [plain_nop]) /\
  ((exists rest, tframe_from_bytes l 0 = Ok (rest, v)) <-> tf_command v = [plain_nop]).
Proof.
  intros H. eexists. split; [exact (tframe_bytes v H)|]. destruct (RT_thead v H) as (hb & Hw & HR).
  pose proof (F_thead v H) as HF. unfold F in HF. rewrite Hw in HF. assert (hb = bits_of_fields (thead_fields v)) by congruence. subst hb.
  destruct (thead_width v) as (k & Hk). assert (Hc : wf_command (tf_command v)) by apply H.
  destruct (alone_late _ (mk_t v) tf_command _ k _ (fun _ => eq_refl) HR Hk Hc) as (A1 & A2). rewrite <- read_tframe_parts, mk_t_same in A1, A2.
  exact (exact_of (read_tframe 0) v _ _ A1 A2).
Qed.
Lemma nframe_exact_wizzilab {E : Env} v : e_feat = Wizzilab -> wf_nframe v -> exists l, nframe_to_bytes v = Ok l /\
  (nframe_try_from l = Ok v <-> tf_command (nf_frame v) = [plain_nop]) /\
  ((exists rest, nframe_from_bytes l 0 = Ok (rest, v)) <-> tf_command (nf_frame v) = [plain_nop]).
Proof.
  intros Hz H. eexists. split; [exact (nframe_bytes v H)|]. destruct (RT_nhead v H) as (hb & Hw & HR).
  pose proof (F_nhead v H) as HF. unfold F in HF. rewrite Hw in HF. assert (hb = bits_of_fields (nhead_fields v)) by congruence. subst hb.
  destruct (nhead_width v) as (k & Hk). rewrite Hz in Hk. assert (Hc : wf_command (tf_command (nf_frame v))) by apply H.
  destruct (alone_late _ (mk_n v) (fun n => tf_command (nf_frame n)) _ (S k) _ (fun _ => eq_refl) HR Hk Hc) as (A1 & A2). rewrite <- read_nframe_head, mk_n_same in A1, A2.
  exact (exact_of (read_nframe 0) v _ _ A1 A2).
Qed.
Lemma nframe_exact_aligned {E : Env} v : e_feat <> Wizzilab -> wf_nframe v -> exists l, nframe_to_bytes v = Ok l /\
  (nframe_try_from l = match tf_command (nf_frame v) with [] => Ok v | _ => Err ETooMuchData end) /\
  (nframe_from_bytes l 0 = match tf_command (nf_frame v) with [] => Ok (([], 0%nat), v) | _ => Panic end).
Proof.
  intros Hz H. eexists. split; [exact (nframe_bytes v H)|]. destruct (RT_nhead v H) as (hb & Hw & HR).
  pose proof (F_nhead v H) as HF. unfold F in HF. rewrite Hw in HF. assert (hb = bits_of_fields (nhead_fields v)) by congruence. subst hb.
  destruct (nhead_width v) as (k & Hk). assert (Hk' : length (bits_of_fields (nhead_fields v)) = (8 * S k)%nat) by (destruct e_feat; [lia|lia|congruence]).
  assert (Hc : wf_command (tf_command (nf_frame v))) by apply H.
  destruct (alone_aligned _ _ _ (S k) _ HR Hk' Hc) as (s & A1 & A2). rewrite <- read_nframe_head, mk_n_same in A1.
  unfold nframe_try_from, nframe_from_bytes, default_nframe. rewrite d_try_from_eq, d_from_bytes_0, A1, A2.
  set (d := bytes_of_bits _). set (c := tf_command _).
  replace (8 * length d + 8 * length c)%nat with ((length d + length c) * 8)%nat by lia. rewrite Nat.div_mul, Nat.mod_mul by discriminate.
  destruct c as [|a c]; cbn [length].
  - rewrite Nat.add_0_r, Nat.eqb_refl, Nat.leb_refl, skipn_all. split; reflexivity.
  - destruct (Nat.eqb_spec (length d + S (length c)) (length d)); [lia|]. destruct (Nat.leb_spec (length d + S (length c)) (length d)); [lia|].
    split; reflexivity.
Qed.

(** ** Files and statuses *)
Lemma file_exact {E : Env} f l : file_to_bytes f = Ok l ->
  (file_try_from l = Ok f <-> f = FOther []) /\
  (file_default_from_bytes l 0 = Ok ((l, 0%nat), f) <-> f = FOther []).
Proof.
  intros H. destruct (file_default l) as (-> & ->). split; split; intros Q.
  - destruct l; [injection Q as <-; reflexivity|discriminate].
  - subst f. destruct l; [reflexivity|discriminate].
  - injection Q as <-. reflexivity.
  - subst f. reflexivity.
Qed.
Lemma status_exact {E : Env} s l : status_to_bytes s = Ok l ->
  (status_try_from l = Ok s <-> exists a c, a < 256 /\ c < 256 /\ s = StatusAction (mkActionStatus a c)).
Proof.
  intros H. assert (Bl : bytes l).
  { unfold status_to_bytes, to_bytes in H. destruct (write_status s) as [bs|e|]; try discriminate. injection H as <-. apply bytes_of_bits_bytes. }
  pose proof (status_default l Bl) as D. split.
  - intros Q. destruct l as [|a [|c rest]]; [destruct D as (e & D & _); congruence..|].
    destruct D as (D & _). rewrite D in Q. destruct rest; [|discriminate]. injection Q as <-.
    exists a, c. apply Forall_cons_iff in Bl as (B1 & Bl). apply Forall_cons_iff in Bl as (B2 & _). repeat split; assumption.
  - intros (a & c & Ha & Hc & ->). unfold status_to_bytes, write_status in H.
    assert (W : to_bytes (write_action_status (mkActionStatus a c)) = Ok [a; c]).
    { assert (Hw : write_action_status (mkActionStatus a c) = Ok (bits_of_bytes [a; c])).
      { cbn [bits_of_bytes]. rewrite app_nil_r. reflexivity. }
      rewrite Hw. unfold to_bytes. cbn [rbind]. rewrite bytes_of_bits_of_bytes by (repeat constructor; assumption). reflexivity. }
    rewrite W in H. injection H as <-. apply D.
Qed.
Lemma alone_layout {E : Env} :
  (forall v, wf_tframe v -> tframe_to_bytes v = Ok (bytes_of_bits (bits_of_fields
     (tcontrol_fields (tf_control v) ++ transport_fields v ++ octets (enc_command (tf_command v)))))) /\
  (forall v, wf_nframe v -> nframe_to_bytes v = Ok (bytes_of_bits (bits_of_fields
     (ncontrol_fields (nf_control v) ++ network_fields v ++ tcontrol_fields (tf_control (nf_frame v)) ++
      transport_fields (nf_frame v) ++ octets (enc_command (tf_command (nf_frame v))))))).
Proof.
  split; intros v H; [rewrite (tframe_bytes v H)|rewrite (nframe_bytes v H)]; unfold nhead_fields, thead_fields;
    rewrite !bits_of_fields_app, !bits_of_octets, <- ?app_assoc; reflexivity.
Qed.
Lemma alone_refuted {E : Env} :
  (exists f l, file_to_bytes f = Ok l /\ file_try_from l = Err ETooMuchData) /\
  (exists s l s', status_to_bytes s = Ok l /\ status_try_from l = Ok s' /\ s' <> s) /\
  (exists v l, wf_tframe v /\ tframe_to_bytes v = Ok l /\ tframe_try_from l <> Ok v) /\
  (exists v l, wf_nframe v /\ nframe_to_bytes v = Ok l /\ nframe_try_from l <> Ok v).
Proof.
  split; [exists (FVId (VId 0x1234)), [0x12; 0x34]; split; reflexivity|].
  split; [exists (StatusInterface (mkItfStatusOp ItHost IsHost)), [0; 0], (StatusAction (mkActionStatus 0 0)); split; [reflexivity|]; split; [reflexivity|discriminate]|].
  set (n := ff_frame (small_frame 0 [read_uid] 0)).
  assert (Hc : wf_command [read_uid]).
  { split; [constructor; [vm_compute; repeat split; reflexivity|constructor]|]. intros pre x post Q Hi. destruct pre as [|y pre]; [injection Q as <- <-; discriminate|]. injection Q as <- Q. destruct pre; discriminate. }
  assert (Ht : wf_tframe (nf_frame n)) by (repeat split; try reflexivity; apply Hc).
  split.
  - destruct (tframe_exact _ Ht) as (l & Hl & Hx & _). exists (nf_frame n), l. split; [exact Ht|]. split; [exact Hl|].
    intros Q. apply Hx in Q. discriminate.
  - assert (Hn : wf_nframe n) by (repeat split; try reflexivity; apply Ht).
    destruct (e_feat) eqn:Hf.
    1, 2: assert (Hz : e_feat <> Wizzilab) by (rewrite Hf; discriminate); destruct (nframe_exact_aligned n Hz Hn) as (l & Hl & Hx & _); exists n, l; split; [exact Hn|]; split; [exact Hl|];
      rewrite Hx; discriminate.
    destruct (nframe_exact_wizzilab n Hf Hn) as (l & Hl & Hx & _). exists n, l. split; [exact Hn|]. split; [exact Hl|].
    intros Q. apply Hx in Q. discriminate.
Qed.
