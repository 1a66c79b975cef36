(** Lemmas for C63: whole actions and commands. *)
From Coq Require Import List NArith ZArith Bool Lia ZifyBool ZifyNat ZifyN Arith.
From Verif Require Import Base Deku Utils Types Physical Link Network Session Data Query
  Interface File Operation Action Command WellFormed SpecLayout SpecDecode SpecStream SpecLive LUtf8 LBits LReader LLayout
  LNice LNiceOps LActionApi LReturn LFiles LStream LDecode LDecodeTypes LDecodeOps LDecodeAct LDecodeCmd LDecodeTx LDecodeLoop LJoin
  LLive LLiveOps LLiveAct LLiveCmd LLiveTx LLiveTop.
Import ListNotations.
Open Scope N_scope.

Lemma opcode_bound pend b : opcode_at pend b < 64.
Proof. destruct pend; unfold opcode_at, part; apply N.mod_lt; discriminate. Qed.
Lemma bytes_skipn p d : bytes d -> bytes (skipn p d).
Proof. intros H. rewrite <- (firstn_skipn p d) in H. apply Forall_app in H. apply H. Qed.
Lemma entry_ext d p n pend s x : (p <= length d)%nat -> entry d p n pend s -> entry (d ++ x) p n pend (ext s x).
Proof.
  intros Hp [ |b Hb|y z H1]; unfold ext; cbn [data pos left bread at_byte].
  - constructor.
  - constructor. rewrite nth_error_app1; [exact Hb|]. apply nth_error_Some. rewrite Hb. discriminate.
  - constructor. exact H1.
Qed.
(** The error of one action of the loop. *)
Lemma entry_err {E : Env} d p n pend s e : bytes d -> (p <= length d)%nat -> entry d p n pend s -> read_action s = Err e ->
  match skipn p d with
  | [] => e = EIncomplete
  | b :: l =>
      (e = EIncomplete <-> (exists t v, bytes t /\ dec_operand (opcode_at pend b) (b :: l ++ t) = Some (v, [])) \/ stuck (opcode_at pend b) (b :: l))
      /\ dec_operand (opcode_at pend b) (b :: l) = None
      /\ (e <> EIncomplete -> forall t, bytes t -> dec_operand (opcode_at pend b) (b :: l ++ t) = None)
  end.
Proof.
  intros Hd Hp He H. pose proof (entry_wf d p n pend s Hp He) as Ws. destruct (skipn p d) as [|b l] eqn:Sk.
  - destruct (read_action_err s Ws) as [e' H'].
    + assert (length (skipn p d) = 0)%nat by (rewrite Sk; reflexivity). rewrite skipn_length in H0. rewrite view_length by exact Ws.
      destruct He as [ |b Hb|x y H1]; cbn [left data pos length at_byte]; [lia| |lia].
      rewrite (nth_skipn _ _ _ Hb) in Sk. discriminate.
    + pose proof (Nice_action s Ws) as NA. rewrite H in NA.
      destruct (Nat.ltb_spec (length (view s)) 8) as [L|L].
      * unfold read_action, skip_bits, bind in H.
        destruct (Nat.ltb_spec (length (view s)) 2) as [L2|L2]; [rewrite read_bits_err in H by assumption; congruence|].
        rewrite read_bits_ok in H by assumption. unfold ret at 1 in H. unfold read_opcode in H.
        rewrite read_uint_err in H; [congruence|apply RWf_adv; assumption|]. rewrite view_adv, skipn_length by assumption. lia.
      * exfalso. assert (L0 : length (skipn p d) = 0%nat) by (rewrite Sk; reflexivity). rewrite skipn_length in L0. rewrite view_length in L by exact Ws.
        destruct He as [ |b Hb|x y H1]; cbn [left data pos length at_byte] in L; [lia| |lia].
        rewrite (nth_skipn _ _ _ Hb) in Sk. discriminate.
  - assert (No : dec_operand (opcode_at pend b) (b :: l) = None).
    { pose proof (entry_action d p n pend s Hd Hp He) as EA. rewrite Sk in EA. unfold OpAt in EA. rewrite at_byte_view, Sk in EA by exact Hd.
      fold (opcode_at pend b) in EA. destruct (dec_operand (opcode_at pend b) (b :: l)) as [[v rest]|]; [|reflexivity].
      destruct EA as (k & _ & _ & _ & EA). congruence. }
    assert (Keep : e <> EIncomplete -> forall t, bytes t -> dec_operand (opcode_at pend b) (b :: l ++ t) = None).
    { intros Ne t Bt. pose proof (Nice_action s Ws) as NA. rewrite H in NA. destruct NA as [_ NA]. specialize (NA Ne t).
      assert (Bdt : bytes (d ++ t)) by (apply Forall_app; split; assumption).
      assert (Skt : skipn p (d ++ t) = b :: l ++ t) by (rewrite skipn_app, Sk; replace (p - length d)%nat with 0%nat by lia; reflexivity).
      pose proof (entry_action (d ++ t) p n pend (ext s t) Bdt ltac:(rewrite app_length; lia) (entry_ext d p n pend s t Hp He)) as EA.
      rewrite Skt in EA. unfold OpAt in EA. rewrite at_byte_view, Skt in EA by exact Bdt. fold (opcode_at pend b) in EA.
      destruct (dec_operand (opcode_at pend b) (b :: l ++ t)) as [[v rest]|]; [|reflexivity]. destruct EA as (k & _ & _ & _ & EA). congruence. }
    split; [|split; assumption].
    assert (Ea : octets (view (at_byte d p (n + 8))) = b :: l) by (rewrite at_byte_view, Sk by exact Hd; reflexivity).
    assert (Wa : RWf (at_byte d p (n + 8))) by (apply at_byte_wf; exact Hp).
    pose proof (entry_reader d p n pend s b l Hd Hp He Sk) as ER. fold (opcode_at pend b) in ER. rewrite H in ER.
    split.
    + intros ->. apply (incomplete_operand _ (at_byte d p (n + 8))); [exact Wa|reflexivity|exact Ea|apply opcode_bound|]. symmetry. exact ER.
    + intros [(t & v & Bt & Ht)|Hs].
      * assert (De : e = EIncomplete \/ e <> EIncomplete) by (destruct e; (left; reflexivity) || (right; discriminate)).
        destruct De as [De|De]; [exact De|]. rewrite (Keep De t Bt) in Ht. discriminate.
      * rewrite (stuck_incomplete _ (at_byte d p (n + 8)) b l Wa eq_refl Ea Hs) in ER. congruence.
Qed.

(** ** Actions *)
Lemma action_incomplete {E : Env} d e : bytes d -> action_from_bytes d 0 = Err e ->
  (e = EIncomplete <-> action_can_end d \/ action_stuck d).
Proof.
  intros Hd He. apply action_error in He.
  pose proof (entry_err d 0 0 false (new_reader d) e Hd ltac:(lia) (entry_plain d 0 0) He) as H. cbn [skipn] in H.
  destruct d as [|b l].
  - split; [|intros _; exact H]. intros _. left. apply action_ends; [exact Hd|]. eexists [0], _, _. split; [repeat constructor|]. reflexivity.
  - destruct H as (H & No & Keep). cbn [opcode_at] in *. split.
    + intros H0. apply H in H0 as [(t & v & Bt & Ht)|Hs]; [left|right; exists b, l; split; [reflexivity|exact Hs]].
      apply action_ends; [exact Hd|]. exists t, v, []. split; [exact Bt|exact Ht].
    + intros [Hc|(b' & l' & Hb & Hs)]; [|injection Hb as <- <-; apply H; right; exact Hs].
      assert (De : e = EIncomplete \/ e <> EIncomplete) by (destruct e; (left; reflexivity) || (right; discriminate)).
      destruct De as [De|De]; [exact De|]. apply action_ends in Hc as (t & v & rest & Bt & Ht); [|exact Hd].
      cbn [app dec_action] in Ht. rewrite (Keep De t Bt) in Ht. discriminate.
Qed.
Lemma action_stuck_spec {E : Env} d : bytes d -> action_stuck d -> action_from_bytes d 0 = Err EIncomplete /\ ~ action_can_end d.
Proof.
  intros Hd (b & l & -> & Hs). split.
  - apply action_error. rewrite first_operand by exact Hd. eapply stuck_incomplete; [apply at_byte_wf; lia|reflexivity| |exact Hs].
    rewrite at_byte_view by exact Hd. reflexivity.
  - rewrite action_ends by exact Hd. intros (s & a & rest & Bs & H). cbn [app dec_action] in H. rewrite stuck_ends in H by assumption. discriminate.
Qed.

(** ** Commands *)
Lemma runs_trans {E : Env} p l p1 l1 p2 l2 : runs p l p1 l1 -> runs p1 l1 p2 l2 -> runs p l p2 l2.
Proof. intros H. induction H; intros G; [exact G|]. eapply runs_on; [eassumption|assumption|]. apply IHruns. exact G. Qed.
Lemma runs_app {E : Env} p l p1 l1 t : runs p l p1 l1 -> runs p (l ++ t) p1 (l1 ++ t).
Proof.
  intros H. induction H as [|p b l a rest p' l' Ho Hi H IH]; [constructor|].
  cbn [app]. eapply runs_on; [|exact Hi|exact IH].
  destruct (operand_takes _ _ _ _ Ho) as (b' & q & Hq & Hs). change (b :: l ++ t) with ((b :: l) ++ t). rewrite Hq, <- app_assoc. apply Hs.
Qed.
Lemma runs_acts {E : Env} p l p1 l1 : runs p l p1 l1 ->
  match acts p1 l1 with
  | Some (c, r) => exists c', acts p l = Some (c', r)
  | None => acts p l = None
  end.
Proof.
  intros H. induction H as [p l|p b l a rest p' l' Ho Hi H IH]; [destruct (acts p l) as [[c r]|]; [exists c|]; reflexivity|].
  rewrite acts_step. unfold opcode_at in Ho. fold (next p b) in Ho. rewrite Ho, Hi.
  destruct (acts p' l') as [[c r]|]; [destruct IH as [c' ->]; eexists; reflexivity|rewrite IH; reflexivity].
Qed.
Lemma runs_det {E : Env} p l p1 b1 l1 : runs p l p1 (b1 :: l1) -> dec_operand (opcode_at p1 b1) (b1 :: l1) = None ->
  forall p2 l2, runs p l p2 l2 -> runs p2 l2 p1 (b1 :: l1).
Proof.
  intros H N1. remember (b1 :: l1) as x eqn:Ex. induction H as [p l|p b l a rest p' l' Ho Hi H IH]; intros p2 l2 G.
  - subst l. inversion G as [|? ? ? a rest ? ? Ho]; subst; [constructor|]. congruence.
  - inversion G as [|? ? ? a2 rest2 ? ? Ho2 Hi2 G2]; subst; [eapply runs_on; eassumption|].
    assert (a2 = a /\ rest2 = rest) as [-> ->] by (split; congruence). apply IH; [reflexivity|exact N1|exact G2].
Qed.
Lemma loop_err {E : Env} d : bytes d -> forall m f p n pend s acc e,
  (length d - p <= m)%nat -> (m < f)%nat -> (p <= length d)%nat ->
  entry d p n pend s -> last_is_indirect acc = false -> read_actions f 0 acc s = Err e ->
  exists p' n' pend' s', (p' <= length d)%nat /\ runs pend (skipn p d) pend' (skipn p' d) /\ entry d p' n' pend' s'
    /\ read_action s' = Err e /\ (skipn p' d = [] -> pend' = true).
Proof.
  intros Hd. induction m as [m IH] using (well_founded_induction lt_wf). intros f p n pend s acc e Hm Hf Hp He Hacc H.
  destruct f as [|f]; [lia|]. pose proof (entry_end d p n pend s Hp He) as HE.
  destruct (skipn p d) as [|b tl] eqn:Sk.
  - rewrite (loop_step f acc s _ _ HE Hacc) in H. destruct pend; cbn [negb] in H; [|discriminate].
    pose proof (entry_action d p n true s Hd Hp He) as EA. rewrite Sk in EA. destruct EA as [e' EA].
    rewrite EA in H. assert (e' = e) by congruence. subst e'.
    exists p, n, true, s. split; [exact Hp|]. rewrite Sk. split; [constructor|]. split; [exact He|]. split; [exact EA|reflexivity].
  - assert (Lp : (p < length d)%nat).
    { destruct (Nat.ltb_spec p (length d)) as [L|L]; [exact L|]. rewrite skipn_all2 in Sk by exact L. discriminate. }
    destruct HE as (s1 & HE & He1). rewrite (loop_step f acc s _ _ HE Hacc) in H.
    pose proof (entry_action d p n pend s1 Hd Hp He1) as EA. rewrite Sk in EA. unfold OpAt in EA.
    rewrite at_byte_view, Sk in EA by exact Hd. fold (opcode_at pend b) in EA.
    destruct (dec_operand (opcode_at pend b) (b :: tl)) as [[a rest]|] eqn:Eo.
    2: { destruct EA as [e' EA]. rewrite EA in H. assert (e' = e) by congruence. subst e'.
         exists p, n, pend, s1. split; [exact Hp|]. rewrite Sk. split; [constructor|]. split; [exact He1|]. split; [exact EA|discriminate]. }
    destruct EA as (k & Hk1 & Hk & Hs & Hr). rewrite at_byte_length in Hk. rewrite Hr in H.
    destruct (after_operand d p (n + 8) a k ltac:(lia) Hk1) as (n' & He2 & Hb2 & Hn').
    assert (Hrest : rest = skipn (p + k) d) by (rewrite Hs, <- Sk, skipn_skipn; reflexivity).
    destruct (is_indirect a) eqn:Hi.
    + destruct f as [|f]; [lia|]. exfalso.
      destruct (loop_stop d (p + k) n' (is_tx a) _ (acc ++ [a]) f ltac:(lia) He2 ltac:(rewrite last_indirect_snoc; exact Hi)) as (s' & Hl & Hbs).
      congruence.
    + destruct (IH (length d - (p + k))%nat ltac:(lia) f (p + k)%nat n' (is_tx a) _ (acc ++ [a]) e ltac:(lia) ltac:(lia) ltac:(lia) He2
        ltac:(rewrite last_indirect_snoc; exact Hi) H) as (p' & n2 & pend' & s' & Hp' & HR & He' & Hs' & Hend).
      exists p', n2, pend', s'. split; [exact Hp'|]. split; [|auto]. eapply runs_on; [exact Eo|exact Hi|]. rewrite Hrest. exact HR.
Qed.
Lemma command_ends {E : Env} d : bytes d -> (exists s c, bytes s /\ acts false (d ++ s) = Some (c, [])) -> command_can_end d.
Proof.
  intros Hd (s & c & Bs & H). exists s, c. split; [exact Bs|].
  pose proof (decode_command_try_from (d ++ s) ltac:(apply Forall_app; split; assumption)) as D.
  unfold dec_command in D. fold (acts false (d ++ s)) in D. rewrite H in D. cbn [length] in D.
  pose proof (count_tx_le c). destruct (Nat.leb_spec (4 * 0 + count_tx c) (4 * length c)); [exact D|lia].
Qed.
Lemma command_error {E : Env} d e : bytes d -> acts false d = None -> command_try_from d = Err e ->
  exists p' n' pend' s', (p' <= length d)%nat /\ runs false d pend' (skipn p' d) /\ entry d p' n' pend' s'
    /\ read_action s' = Err e /\ (skipn p' d = [] -> pend' = true).
Proof.
  intros Hd Ha He. unfold command_try_from in He. rewrite u_try_from_eq in He.
  pose proof (decode_command d Hd) as D. unfold dec_command in D. fold (acts false d) in D. rewrite Ha in D. destruct D as [e' D].
  rewrite D in He. assert (e' = e) by congruence. subst e'. unfold read_command in D. cbn [data new_reader] in D.
  exact (loop_err d Hd (length d) (S (length d)) 0%nat 0%nat false (new_reader d) [] e ltac:(lia) ltac:(lia) ltac:(lia) (entry_plain d 0 0) eq_refl D).
Qed.
Lemma stuck_dead {E : Env} op b l : bytes (b :: l) -> stuck op (b :: l) -> dec_operand op (b :: l) = None.
Proof. intros Hb H. rewrite <- (app_nil_r l). apply stuck_ends; [exact Hb|constructor|exact H]. Qed.
Lemma runs_bytes {E : Env} p l p1 l1 : runs p l p1 l1 -> bytes l -> bytes l1.
Proof.
  intros H. induction H as [|p b l a rest p' l' Ho Hi H IH]; intros B; [exact B|]. apply IH.
  destruct (operand_takes _ _ _ _ Ho) as (b' & q & Hq & _). rewrite Hq in B. apply Forall_app in B. apply B.
Qed.
Lemma command_stuck_dead {E : Env} d t : bytes d -> bytes t -> command_stuck d -> acts false (d ++ t) = None.
Proof.
  intros Hd Bt (p & b & l & HR & Hs). pose proof (runs_acts _ _ _ _ (runs_app _ _ _ _ t HR)) as A.
  cbn [app] in A. rewrite acts_step in A. unfold next in A. fold (opcode_at p b) in A.
  rewrite (stuck_ends (opcode_at p b) b l t (runs_bytes _ _ _ _ HR Hd) Bt Hs) in A. exact A.
Qed.
Lemma command_incomplete {E : Env} d e : bytes d -> command_try_from d = Err e ->
  (e = EIncomplete <-> command_can_end d \/ command_stuck d).
Proof.
  intros Hd He. destruct (acts false d) as [[c rest]|] eqn:Ha.
  - pose proof (decode_command_try_from d Hd) as D. unfold dec_command in D. fold (acts false d) in D. rewrite Ha in D.
    destruct (Nat.leb_spec (4 * length rest + count_tx c) (4 * length c)) as [L|L]; [congruence|].
    assert (e = ETooMuchData) as -> by congruence. split; [discriminate|]. intros [(s & c' & Bs & Hc)|Hs].
    + exfalso. pose proof (acts_join (length d) false d c rest s (le_n _) Ha) as J.
      destruct (is_open c); [destruct J as [-> _]; pose proof (count_tx_le c); cbn [length] in L; lia|].
      pose proof (decode_command_try_from (d ++ s) ltac:(apply Forall_app; split; assumption)) as D2.
      unfold dec_command in D2. fold (acts false (d ++ s)) in D2. rewrite J in D2. rewrite app_length in D2.
      destruct (Nat.leb_spec (4 * (length rest + length s) + count_tx c) (4 * length c)); [lia|congruence].
    + exfalso. pose proof (command_stuck_dead d [] Hd ltac:(constructor) Hs) as A. rewrite app_nil_r in A. congruence.
  - destruct (command_error d e Hd Ha He) as (p & n & pend & s & Hp & HR & Hen & Hs & Hend).
    pose proof (entry_err d p n pend s e Hd Hp Hen Hs) as EE.
    destruct (skipn p d) as [|b l].
    + rewrite (Hend eq_refl) in *. split; [|intros _; exact EE]. intros _. left. apply command_ends; [exact Hd|]. exists [0].
      pose proof (runs_acts _ _ _ _ (runs_app _ _ _ _ [0] HR)) as A.
      assert (A0 : acts true ([] ++ [0]) = Some ([ANop (mkNop (mkHeader false false) 0)], [])) by reflexivity.
      rewrite A0 in A. destruct A as [c' A]. exists c'. split; [repeat constructor|exact A].
    + destruct EE as (Hx & No & Keep). split.
      * intros H0. apply Hx in H0 as [(t & v & Bt & Ht)|Hst]; [left|right; exists pend, b, l; split; assumption].
        apply command_ends; [exact Hd|].
        destruct (is_tx v) eqn:Htx.
        -- exists (t ++ [0]). pose proof (runs_acts _ _ _ _ (runs_app _ _ _ _ (t ++ [0]) HR)) as A.
           destruct (operand_takes _ _ _ _ Ht) as (b' & q & Hq & Hs'). rewrite app_nil_r in Hq. specialize (Hs' [0]). rewrite <- Hq in Hs'.
           cbn [app] in A, Hs'. rewrite <- app_assoc in Hs'. rewrite acts_step in A. unfold next in A. fold (opcode_at pend b) in A. rewrite Hs' in A.
           assert (Hi : is_indirect v = false) by (destruct v; try discriminate; reflexivity). rewrite Hi, Htx in A.
           assert (A0 : acts true [0] = Some ([ANop (mkNop (mkHeader false false) 0)], [])) by reflexivity.
           rewrite A0 in A. destruct A as [c' A]. exists c'. split; [apply Forall_app; split; [exact Bt|repeat constructor]|exact A].
        -- exists t. pose proof (runs_acts _ _ _ _ (runs_app _ _ _ _ t HR)) as A.
           cbn [app] in A. rewrite acts_step in A. unfold next in A. fold (opcode_at pend b) in A. rewrite Ht in A.
           assert (A0 : acts (is_tx v) [] = Some ([], [])) by (unfold acts; rewrite actions_nil, Htx; reflexivity). rewrite A0 in A.
           destruct (is_indirect v); destruct A as [c' A]; exists c'; (split; [exact Bt|exact A]).
      * intros [(t & c & Bt & Hc)|(p2 & b2 & l2 & HR2 & Hst)].
        -- assert (De : e = EIncomplete \/ e <> EIncomplete) by (destruct e; (left; reflexivity) || (right; discriminate)).
           destruct De as [De|De]; [exact De|]. exfalso. pose proof (runs_acts _ _ _ _ (runs_app _ _ _ _ t HR)) as A.
           cbn [app] in A. rewrite acts_step in A. unfold next in A. fold (opcode_at pend b) in A. rewrite (Keep De t Bt) in A.
           pose proof (decode_command_try_from (d ++ t) ltac:(apply Forall_app; split; assumption)) as D2.
           unfold dec_command in D2. fold (acts false (d ++ t)) in D2. rewrite A in D2. destruct D2 as [e2 D2]. congruence.
        -- apply Hx. right. pose proof (stuck_dead _ _ _ (runs_bytes _ _ _ _ HR2 Hd) Hst) as N2.
           pose proof (runs_det _ _ _ _ _ HR2 N2 _ _ HR) as G. inversion G as [|? ? ? a rest ? ? Ho]; subst; [exact Hst|].
           rewrite No in Ho. discriminate.
Qed.
Lemma command_stuck_spec {E : Env} d : bytes d -> command_stuck d -> command_try_from d = Err EIncomplete /\ ~ command_can_end d.
Proof.
  intros Hd Hs. split.
  - pose proof (command_stuck_dead d [] Hd ltac:(constructor) Hs) as A. rewrite app_nil_r in A.
    pose proof (decode_command_try_from d Hd) as D. unfold dec_command in D. fold (acts false d) in D. rewrite A in D. destruct D as [e D].
    rewrite D. f_equal. apply (command_incomplete d e Hd D). right. exact Hs.
  - intros (t & c & Bt & Hc). pose proof (command_stuck_dead d t Hd Bt Hs) as A.
    pose proof (decode_command_try_from (d ++ t) ltac:(apply Forall_app; split; assumption)) as D2.
    unfold dec_command in D2. fold (acts false (d ++ t)) in D2. rewrite A in D2. destruct D2 as [e2 D2]. congruence.
Qed.

(** ** Witnesses *)
Lemma stuck_witness {E : Env} : action_stuck [0x62; 2].
Proof.
  exists 0x62, [2]. split; [reflexivity|]. left. split; [reflexivity|]. exists 0x62, 2, []. repeat split. left. reflexivity.
Qed.
Lemma incomplete_refuted {E : Env} : exists d, bytes d /\ action_from_bytes d 0 = Err EIncomplete /\ ~ action_can_end d.
Proof.
  exists [0x62; 2]. assert (B : bytes [0x62; 2]) by (repeat constructor). split; [exact B|].
  apply action_stuck_spec; [exact B|apply stuck_witness].
Qed.
