(** Lemmas for C77: the loop over the actions of a frame. *)
From Coq Require Import List NArith ZArith Bool Lia ZifyBool ZifyNat ZifyN Arith.
From Verif Require Import Base Deku Utils Types Physical Link Network Session Data Query
  Interface File Operation Action Command Frames WellFormed SpecLayout SpecAction SpecDecode SpecStream SpecLive LUtf8 LBits LReader LLayout
  LNice LNiceOps LActionApi LReturn LFiles LStream LDecode LDecodeTypes LDecodeOps LDecodeAct LDecodeCmd LDecodeTx LDecodeLoop LJoin
  LLive LLiveOps LLiveAct LLiveCmd LLiveTx LLiveTop LLiveLoop LErr LErrTop LFrameStream LDecodeFrame LFrameLive SpecFrameDecode SpecFrameLive.
Import ListNotations.
Open Scope N_scope.

Lemma goes_on_eq limit pos : goes_on limit pos <-> (limit =? 0) || (pos <? limit) = true.
Proof. unfold goes_on. lia. Qed.
Lemma opcode_in_bound limit pend b : opcode_in limit pend b < 64.
Proof. unfold opcode_in. apply (part_below _ 6). Qed.
Lemma steps_bytes {E : Env} limit pos pend l pos' pend' l' : steps limit pos pend l pos' pend' l' -> bytes l -> bytes l'.
Proof.
  intros H. induction H as [|pos pend b l a rest pos' pend' l' Hg Ho Hi H IH]; intros B; [exact B|]. apply IH.
  destruct (operand_takes _ _ _ _ Ho) as (b' & q & Hq & _). rewrite Hq in B. apply Forall_app in B. apply B.
Qed.
Lemma steps_app {E : Env} limit pos pend l pos' pend' l' t : steps limit pos pend l pos' pend' l' ->
  steps limit pos pend (l ++ t) pos' pend' (l' ++ t).
Proof.
  intros H. induction H as [|pos pend b l a rest pos' pend' l' Hg Ho Hi H IH]; [constructor|].
  destruct (operand_takes _ _ _ _ Ho) as (b' & q & Hq & Hs).
  cbn [app]. apply steps_on with (a := a) (rest := rest ++ t).
  - exact Hg.
  - change (b :: l ++ t) with ((b :: l) ++ t). rewrite Hq, <- app_assoc. apply Hs.
  - exact Hi.
  - replace (length (b :: l ++ t) - length (rest ++ t))%nat with (length (b :: l) - length rest)%nat
      by (change (b :: l ++ t) with ((b :: l) ++ t); rewrite !app_length; lia). exact IH.
Qed.
Lemma steps_snoc {E : Env} limit pos pend l pos1 pend1 b l1 a rest : steps limit pos pend l pos1 pend1 (b :: l1) ->
  goes_on limit pos1 -> dec_operand (opcode_in limit pend1 b) (b :: l1) = Some (a, rest) -> is_indirect a = false ->
  steps limit pos pend l (pos1 + N.of_nat (length (b :: l1) - length rest)) (if is_tx a then 2 else 0) rest.
Proof.
  intros H. remember (b :: l1) as x eqn:Ex. revert Ex. induction H as [pos pend l|pos pend c l a' rest' pos' pend' l' Hg Ho Hi H IH]; intros Ex G O I.
  - subst l. eapply steps_on; [exact G|exact O|exact I|constructor].
  - subst l'. eapply steps_on; [exact Hg|exact Ho|exact Hi|]. apply IH; [reflexivity|exact G|exact O|exact I].
Qed.
Lemma dec_limited_step {E : Env} g limit pos pend b l : goes_on limit pos ->
  dec_limited (S g) limit pos pend (b :: l) =
  match dec_operand (opcode_in limit pend b) (b :: l) with
  | Some (a, rest) =>
      if is_indirect a then Some ([a], rest)
      else match dec_limited g limit (pos + N.of_nat (length (b :: l) - length rest)) (if is_tx a then 2 else 0) rest with
           | Some (c, rest') => Some (a :: c, rest')
           | None => None
           end
  | None => None
  end.
Proof. intros H. apply goes_on_eq in H. cbn [dec_limited]. rewrite H. reflexivity. Qed.
(** The loop does what it does where the steps lead. *)
Lemma steps_limited {E : Env} limit pos pend l pos' pend' l' : steps limit pos pend l pos' pend' l' -> forall g, (length l <= g)%nat ->
  exists g' c, (length l' <= g')%nat /\ dec_limited g limit pos pend l =
    match dec_limited g' limit pos' pend' l' with Some (c', r) => Some (c ++ c', r) | None => None end.
Proof.
  intros H. induction H as [pos pend l|pos pend b l a rest pos' pend' l' Hg Ho Hi H IH]; intros g Lg.
  - exists g, []. split; [exact Lg|]. destruct (dec_limited g limit pos pend l) as [[c r]|]; reflexivity.
  - destruct g as [|g]; [cbn [length] in Lg; lia|]. rewrite dec_limited_step by exact Hg. rewrite Ho, Hi.
    destruct (operand_takes _ _ _ _ Ho) as (b' & q & Hq & _).
    assert (Lr : (length rest <= g)%nat) by (apply (f_equal (@length N)) in Hq; cbn [app length] in *; rewrite app_length in Hq; lia).
    destruct (IH g Lr) as (g' & c & Lg' & ->). exists g', (a :: c). split; [exact Lg'|].
    destruct (dec_limited g' limit pos' pend' l') as [[c' r]|]; reflexivity.
Qed.
Lemma steps_det {E : Env} limit pos pend l pos1 pend1 b1 l1 : steps limit pos pend l pos1 pend1 (b1 :: l1) ->
  dec_operand (opcode_in limit pend1 b1) (b1 :: l1) = None ->
  forall pos2 pend2 l2, steps limit pos pend l pos2 pend2 l2 -> steps limit pos2 pend2 l2 pos1 pend1 (b1 :: l1).
Proof.
  intros H N1. remember (b1 :: l1) as x eqn:Ex. induction H as [pos pend l|pos pend b l a rest pos' pend' l' Hg Ho Hi H IH]; intros pos2 pend2 l2 G.
  - subst l. inversion G as [|? ? ? ? a rest ? ? ? Hg Ho]; subst; [constructor|]. congruence.
  - inversion G as [|? ? ? ? a2 rest2 ? ? ? Hg2 Ho2 Hi2 G2]; subst; [eapply steps_on; eassumption|].
    assert (a2 = a /\ rest2 = rest) as [-> ->] by (split; congruence). apply IH; [reflexivity|exact N1|exact G2].
Qed.
(** At the end of the bytes, a command can always be ended, and a checksum added. *)
Lemma zeros_limited {E : Env} limit n : limit <> 0 -> forall pos pend, pos + N.of_nat n = limit ->
  exists c, dec_limited (n + 2) limit pos pend (repeat 0 (n + 2)) = Some (c, [0; 0]).
Proof.
  intros HL. induction n as [|n IH]; intros pos pend Hp.
  - exists []. apply limited_zero. lia.
  - change (repeat 0 (S n + 2)) with (0 :: repeat 0 (n + 2)). change (S n + 2)%nat with (S (n + 2)).
    rewrite dec_limited_step by (right; lia).
    assert (O : dec_operand (opcode_in limit pend 0) (0 :: repeat 0 (n + 2)) = Some (ANop (mkNop (mkHeader false false) 0), repeat 0 (n + 2))).
    { unfold opcode_in. destruct (N.eqb_spec limit 0); [contradiction|]. reflexivity. }
    rewrite O. cbn [is_indirect is_tx]. destruct (IH (pos + N.of_nat (length (0 :: repeat 0 (n + 2)) - length (repeat 0 (n + 2)))) 0) as [c Hc].
    { cbn [length]. lia. }
    rewrite Hc. eexists. reflexivity.
Qed.
Lemma limited_ends {E : Env} limit pos pend : pend = 0 \/ pend = 1 \/ pend = 2 ->
  exists s c, bytes s /\ dec_limited (length s) limit pos pend s = Some (c, [0; 0]).
Proof.
  intros Hp. destruct (N.eq_dec limit 0) as [->|HL].
  - destruct Hp as [->|[->| ->]]; [exists [51; 0; 0]|exists [102; 0; 0]|exists [204; 0; 0; 0]];
      destruct E as [[] [] []]; eexists; (split; [repeat constructor|vm_compute; reflexivity]).
  - destruct (N.le_gt_cases limit pos) as [L|L].
    + exists [0; 0], []. split; [repeat constructor|]. apply limited_zero. lia.
    + destruct (zeros_limited limit (N.to_nat (limit - pos)) HL pos pend ltac:(lia)) as [c Hc].
      exists (repeat 0 (N.to_nat (limit - pos) + 2)), c. split; [apply bytes_repeat|]. rewrite repeat_length. exact Hc.
Qed.
Lemma limited_fuel {E : Env} g : forall g' limit pos pend l, (length l <= g)%nat -> (length l <= g')%nat ->
  dec_limited g limit pos pend l = dec_limited g' limit pos pend l.
Proof.
  induction g as [|g IH]; intros g' limit pos pend l L L'.
  - destruct l; [|cbn in L; lia]. destruct g'; reflexivity.
  - destruct ((limit =? 0) || (pos <? limit)) eqn:G; [|rewrite !limited_zero by exact G; reflexivity].
    destruct l as [|b l]; [destruct g'; reflexivity|]. destruct g' as [|g']; [cbn in L'; lia|].
    apply goes_on_eq in G. rewrite !dec_limited_step by exact G.
    destruct (dec_operand (opcode_in limit pend b) (b :: l)) as [[a rest]|] eqn:Ho; [|reflexivity]. destruct (is_indirect a); [reflexivity|].
    destruct (operand_takes _ _ _ _ Ho) as (b' & q & Hq & _).
    assert (Lr : (length rest <= length l)%nat) by (apply (f_equal (@length N)) in Hq; cbn [app length] in *; rewrite app_length in Hq; lia).
    cbn [length] in L, L'. rewrite (IH g') by lia. reflexivity.
Qed.
(** A command that was accepted can be continued so that a checksum follows. *)
Lemma limited_continue {E : Env} g : forall limit pos pend l c r, (length l <= g)%nat -> pend = 0 \/ pend = 1 \/ pend = 2 ->
  dec_limited g limit pos pend l = Some (c, r) ->
  exists t c' r', bytes t /\ dec_limited (length (l ++ t)) limit pos pend (l ++ t) = Some (c', r') /\ (2 <= length r')%nat.
Proof.
  induction g as [|g IH]; intros limit pos pend l c r L Hp H.
  - destruct l; [|cbn in L; lia]. destruct (limited_ends limit pos pend Hp) as (s & c' & Bs & Hs). exists s, c', [0; 0].
    split; [exact Bs|]. split; [exact Hs|cbn; lia].
  - destruct ((limit =? 0) || (pos <? limit)) eqn:G.
    2: { exists [0; 0], [], (l ++ [0; 0]). split; [repeat constructor|]. split; [apply limited_zero; exact G|rewrite app_length; cbn; lia]. }
    destruct l as [|b l].
    { destruct (limited_ends limit pos pend Hp) as (s & c' & Bs & Hs). exists s, c', [0; 0]. split; [exact Bs|]. split; [exact Hs|cbn; lia]. }
    apply goes_on_eq in G. rewrite dec_limited_step in H by exact G. cbn [length] in L.
    destruct (dec_operand (opcode_in limit pend b) (b :: l)) as [[a rest]|] eqn:Ho; [|discriminate].
    destruct (operand_takes _ _ _ _ Ho) as (b' & q & Hq & Hs). assert (b' = b) by (cbn [app] in Hq; congruence). subst b'.
    assert (Lr : (length rest <= length l)%nat) by (apply (f_equal (@length N)) in Hq; cbn [app length] in *; rewrite app_length in Hq; lia).
    assert (Lt : forall t, dec_operand (opcode_in limit pend b) (b :: l ++ t) = Some (a, rest ++ t)).
    { intros t. change (b :: l ++ t) with ((b :: l) ++ t). rewrite Hq, <- app_assoc. apply Hs. }
    destruct (is_indirect a) eqn:Hi.
    + exists [0; 0], [a], (rest ++ [0; 0]). split; [repeat constructor|]. split; [|rewrite app_length; cbn; lia].
      cbn [app length]. rewrite dec_limited_step by exact G. rewrite Lt, Hi. reflexivity.
    + destruct (dec_limited g limit _ _ rest) as [[c1 r1]|] eqn:ER; [|discriminate].
      assert (Hp' : (if is_tx a then 2 else 0) = 0 \/ (if is_tx a then 2 else 0) = 1 \/ (if is_tx a then 2 else 0) = 2) by (destruct (is_tx a); auto).
      destruct (IH _ _ _ rest c1 r1 ltac:(lia) Hp' ER) as (t & c' & r' & Bt & Ht & L2).
      exists t, (a :: c'), r'. split; [exact Bt|]. split; [|exact L2].
      cbn [app length]. rewrite dec_limited_step by exact G. rewrite Lt, Hi.
      replace (length (b :: l ++ t) - length (rest ++ t))%nat with (length (b :: l) - length rest)%nat by (cbn [length]; rewrite !app_length; lia).
      rewrite (limited_fuel _ (length (rest ++ t))) by (rewrite ?app_length; lia). rewrite Ht. reflexivity.
Qed.
Lemma from_reader_0 {A} (m : reader A) d : d_from_reader m d 0 =
  match m (new_reader d) with Ok (v, r) => Ok (bread r, v) | Err e => Err e | Panic => Panic end.
Proof. unfold d_from_reader. rewrite start_0. destruct (m (new_reader d)) as [[v r]| |]; reflexivity. Qed.
Lemma num_there {E : Env} l : (2 <= length l)%nat -> exists x rest, host_num 2 l = Some (x, rest).
Proof. intros H. unfold host_num, andthen, some_bytes. destruct (N.leb_spec 2 (N.of_nat (length l))); [|lia]. eexists _, _. reflexivity. Qed.
Definition lost_bits {E : Env} : N := match e_feat with Wizzilab => 1 | _ => 0 end.
Lemma frame_ends {E : Env} d limit link net l1 : bytes d -> dec_head d = Some ((limit, link, net), l1) ->
  (exists t c r, bytes t /\ dec_limited (length (l1 ++ t)) limit (N.of_nat (length d - length l1)) lost_bits (l1 ++ t) = Some (c, r) /\ (2 <= length r)%nat) ->
  frame_can_end d.
Proof.
  intros Bd HH (t & c & r & Bt & HL & L2). exists t. destruct (num_there r L2) as (crc & rest & Hc).
  destruct (Loc_head _ _ _ HH) as (p & Hp & Hs). specialize (Hs (l1 ++ t)).
  assert (HF : dec_fframe (d ++ t) = Some (link (net c) crc, rest)).
  { unfold dec_head in Hs. apply andthen_some in Hs as ((n & k) & l0 & E1 & Hs). apply andthen_some in Hs as (h & l0' & E2 & Hs).
    unfold give in Hs. injection Hs as -> -> -> ->. rewrite Hp, <- app_assoc. unfold dec_fframe. rewrite E1, E2.
    replace (length (p ++ l1 ++ t) - length (l1 ++ t))%nat with (length d - length l1)%nat by (rewrite Hp, !app_length; lia).
    unfold lost_bits in HL. rewrite HL, Hc. reflexivity. }
  pose proof (fframe_at (d ++ t) ltac:(apply Forall_app; split; assumption)) as F. rewrite HF in F. destruct F as (s & F & _).
  rewrite from_reader_0, F. eexists. split; [exact Bt|reflexivity].
Qed.
