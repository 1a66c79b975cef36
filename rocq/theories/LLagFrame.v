(** Lemmas for C74 and C78: frames, whether or not unknown ids are put back. *)
From Coq Require Import List NArith ZArith Bool Lia ZifyBool ZifyNat ZifyN Arith.
From Verif Require Import Base Deku Utils Types Physical Link Network Session Data Query
  Interface File Operation Action Command Frames WellFormed SpecLayout SpecApi SpecAction SpecDecode SpecCanonical SpecFail SpecGrow SpecExact
  SpecFrames SpecFrameAgain LBits LReader LLayout LNumbers LDecode LCanon LActionApi LCommandApi LFail LWrite LSize LDecodeLoop
  LGrow LExact LUnknown LCanonTop LLag LLagUse LFrames LFrameAgain LFrameAll LDecodeFrame LFrameLive LFrameLiveLoop LFrameCanon LFrameCanonTop SpecFrameDecode SpecFrameCanonical.
Import ListNotations.
Open Scope N_scope.

Lemma enc_size {E : Env} a : parsed_action a -> is_tx a = false -> (length (enc_action a) <= size_of a)%nat.
Proof.
  intros P T. pose proof (command_total [a] (enc_action a)) as S.
  assert (X : command_to_bytes [a] = Ok (enc_action a)).
  { rewrite (LCanonTop.command_cons _ [] (parsed_W _ P T)). unfold command_to_bytes, to_bytes, write_command.
    cbn [write_list wnil rbind]. rewrite app_nil_r. reflexivity. }
  specialize (S X). unfold total in S. cbn [map list_sum fold_right] in S.
  assert (is_tx_status a = false) as Q by (destruct a; try reflexivity; discriminate T). rewrite Q in S. lia.
Qed.
Lemma behind_limited {E : Env} k : e_feat <> Wizzilab -> forall limit pos r c rest q s, bytes r ->
  dec_limited k limit pos 0 r = Some (c, rest) -> q <> [] -> q ++ r = enc_command c ++ s -> (length rest < length s)%nat.
Proof.
  intros HF. assert (Done : forall q r s : list N, q <> [] -> q ++ r = s -> (length r < length s)%nat).
  { intros q r s Hq <-. rewrite app_length. destruct q; [congruence|cbn [length]; lia]. }
  induction k as [|k IH]; intros limit pos r c rest q s Hr H Hq Hs; rewrite limited_eq in H.
  - destruct (on limit pos); [destruct r; [|discriminate]|]; injection H as <- <-; exact (Done q _ s Hq Hs).
  - destruct (on limit pos); [|injection H as <- <-; exact (Done q _ s Hq Hs)].
    destruct r as [|b l]; [injection H as <- <-; exact (Done q _ s Hq Hs)|].
    destruct (dec_action (b :: l)) as [[a r1]|] eqn:D; [|discriminate].
    destruct (action_plainly _ _ _ HF Hr D) as ((P & T) & B1).
    destruct (operand_suffix b l false a r1 Hr D) as (p & Hp1).
    destruct (operand_size _ _ _ _ Hr D) as (_ & Sz).
    pose proof (enc_size a P T) as La.
    assert (exists c', c = a :: c' /\ (c' = [] /\ rest = r1 \/ dec_limited k limit (pos + N.of_nat (length (b :: l) - length r1)) 0 r1 = Some (c', rest)))
      as (c' & -> & Hc').
    { rewrite T in H. destruct (is_indirect a); [injection H as <- <-; eauto|].
      destruct (dec_limited k limit _ 0 r1) as [[c' r']|]; [|discriminate]. injection H as <- <-. eauto. }
    clear H. unfold enc_command in Hs. cbn [flat_map] in Hs. fold (enc_command c') in Hs. rewrite <- app_assoc in Hs.
    assert (Lp : length (b :: l) = (length p + length r1)%nat) by (rewrite Hp1; apply app_length).
    assert (Hlen : (1 <= length q)%nat) by (destruct q; [congruence|cbn [length]; lia]).
    assert (Big : (length (enc_action a) + 1 <= length q + length p)%nat).
    { destruct (swells a) eqn:Sw; [|lia]. destruct (Nat.leb_spec 2 (length q)) as [L|L]; [lia|]. exfalso.
      destruct (parsed_W a P T) as (Wa & _).
      refine (swell_stuck b l false a r1 _ (bits_of_bytes q) (bits_of_bytes (enc_command c' ++ s)) Hr D Sw Wa _ _).
      - rewrite bits_of_bytes_length. cbn [In]. lia.
      - rewrite <- !bits_of_bytes_app, Hs. reflexivity. }
    rewrite Hp1, app_assoc in Hs.
    rewrite <- (firstn_skipn (length (enc_action a)) (q ++ p)), <- app_assoc in Hs. apply app_inj_length in Hs as (_ & Hs).
    2:{ rewrite firstn_length, app_length. lia. }
    assert (Hq' : skipn (length (enc_action a)) (q ++ p) <> []).
    { intros Q. apply (f_equal (@length N)) in Q. rewrite skipn_length, app_length in Q. cbn [length] in Q. lia. }
    destruct Hc' as [(-> & ->)|Hc'].
    + exact (Done _ _ _ Hq' Hs).
    + exact (IH _ _ _ _ _ _ _ B1 Hc' Hq' Hs).
Qed.
Lemma split_longer {A} (p r e s : list A) : p ++ r = e ++ s -> (length r < length s)%nat -> exists q, q <> [] /\ s = q ++ r.
Proof.
  intros H L. assert (X : (length e <= length p)%nat) by (apply (f_equal (@length A)) in H; rewrite !app_length in H; lia).
  rewrite <- (firstn_skipn (length e) p), <- app_assoc in H. apply app_inj_length in H as (_ & H).
  2:{ rewrite firstn_length. lia. }
  exists (skipn (length e) p). split; [|symmetry; exact H]. intros Q. rewrite Q in H. cbn [app] in H. subst. lia.
Qed.
(** An action that is written as what follows, of which there is too much or just enough. *)
Lemma written_or_behind {E : Env} l a rest s : bytes l -> dec_action l = Some (a, rest) -> is_tx a = false -> l = enc_action a ++ s ->
  s = rest /\ strict_action l = Some (a, rest) \/ exists q, q <> [] /\ s = q ++ rest.
Proof.
  intros Hl D T Hs. pose proof (canon_action l Hl) as C. rewrite D in C. destruct C as [(C & _)|(_ & Ce & C)]; [congruence|].
  destruct (Ce s Hs) as [->|(_ & G)].
  - left. split; [reflexivity|]. destruct C as [(C & _)|(_ & C)]; [exact C|contradiction].
  - right. destruct l as [|b l]; [discriminate|]. destruct (operand_suffix b l false a rest Hl D) as (p & Hp).
    apply (split_longer p rest (enc_action a) s); [rewrite <- Hp; exact Hs|exact G].
Qed.
Lemma loop_canon_enough {E : Env} k : e_feat <> Wizzilab -> forall limit pos l c l2 s, bytes l ->
  dec_limited k limit pos 0 l = Some (c, l2) -> l = enc_command c ++ s -> (length s <= length l2)%nat ->
  strict_limited k limit pos l = Some (c, l2) /\ l2 = s.
Proof.
  intros HF. induction k as [|k IH]; intros limit pos l c l2 s Hl H Hs Le; rewrite limited_eq in H; rewrite strict_limited_eq.
  - destruct (on limit pos); [destruct l; [|discriminate]|]; injection H as <- <-; split; try reflexivity; exact Hs.
  - destruct (on limit pos); [|injection H as <- <-; split; [reflexivity|exact Hs]].
    destruct l as [|b l]; [injection H as <- <-; split; [reflexivity|exact Hs]|].
    destruct (dec_action (b :: l)) as [[a rest]|] eqn:D; [|discriminate].
    destruct (action_plainly _ _ _ HF Hl D) as ((P & T) & B). destruct (is_indirect a) eqn:I.
    + injection H as <- <-. unfold enc_command in Hs. cbn [flat_map] in Hs. rewrite app_nil_r in Hs.
      destruct (written_or_behind _ _ _ _ Hl D T Hs) as [(-> & ->)|(q & Hq & ->)]; [rewrite I; split; reflexivity|].
      rewrite app_length in Le. destruct q; [congruence|cbn [length] in Le; lia].
    + rewrite T in H. destruct (dec_limited k limit _ 0 rest) as [[c' r']|] eqn:R; [|discriminate]. injection H as <- <-.
      unfold enc_command in Hs. cbn [flat_map] in Hs. fold (enc_command c') in Hs. rewrite <- app_assoc in Hs.
      destruct (written_or_behind _ _ _ _ Hl D T Hs) as [(Q & ->)|(q & Hq & Q)].
      * rewrite I. destruct (IH _ _ _ _ _ _ B R (eq_sym Q) Le) as (-> & ->). split; reflexivity.
      * exfalso. pose proof (behind_limited _ HF _ _ _ _ _ _ _ B R Hq (eq_sym Q)). lia.
Qed.
Lemma whole_found {E : Env} c : e_feat <> Wizzilab -> found_again c [].
Proof.
  intros HF k limit pos l1 l2 crc rest' B1 D N1 Hs. apply (loop_canon_enough _ HF _ _ _ _ _ _ B1 D Hs).
  rewrite app_nil_r. pose proof (loop_plainly _ HF _ _ _ _ _ B1 D) as (_ & B2).
  rewrite (host_num_canon _ _ _ B2 N1). rewrite app_length. lia.
Qed.
Lemma frame_canon_all {E : Env} d l rest v : e_feat <> Wizzilab -> d = l ++ rest -> bytes d ->
  rest = [] \/ e_rewind = true \/ Forall (fun a => forall l, a <> unknown_status l) (command_of v) ->
  ((exists n, d_from_reader read_fframe d 0 = Ok (n, v)) /\ fframe_to_bytes v = Ok l <-> strict_fframe d = Some (v, rest)).
Proof.
  intros HF Hd Bd [->|H]; [|apply frame_canon_other; assumption]. apply frame_canon_again; try assumption. apply whole_found. exact HF.
Qed.
Lemma strict_limited_known {E : Env} k : e_rewind = false -> forall limit pos l c l2, bytes l -> strict_limited k limit pos l = Some (c, l2) ->
  known_actions c.
Proof.
  intros R. induction k as [|k IH]; intros limit pos l c l2 Hl H; rewrite strict_limited_eq in H.
  - destruct (on limit pos); [destruct l; [|discriminate]|]; injection H as <- <-; constructor.
  - destruct (on limit pos); [|injection H as <- <-; constructor].
    destruct l as [|b l]; [injection H as <- <-; constructor|].
    destruct (strict_action (b :: l)) as [[a rest]|] eqn:S; [|discriminate]. pose proof (strict_known _ _ _ R Hl S) as N1.
    assert (Br : bytes rest).
    { pose proof (canon_action _ Hl) as C. destruct (dec_action (b :: l)) as [[a' r]|] eqn:D; [|congruence].
      destruct C as [(_ & C)|(_ & _ & [(C & _)|(C & _)])]; try congruence.
      assert (r = rest) as -> by congruence. exact (proj2 (dec_parsed _ _ _ Hl D)). }
    destruct (is_indirect a); [injection H as <- <-; constructor; [exact N1|constructor]|].
    destruct (strict_limited k limit _ rest) as [[c' r']|] eqn:S1; [|discriminate].
    injection H as <- <-. constructor; [exact N1|]. exact (IH _ _ _ _ _ Br S1).
Qed.
Lemma strict_frame_known {E : Env} d v rest : e_feat <> Wizzilab -> e_rewind = false -> bytes d -> strict_fframe d = Some (v, rest) ->
  known_actions (command_of v).
Proof.
  intros HF R Bd. unfold strict_fframe. pose proof (Can_link d Bd) as CL.
  assert (ST : forall limit pos last l, strict_tail limit pos last l = match strict_limited (length l) limit pos l with
      | Some (c, l') => match host_num 2 l' with Some (crc, rest) => Some (c, crc, rest) | None => None end
      | None => None
      end) by (intros; unfold strict_tail; destruct e_feat; congruence).
  assert (HL : lost = 0%nat) by (unfold lost; destruct e_feat; congruence).
  destruct (dec_link d) as [[[limit link] l0]|] eqn:DL; [|rewrite CL; discriminate].
  destruct CL as (B0 & t & T & RL & CL). cbn [app snd] in T. subst t.
  destruct CL as [(-> & CL)|(-> & _)]; [|discriminate].
  pose proof (head_canon l0 B0) as HC. unfold head_can in HC. rewrite HL in HC.
  destruct (dec_headers l0) as [[net l1]|] eqn:DH; [|rewrite HC; discriminate].
  destruct HC as (p & hb & w & H0 & Lp & Hb & Hw & Lb & HC).
  assert (B1 : bytes p /\ bytes l1) by (rewrite H0 in B0; apply Forall_app in B0; exact B0). destruct B1 as (Bp & B1).
  destruct HC as [(-> & HC)|(-> & _)]; [|discriminate]. rewrite ST.
  destruct (strict_limited (length l1) limit _ l1) as [[c l2]|] eqn:SC; [|discriminate].
  destruct (host_num 2 l2) as [[crc rest']|] eqn:DN; [|discriminate].
  intros G. assert (Q : v = link (net c) crc) by congruence.
  assert (Qc : command_of v = c) by (rewrite Q; unfold command_of; rewrite (dec_link_shape _ _ _ _ DL), (dec_headers_shape _ _ _ DH); reflexivity).
  rewrite Qc. exact (strict_limited_known _ R _ _ _ _ _ B1 SC).
Qed.
Lemma frame_bytes_ok {E : Env} v l : fframe_to_bytes v = Ok l -> bytes l.
Proof.
  unfold fframe_to_bytes, to_bytes. destruct (write_fframe v) as [x| |]; try discriminate. cbn [rbind]. intros H.
  apply Ok_inj in H. subst l. apply bytes_of_bits_bytes.
Qed.
Lemma frame_alone {E : Env} v : e_feat <> Wizzilab ->
  (frame_returns v <-> wf_fframe (without_command v) /\ Forall action_survives (command_of v) /\ indirect_last (command_of v) /\
     loop_stops v).
Proof.
  intros HF. split.
  - intros (l & n & W1 & T1). assert (He : e_rewind = true \/ known_actions (command_of v)).
    { destruct e_rewind eqn:R; [left; reflexivity|right]. pose proof (frame_bytes_ok v l W1) as B.
      apply (strict_frame_known l v [] HF R B). apply (frame_canon_all l l [] v HF (eq_sym (app_nil_r l)) B (or_introl eq_refl)). eauto. }
    apply (frame_all v HF He). exists l, [], n. rewrite app_nil_r. split; [exact W1|]. split; [constructor|exact T1].
  - intros (Hh & Sv & Hi & G).
    assert (So : sound v).
    { split; [split; [exact Hh|]|split; [|exact Hi]]; revert Sv; apply Forall_impl; intros a Ha; apply (survives_sound a Ha). }
    destruct (sound_frame_exact v [] HF So) as (H1 & _). destruct (H1 G) as (r & H & _). rewrite app_nil_r in H.
    exists (enc_fframe v), (bread r). split; [apply laid_bytes; apply So|]. apply LFrameAgain.from_reader_0. eauto.
Qed.
Lemma frame_followed {E : Env} v l : e_feat <> Wizzilab -> frame_returns v -> fframe_to_bytes v = Ok l ->
  forall suf, exists n, d_from_reader read_fframe (l ++ suf) 0 = Ok (n, v).
Proof.
  intros HF H W1 suf. apply frame_alone in H as (Hh & Sv & Hi & G); [|exact HF].
  assert (So : sound v).
  { split; [split; [exact Hh|]|split; [|exact Hi]]; revert Sv; apply Forall_impl; intros a Ha; apply (survives_sound a Ha). }
  rewrite (laid_bytes v ltac:(apply So)) in W1. apply Ok_inj in W1. subst l.
  destruct (sound_frame_exact v suf HF So) as (H1 & _). destruct (H1 G) as (r & H & _).
  exists (bread r). apply LFrameAgain.from_reader_0. eauto.
Qed.
