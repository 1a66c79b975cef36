(** Canonical frames. *)
From Coq Require Import List NArith ZArith Bool Lia ZifyBool ZifyNat ZifyN Arith.
From Verif Require Import Base Deku Utils Types Physical Link Network Session Data Query
  Interface File Operation Action Command Frames WellFormed SpecLayout SpecAction SpecDecode SpecCanonical SpecFrames LBits LReader
  LLayout LRound LRoundOps LAction LNumbers LNiceOps LNice LActionApi LReencode LCommandMore LExact LFrames
  LFrameAgain LDecode LDecodeLoop LDecodeFrame LCanon LCanonTypes LCanonOps LCanonAct LCanonTop LFrameStream LFrameLive LFrameLiveLoop
  LFrameCanon SpecFrameDecode SpecFrameCanonical.
Import ListNotations.
Open Scope N_scope.

(** ** Commands *)
Definition plainly {E : Env} (a : action) : Prop := parsed_action a /\ is_tx a = false.
Lemma W_plainly {E : Env} c : Forall plainly c -> W (write_command c) (enc_command c).
Proof.
  induction 1 as [|a c (P & T) _ IH]; [split; [reflexivity|constructor]|].
  unfold write_command in *. cbn [write_list]. unfold enc_command in *. cbn [flat_map].
  apply W_app; [apply parsed_W; assumption|exact IH].
Qed.
Lemma no_tx {E : Env} op l a rest : e_feat <> Wizzilab -> op < 64 -> dec_operand op l = Some (a, rest) -> is_tx a = false.
Proof.
  intros HF Ho H. rewrite (operand_tx _ _ _ _ H Ho). destruct (N.eqb_spec op 38) as [->|]; [|reflexivity].
  cbn [dec_operand] in H. destruct e_feat; try discriminate H. congruence.
Qed.
Definition on (limit pos : N) : bool := (limit =? 0) || (pos <? limit).
Lemma limited_eq {E : Env} k limit pos l : dec_limited k limit pos 0 l =
  if on limit pos then
    match k, l with
    | _, [] => Some ([], [])
    | O, _ => None
    | S k, _ =>
        match dec_action l with
        | Some (a, rest) =>
            if is_indirect a then Some ([a], rest)
            else match dec_limited k limit (pos + N.of_nat (length l - length rest)) (if is_tx a then 2 else 0) rest with
                 | Some (c, rest') => Some (a :: c, rest')
                 | None => None
                 end
        | None => None
        end
    end
  else Some ([], l).
Proof.
  destruct k; cbn [dec_limited]; unfold on; destruct (limit =? 0); destruct l; reflexivity.
Qed.
Lemma strict_limited_eq {E : Env} k limit pos l : strict_limited k limit pos l =
  if on limit pos then
    match k, l with
    | _, [] => Some ([], [])
    | O, _ => None
    | S k, _ =>
        match strict_action l with
        | Some (a, rest) =>
            if is_indirect a then Some ([a], rest)
            else match strict_limited k limit (pos + N.of_nat (length l - length rest)) rest with
                 | Some (c, rest') => Some (a :: c, rest')
                 | None => None
                 end
        | None => None
        end
    end
  else Some ([], l).
Proof. destruct k; reflexivity. Qed.
Lemma action_plainly {E : Env} l a rest : e_feat <> Wizzilab -> bytes l -> dec_action l = Some (a, rest) -> plainly a /\ bytes rest.
Proof.
  intros HF Hl H. destruct (dec_parsed _ _ _ Hl H) as (P & B). split; [split; [exact P|]|exact B].
  destruct l as [|b l]; [discriminate|]. apply Forall_cons_iff in Hl as [Hb _]. exact (no_tx _ _ _ _ HF (op_small b Hb) H).
Qed.
Lemma loop_plainly {E : Env} k : e_feat <> Wizzilab -> forall limit pos l c l2, bytes l ->
  dec_limited k limit pos 0 l = Some (c, l2) -> Forall plainly c /\ bytes l2.
Proof.
  intros HF. induction k as [|k IH]; intros limit pos l c l2 Hl H; rewrite limited_eq in H.
  - destruct (on limit pos); [destruct l; [|discriminate]|]; injection H as <- <-; split; (constructor || exact Hl).
  - destruct (on limit pos); [|injection H as <- <-; split; [constructor|exact Hl]].
    destruct l as [|b l]; [injection H as <- <-; split; constructor|].
    destruct (dec_action (b :: l)) as [[a rest]|] eqn:D; [|discriminate].
    destruct (action_plainly _ _ _ HF Hl D) as (P & B). destruct (is_indirect a).
    + injection H as <- <-. split; [constructor; [exact P|constructor]|exact B].
    + rewrite (proj2 P) in H. destruct (dec_limited k limit _ 0 rest) as [[c' r']|] eqn:R; [|discriminate]. injection H as <- <-.
      destruct (IH _ _ _ _ _ B R) as (P' & B'). split; [constructor; assumption|exact B'].
Qed.
Lemma plain_tail {E : Env} a c : plain_or_rewind (a :: c) -> plain_or_rewind c.
Proof. intros [H|H]; [left; exact H|right]. apply Forall_cons_iff in H. apply H. Qed.
(** An action that is written as what follows was read from nothing else. *)
Lemma action_written {E : Env} l a rest s : bytes l -> plain_or_rewind [a] -> dec_action l = Some (a, rest) -> is_tx a = false ->
  l = enc_action a ++ s -> s = rest /\ strict_action l = Some (a, rest).
Proof.
  intros Hl Hp D T Hs. pose proof (canon_action l Hl) as C. rewrite D in C. destruct C as [(C & _)|(_ & Ce & C)]; [congruence|].
  assert (Q : s = rest).
  { destruct (Ce s Hs) as [G|(G & _)]; [exact G|].
    destruct Hp as [Hp|Hp]; [congruence|]. apply Forall_cons_iff in Hp as [Hp _].
    destruct (dec_parsed _ _ _ Hl D) as [[Pw|[(p & -> & _)|(_ & v & -> & _)]] _]; [|contradiction (Hp p); reflexivity|discriminate].
    assert (Bs : bytes s). { rewrite Hs in Hl. apply Forall_app in Hl. apply Hl. }
    pose proof (decode_encoded a s Pw Bs) as R. rewrite <- Hs, D in R. congruence. }
  split; [exact Q|]. subst s. destruct C as [(C & _)|(_ & C)]; [exact C|contradiction].
Qed.
Lemma loop_canon {E : Env} k : e_feat <> Wizzilab -> forall limit pos l c l2 s, bytes l -> plain_or_rewind c ->
  dec_limited k limit pos 0 l = Some (c, l2) -> l = enc_command c ++ s ->
  strict_limited k limit pos l = Some (c, l2) /\ l2 = s.
Proof.
  intros HF. induction k as [|k IH]; intros limit pos l c l2 s Hl Hp H Hs; rewrite limited_eq in H; rewrite strict_limited_eq.
  - destruct (on limit pos); [destruct l; [|discriminate]|]; injection H as <- <-; split; try reflexivity; exact Hs.
  - destruct (on limit pos); [|injection H as <- <-; split; [reflexivity|exact Hs]].
    destruct l as [|b l]; [injection H as <- <-; split; [reflexivity|exact Hs]|].
    destruct (dec_action (b :: l)) as [[a rest]|] eqn:D; [|discriminate].
    destruct (action_plainly _ _ _ HF Hl D) as ((P & T) & B). destruct (is_indirect a) eqn:I.
    + injection H as <- <-. unfold enc_command in Hs. cbn [flat_map] in Hs. rewrite app_nil_r in Hs.
      destruct (action_written _ _ _ _ Hl Hp D T Hs) as (-> & ->). rewrite I. split; reflexivity.
    + rewrite T in H. destruct (dec_limited k limit _ 0 rest) as [[c' r']|] eqn:R; [|discriminate]. injection H as <- <-.
      unfold enc_command in Hs. cbn [flat_map] in Hs. rewrite <- app_assoc in Hs.
      assert (Hp1 : plain_or_rewind [a]).
      { destruct Hp as [Hp|Hp]; [left; exact Hp|right]. apply Forall_cons_iff in Hp as [Hp _]. constructor; [exact Hp|constructor]. }
      destruct (action_written _ _ _ _ Hl Hp1 D T Hs) as (Q & ->). rewrite I.
      destruct (IH _ _ _ _ _ _ B (plain_tail _ _ Hp) R (eq_sym Q)) as (-> & ->). split; reflexivity.
Qed.
Lemma loop_strict {E : Env} k : forall limit pos l c l2, bytes l -> strict_limited k limit pos l = Some (c, l2) ->
  dec_limited k limit pos 0 l = Some (c, l2) /\ l = enc_command c ++ l2 /\ Forall plainly c /\ bytes l2.
Proof.
  induction k as [|k IH]; intros limit pos l c l2 Hl H; rewrite strict_limited_eq in H; rewrite limited_eq.
  - destruct (on limit pos); [destruct l; [|discriminate]|]; injection H as <- <-; repeat split; try constructor; exact Hl.
  - destruct (on limit pos); [|injection H as <- <-; repeat split; try constructor; exact Hl].
    destruct l as [|b l]; [injection H as <- <-; repeat split; constructor|].
    pose proof (canon_action _ Hl) as C. destruct (dec_action (b :: l)) as [[a rest]|] eqn:D; [|rewrite C in H; discriminate].
    destruct C as [(_ & C)|(T & _ & [(C & Q)|(C & _)])]; rewrite C in H; try discriminate.
    destruct (dec_parsed _ _ _ Hl D) as (P & B). unfold enc_command. cbn [flat_map]. destruct (is_indirect a) eqn:I.
    + injection H as <- <-. cbn [flat_map]. rewrite app_nil_r. repeat split; try assumption. constructor; [split; assumption|constructor].
    + destruct (strict_limited k limit _ rest) as [[c' r']|] eqn:R; [|discriminate]. injection H as <- <-.
      destruct (IH _ _ _ _ _ B R) as (R1 & R2 & R3 & R4). rewrite T, R1. split; [reflexivity|]. cbn [flat_map].
      split; [rewrite <- app_assoc; unfold enc_command in R2; rewrite <- R2; exact Q|]. split; [|exact R4]. constructor; [split; assumption|exact R3].
Qed.

(** ** What is written for a frame that was read *)
Lemma Ok_inj {A} (x y : A) : Ok x = Ok y -> x = y.
Proof. intros H. congruence. Qed.
Lemma head_written {E : Env} d v r : read_fframe (new_reader d) = Ok (v, r) ->
  write_head v = Ok (bits_of_bytes (enc_link v) ++ bits_of_fields (hdr_fields (ff_frame v))) /\ bytes (enc_link v).
Proof.
  intros H. rewrite read_fframe_eq in H. unfold bind at 1 in H.
  pose proof (Nice_head (new_reader d) (new_RWf d)) as N1.
  destruct (read_head (new_reader d)) as [[h r1]| |]; try discriminate. destruct N1 as ((Hh & Hn) & R1 & _).
  unfold bind in H. destruct (read_command (ff_length h) r1) as [[m r2]| |] eqn:E2; try discriminate.
  destruct (read_native 2 r2) as [[k r3]| |]; try discriminate. unfold ret in H. injection H as <- _.
  assert (G : write_head (with_body h m k) = write_head h) by reflexivity.
  assert (G2 : enc_link (with_body h m k) = enc_link h) by reflexivity.
  assert (G3 : hdr_fields (ff_frame (with_body h m k)) = hdr_fields (ff_frame h)) by reflexivity.
  rewrite G, G2, G3. clear G G2 G3. pose proof (F_head h Hh) as F1. unfold F, head_fields in F1. cbv zeta in F1.
  rewrite bits_of_fields_app in F1. rewrite F1. destruct Hh as (H1 & H2 & H3 & H4 & H5 & _).
  rewrite link_bits by exact H3. split; [reflexivity|]. unfold enc_link.
  apply Forall_app. split; [apply (W_length _ H1)|]. cbn [app]. apply Forall_cons; [exact H2|]. apply Forall_cons.
  - unfold byte. destruct (ff_type h); cbn [code_address_type]; lia.
  - apply (W_address _ H5).
Qed.
Lemma frame_out {E : Env} d v r cw : read_fframe (new_reader d) = Ok (v, r) -> write_command (command_of v) = Ok cw ->
  fframe_to_bytes v = Ok (bytes_of_bits (bits_of_bytes (enc_link v) ++ bits_of_fields (hdr_fields (ff_frame v)) ++ cw ++
    bits_of_bytes (enc_native 2 (ff_crc v)))).
Proof.
  intros H Hw. destruct (head_written _ _ _ H) as (Hh & _). unfold fframe_to_bytes, to_bytes.
  rewrite write_fframe_eq, Hh, Hw. destruct (W_native 2 (ff_crc v)) as (-> & _). unfold wseq. cbn [rbind]. rewrite <- !app_assoc. reflexivity.
Qed.
Lemma dec_link_link d n f l x c : dec_link d = Some ((n, f), l) -> enc_link (f x c) = enc_link (f no_nframe 0) /\ ff_crc (f x c) = c /\ ff_length (f x c) = n.
Proof. intros H. unfold dec_link in H. repeat (apply andthen_some in H as (? & ? & _ & H)). injection H as <- <- _. repeat split. Qed.

(** The frame in pieces: the link header is [t] when written; the other headers are [p]; the rest
    is [l1]. *)
Lemma host_num_canon {E : Env} l crc rest : bytes l -> host_num 2 l = Some (crc, rest) -> l = enc_native 2 crc ++ rest.
Proof.
  intros Hl H. pose proof (Can_host 2 l Hl) as C. rewrite H in C. destruct C as (_ & t & T & _ & C). cbn [app] in T.
  change (N.to_nat 2) with 2%nat in T. subst t. destruct C as [(_ & C)|(C & _)]; [exact C|discriminate].
Qed.
(** The loop finds again what it read if that is what is written. *)
Definition found_again {E : Env} (c : command) (rest : list N) : Prop := forall k limit pos l1 l2 crc rest', bytes l1 ->
  dec_limited k limit pos 0 l1 = Some (c, l2) -> host_num 2 l2 = Some (crc, rest') -> l1 = enc_command c ++ enc_native 2 crc ++ rest ->
  strict_limited k limit pos l1 = Some (c, l2) /\ l2 = enc_native 2 crc ++ rest.
Lemma frame_canon_again {E : Env} d l rest v : e_feat <> Wizzilab -> d = l ++ rest -> bytes d -> found_again (command_of v) rest ->
  ((exists n, d_from_reader read_fframe d 0 = Ok (n, v)) /\ fframe_to_bytes v = Ok l <-> strict_fframe d = Some (v, rest)).
Proof.
  intros HF Hd Bd Hp. pose proof (fframe_at d Bd) as FA. unfold dec_fframe in FA.
  assert (HP : match e_feat with Wizzilab => 1 | _ => 0 end = 0) by (destruct e_feat; congruence). rewrite HP in FA. clear HP.
  assert (HL : lost = 0%nat) by (unfold lost; destruct e_feat; congruence).
  assert (ST : forall limit pos last l, strict_tail limit pos last l = match strict_limited (length l) limit pos l with
      | Some (c, l') => match host_num 2 l' with Some (crc, rest) => Some (c, crc, rest) | None => None end
      | None => None
      end) by (intros; unfold strict_tail; destruct e_feat; congruence).
  unfold strict_fframe. pose proof (Can_link d Bd) as CL.
  destruct (dec_link d) as [[[limit link] l0]|] eqn:DL.
  2: { rewrite CL. split; [|discriminate]. intros ((n & H) & _). apply LFrameAgain.from_reader_0 in H. destruct H as (r & H & _). destruct FA as (e & FA). congruence. }
  destruct CL as (B0 & t & T & RL & CL). cbn [app snd] in T. subst t.
  pose proof (head_canon l0 B0) as HC. unfold head_can in HC. rewrite HL in HC.
  destruct (dec_headers l0) as [[net l1]|] eqn:DH.
  2: { split; [|destruct CL as [(-> & _)|(-> & _)]; [rewrite HC|]; discriminate].
    intros ((n & H) & _). apply LFrameAgain.from_reader_0 in H. destruct H as (r & H & _). destruct FA as (e & FA). congruence. }
  destruct HC as (p & hb & w & H0 & Lp & Hb & Hw & Lb & HC). change (bits_of 0 (last p 0)) with (@nil bool) in Hw. subst w. rewrite app_nil_r in Hb.
  assert (B1 : bytes p /\ bytes l1) by (rewrite H0 in B0; apply Forall_app in B0; exact B0). destruct B1 as (Bp & B1).
  set (pos := N.of_nat (length d - length l1)) in *.
  split.
  - intros ((n & H) & Hout). apply LFrameAgain.from_reader_0 in H. destruct H as (r & H & _).
    destruct (dec_limited (length l1) limit pos 0 l1) as [[c l2]|] eqn:DC; [|destruct FA as (e & FA); congruence].
    destruct (loop_plainly _ HF _ _ _ _ _ B1 DC) as (Pc & B2).
    destruct (host_num 2 l2) as [[crc rest']|] eqn:DN; [|destruct FA as (e & FA); congruence].
    destruct FA as (s & FA & _). assert (Q : v = link (net c) crc) by congruence.
    destruct (dec_link_link _ _ _ _ (net c) crc DL) as (L1 & L2 & _).
    assert (Qc : command_of v = c) by (rewrite Q; unfold command_of; rewrite (dec_link_shape _ _ _ _ DL), (dec_headers_shape _ _ _ DH); reflexivity).
    destruct (W_plainly c Pc) as (Wc & Bc).
    pose proof (frame_out _ _ _ (bits_of_bytes (enc_command c)) H ltac:(rewrite Qc; exact Wc)) as O. rewrite Hout in O. apply Ok_inj in O.
    destruct (head_written _ _ _ H) as (_ & Blink).
    rewrite Q, L1, L2, (dec_link_shape _ _ _ _ DL) in O. rewrite Q, L1 in Blink.
    set (hp := bytes_of_bits (bits_of_fields (hdr_fields (net c)))).
    assert (Ehp : bits_of_bytes hp = bits_of_fields (hdr_fields (net c)) /\ length hp = length p).
    { pose proof (Lb c) as G. rewrite <- Hb, bits_of_bytes_length in G. split; [exact (bits_of_bytes_of_bits _ _ G)|exact (bytes_of_bits_length _ _ G)]. }
    destruct Ehp as (Ehp & Lhp). rewrite <- Ehp, <- !bits_of_bytes_app in O.
    assert (Bcrc : bytes (enc_native 2 crc)) by apply (W_native 2 crc).
    assert (Bhp : bytes hp) by apply bytes_of_bits_bytes.
    rewrite bytes_of_bits_of_bytes in O by (apply Forall_app; split; [exact Blink|]; apply Forall_app; split; [exact Bhp|];
      apply Forall_app; split; [exact Bc|exact Bcrc]).
    assert (Hd2 : d = enc_link (link no_nframe 0) ++ hp ++ enc_command c ++ enc_native 2 crc ++ rest) by (rewrite Hd, O, <- !app_assoc; reflexivity).
    assert (H02 : l0 = hp ++ enc_command c ++ enc_native 2 crc ++ rest).
    { pose proof (RL (hp ++ enc_command c ++ enc_native 2 crc ++ rest)) as R. rewrite <- Hd2, DL in R. congruence. }
    destruct CL as [(-> & _)|(_ & CL)]; [|rewrite H02 in CL; contradiction].
    rewrite H02 in H0. apply app_same in H0; [|exact Lhp]. destruct H0 as (Q1 & Q2).
    destruct HC as [(-> & _)|(_ & HC)].
    2: { exfalso. apply (HC c). rewrite <- Ehp, <- Hb, Q1. reflexivity. }
    rewrite ST. fold pos.
    assert (Hpc : found_again c rest) by (rewrite <- Qc; exact Hp).
    destruct (Hpc _ _ _ _ _ _ _ B1 DC DN (eq_sym Q2)) as (-> & Q3).
    pose proof (host_num_canon _ _ _ B2 DN) as Q4. rewrite Q3 in Q4. apply app_inv_head in Q4. rewrite DN, Q, Q4. reflexivity.
  - destruct CL as [(-> & CL)|(-> & _)]; [|discriminate].
    destruct HC as [(-> & HC)|(-> & _)]; [|discriminate]. rewrite ST. fold pos.
    destruct (strict_limited (length l1) limit pos l1) as [[c l2]|] eqn:SC; [|discriminate].
    destruct (loop_strict _ _ _ _ _ _ B1 SC) as (DC & Q2 & Pc & B2).
    destruct (host_num 2 l2) as [[crc rest']|] eqn:DN; [|discriminate].
    intros G. assert (Q : v = link (net c) crc) by congruence. assert (Qr : rest' = rest) by congruence. clear G.
    rewrite DC, DN in FA. destruct FA as (s & FA & _). rewrite <- Q in FA. split.
    { exists (bread s). apply LFrameAgain.from_reader_0. eauto. }
    assert (Qc : command_of v = c) by (rewrite Q; unfold command_of; rewrite (dec_link_shape _ _ _ _ DL), (dec_headers_shape _ _ _ DH); reflexivity).
    destruct (W_plainly c Pc) as (Wc & Bc).
    rewrite (frame_out _ _ _ (bits_of_bytes (enc_command c)) FA ltac:(rewrite Qc; exact Wc)). f_equal.
    destruct (dec_link_link _ _ _ _ (net c) crc DL) as (L1 & L2 & _).
    rewrite Q, L1, L2, (dec_link_shape _ _ _ _ DL), (HC c), <- Hb, <- !bits_of_bytes_app.
    pose proof (host_num_canon _ _ _ B2 DN) as Q4. subst rest'.
    assert (Hd2 : d = (enc_link (link no_nframe 0) ++ p ++ enc_command c ++ enc_native 2 crc) ++ rest).
    { rewrite CL, H0, Q2, Q4, <- !app_assoc. reflexivity. }
    rewrite Hd in Hd2. apply app_inv_tail in Hd2. rewrite <- Hd2. apply bytes_of_bits_of_bytes.
    rewrite Hd in Bd. apply Forall_app in Bd. apply Bd.
Qed.
Lemma frame_canon_other {E : Env} d l rest v : e_feat <> Wizzilab -> d = l ++ rest -> bytes d -> plain_or_rewind (command_of v) ->
  ((exists n, d_from_reader read_fframe d 0 = Ok (n, v)) /\ fframe_to_bytes v = Ok l <-> strict_fframe d = Some (v, rest)).
Proof.
  intros HF Hd Bd Hp. apply frame_canon_again; try assumption. intros k limit pos l1 l2 crc rest' B1 D _ Hs.
  exact (loop_canon _ HF _ _ _ _ _ _ B1 Hp D Hs).
Qed.
