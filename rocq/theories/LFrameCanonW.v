(** Canonical frames with wizzilab. *)
From Coq Require Import List NArith ZArith Bool Lia ZifyBool ZifyNat ZifyN Arith.
From Verif Require Import Base Deku Utils Types Physical Link Network Session Data Query
  Interface File Operation Action Command Frames WellFormed SpecLayout SpecAction SpecDecode SpecCanonical SpecFrames LBits LReader
  LLayout LRound LRoundOps LAction LNumbers LNiceOps LNice LActionApi LReencode LCommandMore LExact LFrames LFramesW
  LFrameAgain LDecode LDecodeLoop LDecodeFrame LCanon LCanonTypes LCanonOps LCanonAct LCanonTop LFrameStream LFrameLive LFrameLiveLoop
  LPartial LFrameCanon LFrameCanonTop SpecFrameDecode SpecFrameCanonical.
Import ListNotations.
Open Scope N_scope.

(** ** The first byte of an action *)
Lemma low6 x op : op < 64 -> (x * 2 ^ 6 + op) mod 64 = op.
Proof. intros H. change (2 ^ 6) with 64. rewrite N.add_comm, N.mod_add by lia. apply N.mod_small, H. Qed.

Lemma first_of {E : Env} op l a rest : dec_operand op l = Some (a, rest) -> op < 64 -> is_tx a = false ->
  exists w t, enc_action a = w :: t /\ w mod 64 = op.
Proof.
  intros H Ho. assert (I : In op (map N.of_nat (seq 0 64))).
  { apply in_map_iff. exists (N.to_nat op). split; [lia|]. apply in_seq. lia. }
  cbn in I. clear Ho. repeat destruct I as [<-|I]; try contradiction; try discriminate H;
    cbn [dec_operand N.eqb Pos.eqb] in *;
    unfold dec_nop, dec_file_id_op, dec_file_data, dec_file_properties, dec_action_query, andthen, give, reject in H;
    repeat match type of H with
    | context [match ?e with _ => _ end] =>
        lazymatch e with context [match _ with _ => _ end] => fail | _ => destruct e as [] end; try discriminate H
    | context [match ?e with _ => _ end] =>
        lazymatch e with context [match _ with _ => _ end] => fail | _ => destruct e as [[? ?]|] end; try discriminate H
    end; injection H as <- _; intros T; try discriminate T; eexists _, _; (split; [reflexivity|]);
    unfold hdr_byte, first_byte, pack; cbn [fold_left fst snd]; apply low6; reflexivity.
Qed.

(** ** One action, read one bit after it was written *)
Lemma nop_bits b : b < 256 -> hdr_byte (dec_header b) (part 0 6 b) = b.
Proof.
  intros H. unfold hdr_byte, first_byte, dec_header, pack. cbn [fold_left fst snd h_group h_response].
  unfold flag, part. change (2 ^ 1) with 2. change (2 ^ 6) with 64. change (2 ^ 0) with 1.
  change (2 ^ 7) with 128. unfold bit. destruct (N.eqb_spec ((b / 128) mod 2) 1), (N.eqb_spec ((b / 64) mod 2) 1); divlia.
Qed.
Lemma late_action {E : Env} l a rest aw x y R : bytes l -> dec_action l = Some (a, rest) -> write_action a = Ok aw ->
  x :: bits_of_bytes l = aw ++ y :: R ->
  y = x /\ l = 255 * b2n x :: rest /\ aw = bits_of 8 (255 * b2n x) /\ is_tx a = false /\ is_indirect a = false /\
  bits_of_bytes rest = R /\ (x = false -> a = plain_nop).
Proof.
  intros Hl D Hw H. destruct (dec_parsed _ _ _ Hl D) as (P & B).
  destruct l as [|b l]; [discriminate|]. pose proof Hl as Hl2. apply Forall_cons_iff in Hl2 as [Hb Hl2].
  unfold dec_action in D. pose proof (op_small b Hb) as Ho.
  assert (O : part 0 6 b = b mod 64) by (unfold part; rewrite N.div_1_r; reflexivity).
  cbn [bits_of_bytes] in H.
  assert (F : exists w t, aw = bits_of 8 w ++ t /\ w < 256 /\ (is_tx a = false -> w mod 64 = part 0 6 b) /\ (is_tx a = true -> w = 64 /\ part 0 6 b = 38)).
  { destruct (is_tx a) eqn:T.
    - pose proof (operand_tx _ _ _ _ D Ho) as Q. destruct a; try discriminate T. destruct (tx_bits _ _ Hw) as (t & ->). exists 64, t.
      split; [reflexivity|]. split; [lia|]. split; [discriminate|]. intros _. split; [reflexivity|]. rewrite T in Q. lia.
    - destruct (first_of _ _ _ _ D Ho T) as (w & t & Q & Q2). destruct (parsed_W _ P T) as (W1 & W2). rewrite Q in W1, W2.
      apply Forall_cons_iff in W2 as [W2 _]. exists w, (bits_of_bytes t). split; [|split; [exact W2|split; [intros _; exact Q2|discriminate]]].
      rewrite W1 in Hw. apply Ok_inj in Hw. rewrite <- Hw. reflexivity. }
  destruct F as (w & t & -> & Hw256 & F1 & F2). rewrite <- app_assoc in H.
  destruct (t ++ y :: R) as [|y0 R0] eqn:Ht; [destruct t; discriminate|].
  destruct (shift_byte _ _ _ _ _ _ Hb Hw256 H) as (Q & QR).
  assert (T : is_tx a = false).
  { destruct (is_tx a); [|reflexivity]. destruct (F2 eq_refl) as (-> & G). rewrite O in G. exfalso. unfold byte in Hb.
    destruct x, y0; cbn [b2n] in Q; divlia. }
  specialize (F1 T). clear F2. rewrite O in F1.
  assert (G : part 0 6 b = 0 \/ part 0 6 b = 63). { rewrite O. unfold byte in Hb. destruct x, y0; cbn [b2n] in Q; divlia. }
  assert (S1 : rest = l /\ enc_action a = [b] /\ is_indirect a = false /\ (b = 0 -> a = plain_nop)).
  { pose proof (nop_bits b Hb) as NB. destruct G as [G|G]; rewrite G in D, NB; cbn [dec_operand] in D; unfold dec_nop, one, andthen, give in D.
    - injection D as <- <-. cbn [enc_action nop_header]. rewrite NB. repeat split. intros ->. reflexivity.
    - injection D as <- <-. cbn [enc_action nop_header]. rewrite NB. repeat split. intros ->. discriminate. }
  destruct S1 as (-> & S1 & S2 & S3). destruct (parsed_W _ P T) as (W1 & _). rewrite S1 in W1. rewrite W1 in Hw. apply Ok_inj in Hw.
  cbn [bits_of_bytes] in Hw. apply app_same in Hw; [|rewrite !bits_of_length; reflexivity]. destruct Hw as (Hw & <-).
  cbn [app] in Ht. injection Ht as <- <-.
  assert (Hwb : w = b). { apply (f_equal N_of_bits) in Hw. rewrite !N_of_bits_bits_of_small in Hw by assumption. congruence. }
  subst w. assert (Hx : y = x /\ b = 255 * b2n x) by (unfold byte in Hb; destruct x, y; cbn [b2n] in *; split; lia || reflexivity).
  destruct Hx as (-> & ->). rewrite app_nil_r. repeat split; try assumption. intros ->. apply S3. reflexivity.
Qed.

(** ** The loop *)
Lemma late_loop {E : Env} k : forall limit pos pend l c l2 cw x R, limit <> 0 -> bytes l ->
  dec_limited k limit pos pend l = Some (c, l2) -> write_command c = Ok cw -> x :: bits_of_bytes l = cw ++ R -> R <> [] ->
  exists m, l = repeat (255 * b2n x) m ++ l2 /\ cw = bits_of_bytes (repeat (255 * b2n x) m) /\ x :: bits_of_bytes l2 = R /\
    (x = false -> c = repeat plain_nop m) /\ (l2 <> [] -> m = N.to_nat (limit - pos)).
Proof.
  induction k as [|k IH]; intros limit pos pend l c l2 cw x R Hn Hl H Hw Hx HR; cbn [dec_limited] in H;
    (destruct (N.eqb_spec limit 0) as [|_]; [contradiction|]); cbn [orb] in H; destruct (N.ltb_spec pos limit) as [Hlt|Hlt].
  1: { destruct l; [|discriminate]. injection H as <- <-. exists 0%nat. injection Hw as <-. cbn [repeat app bits_of_bytes] in *. repeat split; try assumption. intros G; contradiction G; reflexivity. }
  1, 3: injection H as <- <-; exists 0%nat; injection Hw as <-; cbn [repeat app bits_of_bytes] in *; repeat split; try assumption; intros _; lia.
  destruct l as [|b l]; [injection H as <- <-; exists 0%nat; injection Hw as <-; cbn [repeat app bits_of_bytes] in *; repeat split; try assumption; intros G; contradiction G; reflexivity|].
  change (dec_operand (part 0 6 b) (b :: l)) with (dec_action (b :: l)) in H.
  destruct (dec_action (b :: l)) as [[a rest]|] eqn:D; [|discriminate].
  assert (HA : exists c', c = a :: c' /\ (is_indirect a = true \/ dec_limited k limit (pos + N.of_nat (length (b :: l) - length rest)) (if is_tx a then 2 else 0) rest = Some (c', l2))).
  { destruct (is_indirect a); [injection H as <- <-; eauto|]. destruct (dec_limited k limit _ _ rest) as [[c' r']|]; [|discriminate]. injection H as <- <-. eauto. }
  clear H. destruct HA as (c' & -> & H). unfold write_command in Hw. cbn [write_list] in Hw. unfold wseq in Hw.
  destruct (write_action a) as [aw| |] eqn:Ea; try discriminate. cbn [rbind] in Hw.
  destruct (write_list write_action c') as [cw'| |] eqn:Ec; try discriminate. cbn [rbind] in Hw. apply Ok_inj in Hw. subst cw.
  rewrite <- app_assoc in Hx. destruct (cw' ++ R) as [|y R1] eqn:EQ; [destruct cw'; [contradiction|discriminate]|].
  destruct (late_action _ _ _ _ _ _ _ Hl D Ea Hx) as (-> & Q1 & -> & T & I & Q2 & Q3). rewrite I, T in H. destruct H as [H|H]; [discriminate|].
  rewrite Q1 in H |- *. cbn [length] in H. replace (S (length rest) - length rest)%nat with 1%nat in H by lia.
  assert (B : bytes rest) by (apply (dec_parsed _ _ _ Hl D)).
  destruct (IH _ _ _ _ _ _ cw' x R Hn B H Ec ltac:(rewrite EQ, <- Q2; reflexivity) HR) as (m & M1 & M2 & M3 & M4 & M5).
  exists (S m). cbn [repeat app bits_of_bytes]. rewrite <- M1, <- M2. repeat split; try assumption.
  - intros Hf. rewrite (Q3 Hf), (M4 Hf). reflexivity.
  - intros G. rewrite (M5 G). lia.
Qed.
(** The checksum. *)
Lemma host_zeros {E : Env} rest : host_num 2 (0 :: 0 :: rest) = Some (0, rest).
Proof.
  assert (G : some_bytes 2 (0 :: 0 :: rest) = Some ([0; 0], rest)).
  { unfold some_bytes. cbn [length]. destruct (N.leb_spec 2 (N.of_nat (S (S (length rest))))); [reflexivity|lia]. }
  unfold host_num, andthen. rewrite G. destruct e_host; reflexivity.
Qed.
Lemma late_crc {E : Env} l crc rest x R : bytes l -> host_num 2 l = Some (crc, rest) ->
  x :: bits_of_bytes l = bits_of_bytes (enc_native 2 crc) ++ false :: R -> x = false /\ crc = 0 /\ l = 0 :: 0 :: rest /\ bits_of_bytes rest = R.
Proof.
  intros Hl H Hx. pose proof (host_num_canon _ _ _ Hl H) as Q.
  destruct (LFramesW.two (enc_native 2 crc) (enc_native_length 2 crc)) as (e1 & e2 & Ee). rewrite Ee in Q, Hx. cbn [app] in Q. subst l.
  apply Forall_cons_iff in Hl as [H1 Hl]. apply Forall_cons_iff in Hl as [H2 Hl]. cbn [bits_of_bytes] in Hx. rewrite app_nil_r, <- app_assoc in Hx.
  assert (exists y R0, bits_of 8 e2 ++ false :: R = y :: R0) as (y & R0 & Hy) by (cbn [bits_of app]; eauto).
  rewrite Hy in Hx. destruct (shift_byte _ _ _ _ _ _ H1 H1 Hx) as (Q1 & Q2).
  assert (Hx2 : y :: bits_of 8 e2 ++ bits_of_bytes rest = bits_of 8 e2 ++ false :: R) by (rewrite Hy, <- Q2; reflexivity).
  destruct (shift_byte _ _ _ _ _ _ H2 H2 Hx2) as (Q3 & Q4). unfold byte in *.
  assert (x = false /\ e1 = 0 /\ e2 = 0) as (-> & -> & ->) by (destruct x, y; cbn [b2n] in *; repeat split; lia || reflexivity).
  split; [reflexivity|]. split; [|split; [reflexivity|exact Q4]].
  rewrite host_zeros in H. congruence.
Qed.

(** ** The frame *)
Lemma padded l : exists n, (n < 8)%nat /\ bits_of_bytes (bytes_of_bits l) = l ++ repeat false n.
Proof.
  induction l as [l Hl|x l Hx IH] using octet_ind.
  - destruct l as [|b l]; [exists 0%nat; split; [lia|reflexivity]|]. exists (8 - length (b :: l))%nat. split; [cbn [length]; lia|].
    rewrite LPartial.bytes_of_bits_short by (cbn [length] in *; lia). cbn [bits_of_bytes]. rewrite app_nil_r.
    set (t := (b :: l) ++ repeat false _). replace 8%nat with (length t) by (unfold t; rewrite app_length, repeat_length; lia).
    apply bits_of_N_of_bits.
  - destruct IH as (n & Hn & IH). exists n. split; [exact Hn|]. rewrite bytes_of_bits_cons8 by exact Hx. cbn [bits_of_bytes].
    rewrite IH, app_assoc. f_equal. f_equal. rewrite <- Hx. apply bits_of_N_of_bits.
Qed.
Lemma last_nth (a p l1 : list N) : p <> [] -> nth (Nat.pred (length (a ++ p ++ l1) - length l1)) (a ++ p ++ l1) 0 = last p 0.
Proof.
  intros H. rewrite (app_removelast_last 0 H) at 1 2. set (q := removelast p). set (z := last p 0). rewrite !app_length. cbn [length].
  replace (Nat.pred _) with (length (a ++ q)) by (rewrite app_length; lia).
  rewrite app_assoc, app_assoc, <- (app_assoc (a ++ q)). apply nth_middle.
Qed.
Lemma bit_0 b : part 0 1 b =? 0 = negb (N.testbit b 0).
Proof.
  unfold part. change (2 ^ 0) with 1. change (2 ^ 1) with 2. rewrite N.div_1_r, <- N.bit0_mod.
  destruct (N.testbit b 0); reflexivity.
Qed.
Lemma zeros_loop {E : Env} k : forall j limit pos l, limit <> 0 -> k = N.to_nat (limit - pos) -> (k <= j)%nat ->
  dec_limited j limit pos 0 (repeat 0 k ++ l) = Some (repeat plain_nop k, l).
Proof.
  induction k as [|k IH]; intros j limit pos l Hn Hk Hj; rewrite limited_eq; unfold on; destruct (N.eqb_spec limit 0) as [|_]; try contradiction; cbn [orb].
  - destruct (N.ltb_spec pos limit); [lia|reflexivity].
  - destruct (N.ltb_spec pos limit); [|lia]. destruct j as [|j]; [lia|]. cbn [repeat app].
    change (dec_action (0%N :: repeat 0%N k ++ l)) with (Some (plain_nop, repeat 0%N k ++ l)). cbn [is_indirect is_tx plain_nop].
    cbn [length]. replace (S (length (repeat 0%N k ++ l)) - length (repeat 0%N k ++ l))%nat with 1%nat by lia.
    rewrite (IH j) by lia. reflexivity.
Qed.
Lemma all_zero l : forallb (N.eqb 0) l = true -> l = repeat 0 (length l).
Proof. induction l as [|b l IH]; cbn [forallb length repeat]; intros H; [reflexivity|]. apply andb_true_iff in H as (H & H2). rewrite <- IH by exact H2. f_equal. lia. Qed.
Lemma frame_canon_wizzilab {E : Env} d l rest v : e_feat = Wizzilab -> d = l ++ rest -> bytes d -> ff_length v <> 0 ->
  ((exists n, d_from_reader read_fframe d 0 = Ok (n, v)) /\ fframe_to_bytes v = Ok l <-> strict_fframe d = Some (v, rest)).
Proof.
  intros HF Hd Bd Hv. pose proof (fframe_at d Bd) as FA. unfold dec_fframe in FA. rewrite HF in FA.
  assert (HL : lost = 1%nat) by (unfold lost; rewrite HF; reflexivity).
  assert (ST : forall limit pos last l, strict_tail limit pos last l = let k := N.to_nat (limit - pos) in
      if negb (limit =? 0) && (part 0 1 last =? 0) && (k + 2 <=? length l)%nat && forallb (N.eqb 0) (firstn (k + 2) l)
      then Some (repeat plain_nop k, 0, skipn (k + 2) l) else None) by (intros; unfold strict_tail; rewrite HF; reflexivity).
  unfold strict_fframe. pose proof (Can_link d Bd) as CL.
  destruct (dec_link d) as [[[limit link] l0]|] eqn:DL.
  2: { rewrite CL. split; [|discriminate]. intros ((n & H) & _). apply LFrameAgain.from_reader_0 in H. destruct H as (r & H & _). destruct FA as (e & FA). congruence. }
  destruct CL as (B0 & t & T & RL & CL). cbn [app snd] in T. subst t.
  pose proof (head_canon l0 B0) as HC. unfold head_can in HC. rewrite HL in HC.
  destruct (dec_headers l0) as [[net l1]|] eqn:DH.
  2: { split; [|destruct CL as [(-> & _)|(-> & _)]; [rewrite HC|]; discriminate].
    intros ((n & H) & _). apply LFrameAgain.from_reader_0 in H. destruct H as (r & H & _). destruct FA as (e & FA). congruence. }
  destruct HC as (p & hb & w & H0 & Lp & Hb & Hw & Lb & HC). cbn [bits_of] in Hw. change (N.of_nat 0) with 0 in Hw. subst w.
  set (x := N.testbit (last p 0) 0) in *.
  assert (Lhb : (length hb + 1 = 8 * length p)%nat).
  { apply (f_equal (@length bool)) in Hb. rewrite bits_of_bytes_length, app_length in Hb. cbn [length] in Hb. lia. }
  assert (B1 : bytes p /\ bytes l1) by (rewrite H0 in B0; apply Forall_app in B0; exact B0). destruct B1 as (Bp & B1).
  set (pos := N.of_nat (length d - length l1)) in *.
  split.
  - intros ((n & H) & Hout). apply LFrameAgain.from_reader_0 in H. destruct H as (r & H & _).
    destruct (dec_limited (length l1) limit pos 1 l1) as [[c l2]|] eqn:DC; [|destruct FA as (e & FA); congruence].
    destruct (host_num 2 l2) as [[crc rest']|] eqn:DN; [|destruct FA as (e & FA); congruence].
    destruct FA as (s & FA & _). assert (Q : v = link (net c) crc) by congruence.
    destruct (dec_link_link _ _ _ _ (net c) crc DL) as (L1 & L2 & L3). rewrite <- Q in L3. rewrite L3 in Hv.
    assert (Qc : command_of v = c) by (rewrite Q; unfold command_of; rewrite (dec_link_shape _ _ _ _ DL), (dec_headers_shape _ _ _ DH); reflexivity).
    assert (Wc : exists cw, write_command c = Ok cw).
    { rewrite <- Qc. unfold fframe_to_bytes, to_bytes in Hout. rewrite write_fframe_eq in Hout. unfold wseq in Hout.
      destruct (write_head v); [|discriminate|discriminate]. cbn [rbind] in Hout. destruct (write_command (command_of v)); [eauto|discriminate|discriminate]. }
    destruct Wc as (cw & Wc).
    pose proof (frame_out _ _ _ cw H ltac:(rewrite Qc; exact Wc)) as O. rewrite Hout in O. apply Ok_inj in O.
    destruct (head_written _ _ _ H) as (_ & Blink).
    rewrite Q, L1, L2, (dec_link_shape _ _ _ _ DL) in O. rewrite Q, L1 in Blink.
    rewrite bytes_of_bits_of_bytes_app in O by exact Blink.
    set (X := bits_of_fields (hdr_fields (net c)) ++ cw ++ bits_of_bytes (enc_native 2 crc)) in *.
    destruct (padded X) as (j & Hj & HX).
    assert (Hd2 : d = enc_link (link no_nframe 0) ++ bytes_of_bits X ++ rest) by (rewrite Hd, O, <- !app_assoc; reflexivity).
    assert (H02 : l0 = bytes_of_bits X ++ rest).
    { pose proof (RL (bytes_of_bits X ++ rest)) as R. rewrite <- Hd2, DL in R. congruence. }
    destruct CL as [(-> & CL)|(_ & CL)]; [|rewrite H02 in CL; contradiction].
    assert (HB : hb ++ x :: bits_of_bytes l1 = bits_of_fields (hdr_fields (net c)) ++ cw ++ bits_of_bytes (enc_native 2 crc) ++ repeat false j ++ bits_of_bytes rest).
    { apply (f_equal bits_of_bytes) in H02. rewrite bits_of_bytes_app, HX, H0, bits_of_bytes_app, Hb in H02. unfold X in H02. rewrite <- !app_assoc in H02. exact H02. }
    apply app_same in HB; [|symmetry; apply Lb]. destruct HB as (Q1 & Q2).
    destruct HC as [(-> & _)|(_ & HC)]; [|exfalso; apply (HC c); symmetry; exact Q1].
    destruct (late_loop _ _ _ _ _ _ _ _ _ _ Hv B1 DC Wc Q2) as (m & M1 & M2 & M3 & M4 & M5).
    { destruct (LFramesW.two (enc_native 2 crc) (enc_native_length 2 crc)) as (e1 & e2 & ->). discriminate. }
    assert (J : j = 1%nat).
    { apply (f_equal (@length bool)) in HX. unfold X in HX. rewrite M2 in HX. rewrite !app_length, (Lb c), !bits_of_bytes_length, !repeat_length, enc_native_length in HX. lia. }
    subst j. cbn [repeat app] in M3. assert (B2 : bytes l2) by (rewrite M1 in B1; apply Forall_app in B1; apply B1).
    destruct (late_crc _ _ _ _ _ B2 DN M3) as (Hx & -> & N1 & N2). rewrite Hx in M1, M4. change (255 * b2n false) with 0 in M1. specialize (M4 eq_refl).
    assert (Hm : m = N.to_nat (limit - pos)) by (apply M5; rewrite N1; discriminate).
    assert (Hr : rest' = rest).
    { apply bits_of_bytes_inj; [| |exact N2]. rewrite N1 in B2. apply Forall_cons_iff in B2 as [_ B2]. apply Forall_cons_iff in B2 as [_ B2]. exact B2.
      rewrite Hd in Bd. apply Forall_app in Bd. apply Bd. }
    rewrite ST. cbv zeta. fold pos. rewrite <- Hm.
    assert (LN : nth (Nat.pred (length d - length l1)) d 0 = last p 0).
    { rewrite CL, H0. apply last_nth. intros ->. cbn in Lp. lia. }
    rewrite LN, bit_0. fold x. rewrite Hx. cbn [negb]. rewrite M1, N1, Hr.
    change (0 :: 0 :: rest) with (repeat 0 2 ++ rest). rewrite app_assoc, <- repeat_app.
    assert (F1 : firstn (m + 2) (repeat 0 (m + 2) ++ rest) = repeat 0 (m + 2)).
    { rewrite firstn_app, repeat_length, Nat.sub_diag. cbn [firstn]. rewrite app_nil_r. rewrite firstn_all2; [reflexivity|rewrite repeat_length; lia]. }
    assert (F2 : skipn (m + 2) (repeat 0 (m + 2) ++ rest) = rest).
    { rewrite skipn_app, repeat_length, Nat.sub_diag. rewrite skipn_all2 by (rewrite repeat_length; lia). reflexivity. }
    rewrite F1, F2. destruct (N.eqb_spec limit 0); [contradiction|]. cbn [negb andb].
    assert (F3 : forallb (N.eqb 0) (repeat 0 (m + 2)) = true) by (apply forallb_forall; intros z Hz; apply repeat_spec in Hz; subst z; reflexivity).
    rewrite F3. destruct (Nat.leb_spec (m + 2) (length (repeat 0 (m + 2) ++ rest))) as [_|Hc]; [|rewrite app_length, repeat_length in Hc; lia].
    cbn [andb]. rewrite Q, M4. reflexivity.
  - destruct CL as [(-> & CL)|(-> & _)]; [|discriminate].
    destruct HC as [(-> & HC)|(-> & _)]; [|discriminate]. rewrite ST. cbv zeta. fold pos. set (m := N.to_nat (limit - pos)) in *.
    assert (LN : nth (Nat.pred (length d - length l1)) d 0 = last p 0).
    { rewrite CL, H0. apply last_nth. intros ->. cbn in Lp. lia. }
    rewrite LN, bit_0. fold x. destruct (N.eqb_spec limit 0) as [|Hlim]; [discriminate|]. cbn [negb andb].
    destruct x eqn:Hx; [discriminate|]. cbn [negb andb].
    destruct (Nat.leb_spec (m + 2) (length l1)) as [Hlen|]; [|discriminate]. cbn [andb].
    destruct (forallb (N.eqb 0) (firstn (m + 2) l1)) eqn:AZ; [|discriminate]. apply all_zero in AZ. rewrite firstn_length_le in AZ by exact Hlen.
    intros G. assert (Q : v = link (net (repeat plain_nop m)) 0) by congruence. assert (Qr : skipn (m + 2) l1 = rest) by congruence. clear G.
    assert (Q1 : l1 = repeat 0 m ++ 0 :: 0 :: rest).
    { rewrite <- (firstn_skipn (m + 2) l1), AZ, Qr, repeat_app, <- app_assoc. reflexivity. }
    assert (DC : dec_limited (length l1) limit pos 1 l1 = Some (repeat plain_nop m, 0 :: 0 :: rest)).
    { assert (G : dec_limited (length l1) limit pos 1 l1 = dec_limited (length l1) limit pos 0 l1).
      { destruct (length l1); cbn [dec_limited]; destruct (N.eqb_spec limit 0); try contradiction; reflexivity. }
      rewrite G. rewrite Q1 at 2. apply zeros_loop; [exact Hlim|reflexivity|lia]. }
    pose proof (host_zeros rest) as DN.
    rewrite DC, DN in FA. destruct FA as (s & FA & _). rewrite <- Q in FA. split.
    { exists (bread s). apply LFrameAgain.from_reader_0. eauto. }
    assert (Qc : command_of v = repeat plain_nop m) by (rewrite Q; unfold command_of; rewrite (dec_link_shape _ _ _ _ DL), (dec_headers_shape _ _ _ DH); reflexivity).
    assert (AN : Forall (fun a => a = plain_nop) (repeat plain_nop m)) by (apply Forall_forall; intros z Hz; apply repeat_spec in Hz; exact Hz).
    assert (Wc : write_command (repeat plain_nop m) = Ok (bits_of_bytes (repeat 0 m))).
    { assert (G : Forall plainly (repeat plain_nop m)).
      { apply Forall_forall. intros z Hz. apply repeat_spec in Hz. subst z. split; [left; reflexivity|reflexivity]. }
      destruct (W_plainly _ G) as (G1 & _). rewrite G1, (enc_plain _ AN), repeat_length. reflexivity. }
    rewrite (frame_out _ _ _ _ FA ltac:(rewrite Qc; exact Wc)). f_equal.
    destruct (dec_link_link _ _ _ _ (net (repeat plain_nop m)) 0 DL) as (L1 & L2 & _). destruct (head_written _ _ _ FA) as (_ & Blink).
    rewrite Q, L1 in Blink. rewrite Q, L1, L2, (dec_link_shape _ _ _ _ DL), (HC _), bytes_of_bits_of_bytes_app by exact Blink.
    assert (EN : enc_native 2 0 = [0; 0]) by (unfold enc_native; destruct e_host; reflexivity). rewrite EN.
    assert (Hbits : bits_of_bytes (bytes_of_bits (hb ++ bits_of_bytes (repeat 0 m) ++ bits_of_bytes [0; 0])) = bits_of_bytes (p ++ repeat 0 m ++ [0; 0])).
    { rewrite (bytes_of_bits_7 _ (length p + m + 1)) by (rewrite !app_length, !bits_of_bytes_length, repeat_length; cbn [length]; lia).
      rewrite !bits_of_bytes_app, Hb. change [0; 0] with (repeat 0 2). rewrite !bits_zero_bytes, <- !app_assoc. f_equal.
      change [false] with (repeat false 1). rewrite <- !repeat_app. f_equal. lia. }
    apply bits_of_bytes_inj in Hbits; [|apply bytes_of_bits_bytes|].
    2: { apply Forall_app. split; [exact Bp|]. rewrite Q1 in B1. change (0 :: 0 :: rest) with ([0; 0] ++ rest) in B1. rewrite app_assoc in B1. apply Forall_app in B1. apply B1. }
    rewrite Hbits. apply (app_inv_tail rest). rewrite <- Hd, CL, H0, Q1, <- !app_assoc. reflexivity.
Qed.

(** ** Frames that are not canonical *)
Lemma frame_canon_refuted {E : Env} :
  ~ (forall d n v, bytes d -> d_from_reader read_fframe d 0 = Ok (n, v) -> exists l rest, d = l ++ rest /\ fframe_to_bytes v = Ok l).
Proof.
  intros H. destruct wide_read as (B & n & Q). destruct (H _ _ _ B Q) as (l & rest & Hd & Hl). clear H B Q.
  apply (f_equal (firstn (length l))) in Hd. rewrite firstn_app, Nat.sub_diag, firstn_all in Hd. cbn [firstn] in Hd. rewrite app_nil_r in Hd.
  revert Hd Hl. destruct E as [[] [] []]; intros Hd Hl; vm_compute in Hl; apply Ok_inj in Hl; subst l; vm_compute in Hd; discriminate Hd.
Qed.
(** Without a limit the opcode of the first action is taken from one bit earlier, where it was
    written. *)
Definition early_frame : list N := [0; 1; 66; 16; 20; 0; 12; 15; 0xE6; 0; 0; 0].
Definition early_value : fframe := small_frame 0 [AIndirectForward (mkIndirectForward true true 38 (Some IiHost))] 0.
Lemma early_read {E : Env} : e_feat = Wizzilab -> d_from_reader read_fframe early_frame 0 = Ok (103%nat, early_value).
Proof. intros H. destruct E as [[] [] []]; try discriminate H; vm_compute; reflexivity. Qed.
Lemma early_written {E : Env} : e_feat = Wizzilab -> fframe_to_bytes early_value = Ok early_frame.
Proof. intros H. destruct E as [[] [] []]; try discriminate H; vm_compute; reflexivity. Qed.
Lemma early_strict {E : Env} : e_feat = Wizzilab -> strict_fframe early_frame = None.
Proof. intros H. destruct E as [[] [] []]; try discriminate H; vm_compute; reflexivity. Qed.
Lemma frame_canon_unlimited {E : Env} : e_feat = Wizzilab ->
  exists d v, bytes d /\ (exists n, d_from_reader read_fframe d 0 = Ok (n, v)) /\ fframe_to_bytes v = Ok d /\ ff_length v = 0 /\ command_of v <> [].
Proof.
  intros H. exists early_frame, early_value. split; [repeat constructor|]. split; [exists 103%nat; exact (early_read H)|].
  split; [exact (early_written H)|]. split; [reflexivity|discriminate].
Qed.
