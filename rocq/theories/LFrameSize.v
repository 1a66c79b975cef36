(** Sizes of frames: what is taken for one and what is written for it. *)
From Coq Require Import List NArith ZArith Bool Lia ZifyBool ZifyNat ZifyN Arith.
From Verif Require Import Base Deku Utils Types Physical Link Network Session Data Query
  Interface File Operation Action Command Frames Position WellFormed SpecLayout SpecAction SpecFail SpecDecode SpecCanonical SpecFrames SpecGrow SpecJoin LBits LReader
  LLayout LRound LRoundOps LAction LNumbers LNiceOps LNice LActionApi LFail LWrite LSize LReencode LCommandMore LExact LFrames LFramesW
  LFrameAgain LDecode LDecodeLoop LDecodeFrame LJoin LCanon LCanonTypes LCanonOps LCanonAct LCanonTop LFrameStream LFrameLive LFrameLiveLoop
  LPartial LPosition LGrow LFrameCanon LFrameCanonTop SpecFrameDecode SpecPosition.
Import ListNotations.
Open Scope N_scope.

(** ** Commands *)
Lemma limited_size {E : Env} f : forall limit p pend l c rest, bytes l -> dec_limited f limit p pend l = Some (c, rest) ->
  bytes rest /\ (total c + length rest <= length l + length (filter swells c))%nat /\ (command_held c + length rest <= length l)%nat.
Proof.
  induction f as [|f IH]; intros limit p pend l c rest H G; cbn [dec_limited] in G; cbv zeta in G;
    (destruct ((limit =? 0) || (p <? limit)); [|injection G as <- <-; cbn; split; [exact H|split; lia]]).
  - destruct l; [|discriminate]. destruct (_ =? 0); [|discriminate]. injection G as <- <-. cbn. split; [exact H|split; lia].
  - destruct l as [|b l]; [destruct (_ =? 0); [|discriminate]; injection G as <- <-; cbn; split; [exact H|split; lia]|].
    destruct (dec_operand _ _) as [[a r]|] eqn:D; [|discriminate]. pose proof (Sz_operand _ _ _ _ D) as HS. cbv beta in HS.
    apply operand_size in D as (D1 & D2); [|exact H].
    destruct (is_indirect a) eqn:I.
    + injection G as <- <-. unfold total, command_held. cbn [map list_sum fold_right filter]. split; [exact D1|]. destruct (swells a); cbn [length] in *; lia.
    + destruct (dec_limited f _ _ _ r) as [[c' r']|] eqn:G'; [|discriminate]. injection G as <- <-. apply IH in G' as (G0 & G1 & G2); [|exact D1].
      split; [exact G0|].
      unfold total, command_held in *. cbn [map list_sum fold_right filter].
      fold (list_sum (map (fun a => size_of a + (if is_tx_status a then 1 else 0))%nat c')). fold (list_sum (map (fun a => S (action_held a)) c')).
      destruct (swells a); cbn [length] in *; lia.
Qed.
Lemma command_bits_total {E : Env} c cw : write_command c = Ok cw -> (length cw <= 8 * total c)%nat.
Proof.
  intros H. destruct (Exists_dec unwritable c unwritable_dec) as [Q|Q].
  { pose proof (command_fails c Q) as K. unfold command_to_bytes, to_bytes in K. rewrite H in K. discriminate. }
  apply Forall_Exists_neg in Q. destruct (command_bits c Q) as (ls & F & W). rewrite W in H. injection H as <-. clear W.
  induction F as [|a b c' ls Ha F IH]; [cbn; lia|].
  inversion Q as [|? ? Q1 Q2]; subst. destruct (write_bits a Q1) as (b' & Hb & Lb). assert (b' = b) as -> by congruence.
  specialize (IH Q2). unfold total in *. cbn [concat map list_sum fold_right]. rewrite app_length, Lb.
  fold (list_sum (map (fun a => size_of a + (if is_tx_status a then 1 else 0))%nat c')). destruct a; cbn [odd_bits is_tx_status]; lia.
Qed.

(** ** Headers *)
Lemma head_bits {E : Env} d p v r : (p <= length d)%nat -> read_fframe (mkRd d p [] 0) = Ok (v, r) ->
  write_head v = Ok (bits_of_bytes (enc_link v) ++ bits_of_fields (hdr_fields (ff_frame v))).
Proof.
  intros Hp H. rewrite read_fframe_eq in H. unfold bind at 1 in H.
  pose proof (Nice_head _ (at_wf d p Hp)) as N1.
  destruct (read_head (mkRd d p [] 0)) as [[h r1]| |]; try discriminate. destruct N1 as ((Hh & Hn) & R1 & _).
  unfold bind in H. destruct (read_command (ff_length h) r1) as [[m r2]| |] eqn:E2; try discriminate.
  destruct (read_native 2 r2) as [[k r3]| |]; try discriminate. unfold ret in H. injection H as <- _.
  change (write_head h = Ok (bits_of_bytes (enc_link h) ++ bits_of_fields (hdr_fields (ff_frame h)))).
  pose proof (F_head h Hh) as F1. unfold F, head_fields in F1. cbv zeta in F1.
  rewrite bits_of_fields_app in F1. rewrite F1. destruct Hh as (H1 & H2 & H3 & H4 & H5 & _).
  rewrite link_bits by exact H3. reflexivity.
Qed.
Lemma min_link : Min dec_link (fun x => length (enc_link (snd x no_nframe 0))).
Proof.
  assert (P : Min dec_link (fun x => (length_size (fst x) + 2 + SpecFail.address_size (ff_target (snd x no_nframe 0%N)))%nat)).
  { unfold dec_link. intros l v rest H G. apply then_inv in G as (n & l1 & Q & G). apply min_length in Q as (B1 & Q1); [|exact H].
    apply then_inv in G as (s & l2 & Q & G). apply min_one in Q as (B2 & Q2); [|exact B1].
    apply then_inv in G as (c & l3 & Q & G). apply min_one in Q as (B3 & Q3); [|exact B2].
    apply then_inv in G as (t & l4 & Q & G). apply min_named in Q as (B4 & Q4); [|exact B3].
    apply then_inv in G as (a & l5 & Q & G). apply min_address in Q as (B5 & Q5); [|exact B4].
    injection G as <- <-. cbn [fst snd ff_target] in *. split; [exact B5|]. lia. }
  intros l [n f] rest H G. destruct (dec_link_link _ _ _ _ no_nframe 0 G) as (_ & _ & L). destruct (P _ _ _ H G) as (P1 & P2).
  split; [exact P1|]. cbn [fst snd] in *. unfold enc_link. rewrite L, !app_length, LFail.enc_length_size. cbn [length].
  assert (length (enc_address (ff_target (f no_nframe 0))) = SpecFail.address_size (ff_target (f no_nframe 0)));
    [|lia]. destruct (ff_target (f no_nframe 0)); cbn [enc_address SpecFail.address_size]; rewrite ?be_bytes_length; reflexivity.
Qed.
Lemma link_3 v : (3 <= length (enc_link v))%nat.
Proof. unfold enc_link. rewrite !app_length, LFail.enc_length_size. pose proof (length_one (ff_length v)). cbn [length]. lia. Qed.
Lemma hdr_40 {E : Env} n : (40 <= length (bits_of_fields (hdr_fields n)) + lost)%nat.
Proof.
  unfold hdr_fields, network_fields, transport_fields. rewrite bits_of_fields_length, !total_width_app.
  assert (A : (total_width (ncontrol_fields (nf_control n)) + lost = 9)%nat).
  { unfold ncontrol_fields, nls_width, lost. destruct e_feat; reflexivity. }
  assert (B : total_width (tcontrol_fields (tf_control (nf_frame n))) = 7%nat) by reflexivity.
  assert (C : forall a b, total_width [(8, a); (8, b)] = 16%nat) by reflexivity.
  assert (D : forall a, total_width [(8, a)] = 8%nat) by reflexivity.
  rewrite B, C, D. lia.
Qed.
Lemma frame_sizes {E : Env} d p n v q l : bytes d -> (p <= length d)%nat -> from_stream read_fframe d p 0 = Ok (n, v, q) ->
  (command_held (command_of v) + 10 <= q - p)%nat /\
  (fframe_to_bytes v = Ok l -> length l <= q - p + length (filter swells (command_of v)))%nat.
Proof.
  intros Hd Hp H. pose proof (fframe_left d p Hd Hp) as F. rewrite from_stream_0 in H.
  assert (R : exists r, read_fframe (mkRd d p [] 0) = Ok (v, r)).
  { change (at_byte d p 0) with (mkRd d p [] 0) in H. destruct (read_fframe (mkRd d p [] 0)) as [[x r]| |]; try discriminate. cbn [rbind fst snd] in H. exists r. congruence. }
  destruct R as (r & R). rewrite <- from_stream_0 in H. pose proof (head_bits _ _ _ _ Hp R) as WH. clear R r.
  assert (Bs : bytes (skipn p d)) by (apply skipn_bytes, Hd).
  destruct (dec_fframe_at (N.of_nat p) (skipn p d)) as [[v' rest]|] eqn:D; [|destruct F as (e & F); congruence].
  destruct F as (Lr & F). rewrite F in H. assert (v' = v /\ q = length d - length rest)%nat as (-> & ->) by (split; congruence). clear F H.
  unfold dec_fframe_at in D. destruct (dec_link (skipn p d)) as [[[limit link] l0]|] eqn:DL; [|discriminate].
  destruct (dec_headers l0) as [[net l1]|] eqn:DH; [|discriminate].
  destruct (dec_limited _ _ _ _ l1) as [[c l2]|] eqn:DC; [|discriminate].
  destruct (host_num 2 l2) as [[crc rest']|] eqn:DN; [|discriminate].
  assert (link (net c) crc = v /\ rest' = rest) as (Q & ->) by (split; congruence). clear D.
  apply min_link in DL as ML; [|exact Bs]. cbv beta in ML. cbn [snd] in ML. destruct ML as (B0 & ML).
  pose proof (head_canon l0 B0) as HC. unfold head_can in HC. rewrite DH in HC.
  destruct HC as (ph & hb & w & H0 & Lp & Hb & Hw & Lb & _).
  assert (B1 : bytes l1) by (rewrite H0 in B0; apply Forall_app in B0; apply B0).
  apply limited_size in DC as (B2 & T1 & T2); [|exact B1].
  apply min_host in DN as (_ & T3); [|exact B2]. change (N.to_nat 2) with 2%nat in T3.
  assert (Qc : command_of v = c) by (rewrite <- Q; unfold command_of; rewrite (dec_link_shape _ _ _ _ DL), (dec_headers_shape _ _ _ DH); reflexivity).
  destruct (dec_link_link _ _ _ _ (net c) crc DL) as (L1 & _).
  assert (Lh : (length hb + lost = 8 * length ph)%nat).
  { apply (f_equal (@length bool)) in Hb. rewrite bits_of_bytes_length, app_length, Hw, bits_of_length in Hb. lia. }
  assert (L0 : (length l0 = length ph + length l1)%nat) by (rewrite H0, app_length; reflexivity).
  rewrite skipn_length in ML. pose proof (link_3 (link no_nframe 0)) as L3.
  pose proof (hdr_40 (net c)) as L40. rewrite Lb in L40. rewrite Qc. split; [lia|].
  intros HW. unfold fframe_to_bytes, to_bytes in HW. rewrite write_fframe_eq, WH in HW. unfold wseq in HW. cbn [rbind] in HW.
  rewrite Qc in HW. destruct (write_command c) as [cw| |] eqn:Wc; try discriminate. cbn [rbind] in HW.
  destruct (W_native 2 (ff_crc v)) as (Wn & _). rewrite Wn in HW. cbn [rbind] in HW.
  assert (Hl : l = bytes_of_bits ((bits_of_bytes (enc_link v) ++ bits_of_fields (hdr_fields (ff_frame v))) ++ cw ++ bits_of_bytes (enc_native 2 (ff_crc v)))) by congruence.
  subst l. apply bytes_of_bits_ceil. rewrite !app_length, !bits_of_bytes_length, enc_native_length.
  pose proof (command_bits_total _ _ Wc). rewrite <- Q, L1, (dec_link_shape _ _ _ _ DL), Lb. lia.
Qed.

(** ** A frame that grows *)

Definition grow_bytes {E : Env} : list N :=
  9 :: 1 :: match e_feat with Wizzilab => [66; 16; 20; 0; 12; 14] | _ => [66; 16; 10; 0; 6; 7] end ++ [0x20; 0x20; 0; 0] ++ repeat 0 67.
Lemma grow_read {E : Env} : from_stream read_fframe grow_bytes 0 0
  = Ok ((640 - match e_feat with Wizzilab => 1 | _ => 0 end)%nat, small_frame 9 [zero_profile] 0, 79%nat).
Proof. destruct E as [[] h rw]; destruct h; vm_compute; reflexivity. Qed.
Lemma grow_written {E : Env} : exists l, fframe_to_bytes (small_frame 9 [zero_profile] 0) = Ok l /\ length l = 80%nat.
Proof. destruct E as [[] h rw]; destruct h; (eexists; split; [vm_compute; reflexivity|reflexivity]). Qed.
Lemma frame_grows_refuted {E : Env} : ~ (forall d n v q l, bytes d -> from_stream read_fframe d 0 0 = Ok (n, v, q) ->
  fframe_to_bytes v = Ok l -> (length l <= q)%nat).
Proof.
  intros H. destruct grow_written as (l & W & L).
  assert (B : bytes grow_bytes).
  { unfold grow_bytes. destruct e_feat; repeat (apply Forall_cons; [reflexivity|]); constructor. }
  specialize (H _ _ _ _ _ B grow_read W). lia.
Qed.
Lemma frame_held {E : Env} d p n v q : bytes d -> (p <= length d)%nat -> from_stream read_fframe d p 0 = Ok (n, v, q) ->
  (command_held (command_of v) + 10 <= q - p)%nat.
Proof. intros H1 H2 H3. exact (proj1 (frame_sizes d p n v q [] H1 H2 H3)). Qed.
Lemma frame_grows {E : Env} d p n v q l : bytes d -> (p <= length d)%nat -> from_stream read_fframe d p 0 = Ok (n, v, q) ->
  fframe_to_bytes v = Ok l -> (length l <= q - p + length (filter swells (command_of v)))%nat.
Proof. intros H1 H2 H3 H4. exact (proj2 (frame_sizes d p n v q l H1 H2 H3) H4). Qed.
