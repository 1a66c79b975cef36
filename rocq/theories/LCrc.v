(** Lemmas for C87: the checksum is carried, not checked. *)
From Coq Require Import List NArith ZArith Bool Lia ZifyBool ZifyNat ZifyN Arith.
From Verif Require Import Base Deku Utils Types Physical Link Network Session Data Query
  Interface File Operation Action Command Frames Position WellFormed SpecLayout SpecApi SpecDecode SpecFrames SpecFrameDecode SpecPosition
  SpecCrc LBits LReader LCanon LLayout LDecode LJoin LFrames LDecodeFrame LPosition LFrameCanonTop LFrameStream.
Import ListNotations.
Open Scope N_scope.

Lemma bytes_native {E : Env} k c : bytes (enc_native k c).
Proof. unfold enc_native. destruct e_host; [apply Forall_rev|]; apply be_bytes_bytes. Qed.
Lemma host_enc {E : Env} c s : c < 65536 -> host_num 2 (enc_native 2 c ++ s) = Some (c, s).
Proof.
  intros Hc. unfold host_num, andthen, give.
  rewrite (some_app 2) by (rewrite enc_native_length; reflexivity).
  unfold enc_native. destruct e_host; rewrite ?rev_involutive, N_of_be_be; change (256 ^ N.of_nat 2) with 65536;
    rewrite N.mod_small by exact Hc; reflexivity.
Qed.
Lemma link_crc d n f l x c y : dec_link d = Some ((n, f), l) -> ff_crc (f x c) = c /\ with_crc (f x c) y = f x y.
Proof. intros H. unfold dec_link in H. repeat (apply andthen_some in H as (? & ? & _ & H)). injection H as <- <- _. split; reflexivity. Qed.
Lemma crc_last {E : Env} at_ d v rest : bytes d -> dec_fframe_at at_ d = Some (v, rest) ->
  exists p, d = p ++ enc_native 2 (ff_crc v) ++ rest /\
    forall c s, c < 65536 -> dec_fframe_at at_ (p ++ enc_native 2 c ++ s) = Some (with_crc v c, s).
Proof.
  intros Hd H. unfold dec_fframe_at in H.
  destruct (dec_link d) as [[[limit link] l]|] eqn:E1; [|discriminate].
  destruct (dec_headers l) as [[net l1]|] eqn:E2; [|discriminate].
  destruct (dec_limited (length l1) limit _ _ l1) as [[c l2]|] eqn:E3; [|discriminate].
  destruct (host_num 2 l2) as [[crc rest']|] eqn:E4; [|discriminate]. injection H as <- <-.
  destruct (link_crc _ _ _ _ (net c) crc 0 E1) as (C1 & _). assert (C2 := fun y => proj2 (link_crc _ _ _ _ (net c) crc y E1)).
  destruct (Loc_link _ _ _ E1) as (p1 & -> & S1). destruct (Loc_headers _ _ _ E2) as (p2 & -> & S2).
  assert (Hne : l2 <> []) by (intros ->; discriminate).
  destruct (Loc_limited _ _ _ _ _ _ _ E3 Hne) as (p3 & -> & S3).
  assert (B2 : bytes l2) by (repeat (apply Forall_app in Hd as [_ Hd]); exact Hd).
  pose proof (host_num_canon _ _ _ B2 E4) as ->.
  exists (p1 ++ p2 ++ p3). split; [rewrite C1, <- !app_assoc; reflexivity|]. intros x s Hx. rewrite C2. rewrite <- !app_assoc.
  unfold dec_fframe_at. rewrite S1, S2.
  assert (L : forall y, length (enc_native 2 y) = 2%nat) by (intros; apply enc_native_length).
  match goal with |- context[dec_limited _ _ (at_ + N.of_nat ?n)] =>
    match type of S3 with context[dec_limited _ _ (at_ + N.of_nat ?m)] =>
      replace n with m by (rewrite !app_length, !L; lia) end end.
  rewrite S3; [|intros Z; apply (f_equal (@length N)) in Z; rewrite app_length, L in Z; cbn in Z; lia|rewrite app_length; lia].
  rewrite (host_enc x s Hx). reflexivity.
Qed.

Lemma carried {E : Env} d p n v q : bytes d -> (p <= length d)%nat -> from_stream read_fframe d p 0 = Ok (n, v, q) ->
  (p + 2 <= q <= length d)%nat /\ d = firstn (q - 2) d ++ enc_native 2 (ff_crc v) ++ skipn q d /\
  forall c, c < 65536 -> from_stream read_fframe (firstn (q - 2) d ++ enc_native 2 c ++ skipn q d) p 0 = Ok (n, with_crc v c, q).
Proof.
  intros Hd Hp H. pose proof (fframe_left d p Hd Hp) as HL.
  destruct (dec_fframe_at (N.of_nat p) (skipn p d)) as [[v' rest]|] eqn:D; [|destruct HL as (e & HL); congruence].
  destruct HL as (Lr & HL). rewrite H in HL. injection HL as -> <- ->.
  assert (Hs : bytes (skipn p d)) by (rewrite <- (firstn_skipn p d) in Hd; apply Forall_app in Hd; apply Hd).
  destruct (crc_last _ _ _ _ Hs D) as (t & T & S).
  assert (Dd : d = (firstn p d ++ t) ++ enc_native 2 (ff_crc v) ++ rest) by (rewrite <- app_assoc, <- T, firstn_skipn; reflexivity).
  assert (Lf : length (firstn p d) = p) by (rewrite firstn_length; lia).
  pose proof (f_equal (@length N) Dd) as Ld. rewrite !app_length, Lf, enc_native_length in Ld.
  set (h := firstn p d) in *.
  assert (F : firstn (length d - length rest - 2) d = h ++ t).
  { rewrite Dd at 2. replace (length d - length rest - 2)%nat with (length (h ++ t)) by (rewrite app_length; lia).
    rewrite firstn_app, Nat.sub_diag, firstn_all, firstn_O, app_nil_r. reflexivity. }
  assert (R : skipn (length d - length rest) d = rest).
  { rewrite Dd at 2. rewrite app_assoc. replace (length d - length rest)%nat with (length ((h ++ t) ++ enc_native 2 (ff_crc v)))
      by (rewrite !app_length, enc_native_length; lia). rewrite skipn_app, Nat.sub_diag, skipn_all. reflexivity. }
  rewrite F, R. split; [lia|]. split; [exact Dd|]. intros c Hc. specialize (S c rest Hc).
  set (d' := (h ++ t) ++ enc_native 2 c ++ rest).
  assert (Ld' : length d' = length d) by (unfold d'; rewrite !app_length, enc_native_length; lia).
  assert (Hd' : bytes d').
  { unfold d'. rewrite Dd in Hd. apply Forall_app in Hd as [B1 B2]. apply Forall_app in B2 as [_ B2].
    repeat (apply Forall_app; split); try assumption; [apply Forall_app in B1; apply B1|apply Forall_app in B1; apply B1|apply bytes_native]. }
  pose proof (fframe_left d' p Hd' ltac:(lia)) as HL.
  assert (Sk : skipn p d' = t ++ enc_native 2 c ++ rest).
  { unfold d'. rewrite <- app_assoc, <- Lf, skipn_app, Nat.sub_diag, skipn_all. reflexivity. }
  rewrite Sk, S in HL. destruct HL as (_ & HL). rewrite HL, Ld'. reflexivity.
Qed.

Lemma no_checksum {E : Env} : ~ exists f : list N -> N, forall d p n v q, bytes d -> (p <= length d)%nat ->
  from_stream read_fframe d p 0 = Ok (n, v, q) -> ff_crc v = f (firstn (q - 2) d).
Proof.
  intros (f & H).
  pose (d x := match e_feat with Wizzilab => [8; 1; 66; 16; 20; 0; 12; 14; x; x] | _ => [8; 1; 66; 16; 10; 0; 6; 7; x; x] end).
  assert (Q : forall x, x < 2 -> exists n v, from_stream read_fframe (d x) 0 0 = Ok (n, v, 10%nat) /\ ff_crc v = x * 257).
  { intros x Hx. assert (x = 0 \/ x = 1) as [-> | ->] by lia; unfold d; destruct E as [[] [] []]; do 2 eexists; split; vm_compute; reflexivity. }
  destruct (Q 0 eq_refl) as (n0 & v0 & Q0 & C0). destruct (Q 1 eq_refl) as (n1 & v1 & Q1 & C1).
  assert (B : forall x, x < 2 -> bytes (d x)) by (intros x Hx; unfold d; destruct e_feat; repeat constructor; unfold byte; lia).
  pose proof (H _ _ _ _ _ (B 0 eq_refl) (Nat.le_0_l _) Q0) as X. pose proof (H _ _ _ _ _ (B 1 eq_refl) (Nat.le_0_l _) Q1) as Y.
  rewrite C0 in X. rewrite C1 in Y. assert (F : firstn (10 - 2) (d 0) = firstn (10 - 2) (d 1)) by (unfold d; destruct e_feat; reflexivity).
  rewrite F in X. rewrite <- X in Y. discriminate.
Qed.

Lemma carried_written {E : Env} v l c : fframe_to_bytes v = Ok l ->
  exists bits, l = bytes_of_bits (bits ++ bits_of_bytes (enc_native 2 (ff_crc v))) /\
    fframe_to_bytes (with_crc v c) = Ok (bytes_of_bits (bits ++ bits_of_bytes (enc_native 2 c))).
Proof.
  unfold fframe_to_bytes, to_bytes. rewrite !write_fframe_eq.
  change (write_head (with_crc v c)) with (write_head v). change (command_of (with_crc v c)) with (command_of v). cbn [with_crc ff_crc].
  rewrite <- !wseq_assoc. destruct (W_native 2 (ff_crc v)) as (-> & _). destruct (W_native 2 c) as (-> & _).
  unfold wseq at 1 3. destruct (write_head v +++ write_command (command_of v)) as [b|e|]; cbn [rbind]; intros H; [|discriminate|discriminate].
  exists b. split; [congruence|reflexivity].
Qed.

Lemma try_carried {E : Env} d v : bytes d -> fframe_try_from d = Ok v ->
  exists k, (k + 2 <= length d)%nat /\ d = firstn k d ++ enc_native 2 (ff_crc v) ++ skipn (k + 2) d /\
    forall c, c < 65536 -> fframe_try_from (firstn k d ++ enc_native 2 c ++ skipn (k + 2) d) = Ok (with_crc v c).
Proof.
  intros Hd H.
  assert (T : forall x, fframe_try_from x = rbind (from_stream read_fframe x 0 0) (fun y =>
    if Nat.eqb (Nat.div (fst (fst y)) 8) (length x) then Ok (snd (fst y)) else Err ETooMuchData)).
  { intros x. unfold fframe_try_from, d_try_from. rewrite (proj1 (from_start read_fframe x 0)).
    destruct (from_stream read_fframe x 0 0); reflexivity. }
  rewrite T in H. destruct (from_stream read_fframe d 0 0) as [[[n w] q]|e|] eqn:S; cbn [rbind fst snd] in H; [|discriminate|discriminate].
  destruct (Nat.eqb (Nat.div n 8) (length d)) eqn:Q; [|discriminate]. injection H as ->.
  destruct (carried d 0 n v q Hd (Nat.le_0_l _) S) as (L & D & C). exists (q - 2)%nat.
  replace (q - 2 + 2)%nat with q by lia. split; [lia|]. split; [exact D|]. intros c Hc. rewrite T, (C c Hc). cbn [rbind fst snd].
  replace (length (firstn (q - 2) d ++ enc_native 2 c ++ skipn q d)) with (length d); [rewrite Q; reflexivity|].
  rewrite !app_length, enc_native_length, firstn_length, skipn_length. lia.
Qed.

Lemma background_carried {E : Env} d v : bytes d -> bframe_try_from d = Ok v ->
  d = firstn 4 d ++ enc_native 2 (bf_crc v) /\
  forall c, c < 65536 -> bframe_try_from (firstn 4 d ++ enc_native 2 c) = Ok (bf_with_crc v c).
Proof.
  intros Hd H. destruct (bframe_bytes d Hd) as (A & B & C).
  destruct (Nat.lt_trichotomy (length d) 6) as [L|[L|L]]; [rewrite (B L) in H; discriminate| |rewrite (C L) in H; discriminate].
  destruct (A L) as (v' & H' & W). rewrite H in H'. injection H' as <-.
  assert (Wf : wf_bframe v).
  { apply (proj1 (proj2 (bframe_exact v))). exists d. unfold bframe_try_from, d_try_from in H. unfold d_from_bytes. unfold d_from_reader in H.
    destruct (start read_bframe d 0) as [[w r]|e|]; cbn [rbind fst snd] in H |- *; [|discriminate|discriminate].
    destruct (Nat.eqb_spec (Nat.div (bread r) 8) (length d)) as [Q|]; [|discriminate]. injection H as ->. rewrite Q, Nat.leb_refl.
    eexists. split; [exact W|reflexivity]. }
  destruct (bframe_value v Wf) as (W' & _ & _). rewrite W in W'. injection W' as ->.
  assert (G : forall x, enc_bframe x = ([bf_subnet x; 64 * code_address_type (bf_type x) + bf_tag x] ++ enc_native 2 (bf_payload x)) ++ enc_native 2 (bf_crc x))
    by (intros x; unfold enc_bframe; rewrite app_assoc; reflexivity).
  assert (F : firstn 4 (enc_bframe v) = [bf_subnet v; 64 * code_address_type (bf_type v) + bf_tag v] ++ enc_native 2 (bf_payload v)).
  { rewrite G. set (u := _ ++ enc_native 2 (bf_payload v)). assert (Lu : length u = 4%nat) by (unfold u; rewrite app_length, enc_native_length; reflexivity).
    rewrite <- Lu, firstn_app, Nat.sub_diag, firstn_all, firstn_O, app_nil_r. reflexivity. }
  rewrite F. split; [apply G|]. intros c Hc.
  change (([bf_subnet v; 64 * code_address_type (bf_type v) + bf_tag v] ++ enc_native 2 (bf_payload v)) ++ enc_native 2 c)
    with (([bf_subnet (bf_with_crc v c); 64 * code_address_type (bf_type (bf_with_crc v c)) + bf_tag (bf_with_crc v c)] ++ enc_native 2 (bf_payload (bf_with_crc v c)))
      ++ enc_native 2 (bf_crc (bf_with_crc v c))).
  rewrite <- G. apply bframe_value. destruct Wf as (W1 & W2 & W3 & _). repeat split; assumption.
Qed.
