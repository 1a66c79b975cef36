(** Lemmas for C74 with the wizzilab feature: frames that need not be well formed. *)
From Coq Require Import List NArith ZArith Bool Lia Arith ZifyBool ZifyNat ZifyN.
From Verif Require Import Base Deku Utils Types Physical Link Network Session Data Query
  Interface File Operation Action Command Frames WellFormed SpecLayout SpecAction SpecApi SpecReturn SpecExact SpecFrames SpecFrameAgain
  LBits LReader LTypes LUtf8 LLayout LRound LRoundOps LAction LApi LNumbers LNice LNiceFile LNiceOps LCount
  LActionApi LReencode LCommandApi LCommandMore LFail LReturn LWrite LExact LFiles LFrames LFramesW LFrameCanonW LFrameAgain LFrameAll.
Import ListNotations.
Open Scope N_scope.

Lemma write_command_cons {E : Env} a c wb : write_command (a :: c) = Ok wb ->
  exists wa wc, write_action a = Ok wa /\ write_command c = Ok wc /\ wb = wa ++ wc.
Proof.
  unfold write_command. cbn [write_list]. unfold wseq. destruct (write_action a) as [wa| |]; try discriminate.
  destruct (write_list write_action c) as [wc| |]; cbn [rbind]; try discriminate. intros H. exists wa, wc. repeat split. congruence.
Qed.
(** A parsed action that is read one bit behind its own bytes. *)
Lemma shifted_parsed {E : Env} a wa d p n x rest r : write_action a = Ok wa -> bytes d -> (p <= length d)%nat ->
  rest <> [] -> x :: bits_of_bytes (skipn p d) = wa ++ rest ->
  read_action (mkRd d p [] n) = Ok (a, r) ->
  wf_action a /\ wa = bits_of_bytes (enc_action a).
Proof.
  intros Hw Hd Hp Hne Hbits H.
  pose proof (At_start d p n Hp) as HA. destruct (skipn p d) as [|b t] eqn:Hs.
  { rewrite (read_action_nil _ p HA Hs) in H. discriminate. }
  assert (Hb : b < 256).
  { rewrite <- (firstn_skipn p d), Hs in Hd. apply Forall_app in Hd as (_ & Hd). apply Forall_cons_iff in Hd. apply Hd. }
  destruct (read_action_parsed _ p b t a r HA Hs H) as (_ & Hop & _ & Hpa).
  assert (K : forall b0 l, b0 < 256 -> wa = bits_of 8 b0 ++ l -> exists y, b2n x * 256 + b = 2 * b0 + b2n y).
  { intros b0 l Hb0 ->. cbn [bits_of_bytes] in Hbits. rewrite <- app_assoc in Hbits.
    assert (exists y R0, l ++ rest = y :: R0) as (y & R0 & Hy).
    { destruct (l ++ rest) eqn:Q; [|eauto]. apply app_eq_nil in Q as (_ & Q). contradiction. }
    rewrite Hy in Hbits. exists y. exact (proj1 (shift_byte _ _ _ _ _ _ Hb Hb0 Hbits)). }
  assert (Bx : forall z, b2n z = 0 \/ b2n z = 1) by (intros []; cbn; lia).
  destruct Hpa as [Hpa|[(l & -> & Hl)|(_ & v & -> & Hv)]].
  - split; [exact Hpa|]. destruct (W_action a Hpa) as (G & _). congruence.
  - exfalso. destruct (unknown_W l Hl) as (G & _). rewrite Hw in G. cbn [bits_of_bytes app] in G.
    destruct (K 0x62 (bits_of_bytes (enc_length (N.of_nat (length l)) ++ l)) eq_refl) as (y & Q); [congruence|].
    cbn in Hop. destruct (Bx x), (Bx y); divlia.
  - exfalso. destruct (tx_bits v wa Hw) as (l & Hl). destruct (K 0x40 l eq_refl Hl) as (y & Q).
    cbn in Hop. destruct (Bx x), (Bx y); divlia.
Qed.
Lemma shifted_any {E : Env} c : forall fuel L acc d p n x wb z crc r r', write_command c = Ok wb -> u16 crc -> bytes d ->
  (p <= length d)%nat -> last_is_indirect acc = false ->
  x :: bits_of_bytes (skipn p d) = wb ++ bits_of_bytes (enc_native 2 crc) ++ z ->
  ((exists k, length wb = 8 * k)%nat -> exists rest, z = false :: rest) ->
  read_actions fuel L acc (mkRd d p [] n) = Ok (acc ++ c, r) -> read_native 2 r = Ok (crc, r') ->
  x = false /\ Forall (fun a => a = plain_nop) c.
Proof.
  induction c as [|a c IH]; intros fuel L acc d p n x wb z crc r r' Hw Hcr Hd Hp Hl Hbits Hz H Hn.
  - assert (wb = []) by (vm_compute in Hw; congruence). subst wb. cbn [app] in Hbits. rewrite app_nil_r in H.
    destruct fuel as [|fuel]; [discriminate|].
    assert (exists b t, skipn p d = b :: t) as (b & t & Hs).
    { destruct (skipn p d) as [|b t]; [|eauto]. apply (f_equal (@length bool)) in Hbits.
      rewrite app_length, bits_of_bytes_length, enc_native_length in Hbits. cbn in Hbits. lia. }
    destruct (goes_on_dec L p) as [G|G].
    { pose proof (loop_overruns _ _ _ _ _ _ _ _ _ _ G Hs Hp Hl H). lia. }
    rewrite loop_limit in H by (unfold goes_on; lia). assert (Hr : mkRd d p [] n = r) by congruence. subst r.
    destruct Hz as (rest & ->); [exists 0%nat; reflexivity|].
    destruct (shifted_crc crc d p n x rest r' Hcr Hd Hp Hbits Hn) as (Hx & _). auto.
  - destruct (write_command_cons a c wb Hw) as (wa & wc & Ha & Hc & ->). rewrite <- app_assoc in Hbits.
    destruct fuel as [|fuel]; [discriminate|].
    assert (exists b t, skipn p d = b :: t) as (b & t & Hs).
    { destruct (skipn p d) as [|b t]; [|eauto]. apply (f_equal (@length bool)) in Hbits.
      rewrite !app_length, (bits_of_bytes_length (enc_native 2 crc)), enc_native_length in Hbits. cbn [bits_of_bytes length] in Hbits. lia. }
    destruct (goes_on_dec L p) as [G|G].
    2: { rewrite loop_limit in H by (unfold goes_on; lia). assert (Q : acc = acc ++ a :: c) by congruence.
         apply (f_equal (@length action)) in Q. rewrite app_length in Q. cbn [length] in Q. lia. }
    destruct (at_end_cons _ p b t (At_start d p n Hp) Hs) as (r1 & Ee & Er & Hr1).
    cbn [read_actions] in H. unfold bind at 1 in H. rewrite valid_length_go in H by exact G. cbv iota in H. unfold bind at 1 in H. rewrite Ee in H. cbv iota in H.
    rewrite Hl in H. unfold bind in H.
    assert (Eq : read_action r1 = read_action (mkRd d p [] n)).
    { rewrite (read_action_at r1 p b t Hr1) by (rewrite Er; exact Hs).
      rewrite (read_action_at (mkRd d p [] n) p b t (At_start d p n Hp)) by exact Hs. rewrite Er. reflexivity. }
    rewrite Eq in H. pose proof (Nice_action (mkRd d p [] n) (proj1 (At_start d p n Hp))) as N8.
    destruct (read_action (mkRd d p [] n)) as [[a' r3]|er|] eqn:Ea; try discriminate.
    destruct (read_actions_prefix _ _ _ _ _ _ ltac:(apply N8) H) as (new & Hnew).
    assert (a' = a /\ new = c) as (-> & ->).
    { rewrite <- app_assoc in Hnew. apply app_inv_head in Hnew. cbn [app] in Hnew. injection Hnew as -> ->. auto. }
    assert (Hne : wc ++ bits_of_bytes (enc_native 2 crc) ++ z <> []).
    { intros Q. apply app_eq_nil in Q as (_ & Q). apply app_eq_nil in Q as (Q & _). apply (f_equal (@length bool)) in Q.
      rewrite bits_of_bytes_length, enc_native_length in Q. discriminate. }
    destruct (shifted_parsed a wa d p n x _ r3 Ha Hd Hp Hne Hbits Ea) as (Wa & ->).
    destruct (shifted_action a d p n x _ r3 Wa Hd Hp Hne Hbits Ea) as (Hea & Hi & Hpl & -> & rest' & Hr' & Hb').
    destruct (skipn_cons_nth _ _ _ _ Hs) as (_ & _ & Hlt).
    replace (acc ++ a :: c) with ((acc ++ [a]) ++ c) in H by (rewrite <- app_assoc; reflexivity).
    destruct (IH fuel L (acc ++ [a]) d (S p) (n + 8 + 8)%nat x wc z crc r r' Hc Hcr Hd ltac:(lia) ltac:(rewrite last_is_indirect_snoc; exact Hi) Hb') as (Hx & Hall); [|exact H|exact Hn|].
    + intros (k & Hk). apply Hz. exists (length (enc_action a) + k)%nat. rewrite app_length, bits_of_bytes_length, Hk. lia.
    + split; [exact Hx|]. constructor; [apply Hpl; exact Hx|exact Hall].
Qed.
Lemma frame_head_wf {E : Env} d v r : read_fframe (new_reader d) = Ok (v, r) -> head_wf v.
Proof.
  intros H. rewrite read_fframe_eq in H. unfold bind at 1 in H.
  pose proof (Nice_head (new_reader d) (new_RWf d)) as N1.
  destruct (read_head (new_reader d)) as [[h r1]| |] eqn:E1; try discriminate. destruct N1 as ((Hh & Hn) & R1 & _).
  unfold bind in H. destruct (read_command (ff_length h) r1) as [[m r2]| |] eqn:E2; try discriminate.
  destruct (read_native 2 r2) as [[c r3]| |] eqn:E3; try discriminate. unfold ret in H. injection H as <- _.
  pose proof (read_command_safe (ff_length h) r1 R1) as N2. rewrite E2 in N2.
  pose proof (Nice_native 2 (2 ^ 16) eq_refl r2 ltac:(apply N2)) as N3. rewrite E3 in N3.
  apply head_wf_body; [exact Hh|apply N3].
Qed.
(** The header, whatever follows it. *)
Lemma head_read_any {E : Env} v d tl : e_feat = Wizzilab -> head_wf v -> bits_of_bytes d = bits_of_fields (head_fields v) ++ tl ->
  (16 <= length tl)%nat -> exists x,
  read_head (new_reader d) = Ok (with_body v [] 0, mkRd d (S (command_start v)) [x] (8 * command_start v + 7)) /\
  x :: bits_of_bytes (skipn (S (command_start v)) d) = tl /\ (S (command_start v) < length d)%nat.
Proof.
  intros Hz Hv Hd Htl. unfold head_wf in Hv. rewrite without_body in Hv.
  assert (HRT : RT (write_head v) read_head (with_body v [] 0)).
  { apply RT_head in Hv. destruct v as [l s t e a [nc h ac o [c dd ti x li ex g k m]] crc]. exact Hv. }
  assert (HF : F (write_head v) (head_fields v)).
  { apply F_head in Hv. destruct v as [l s t e a [nc h ac o [c dd ti x li ex g k m]] crc]. exact Hv. }
  destruct HRT as (bs & Hw & HR). unfold F in HF. rewrite Hw in HF.
  assert (El : bs = bits_of_fields (head_fields v)) by congruence. clear HF. subst bs.
  assert (Hv' : view (new_reader d) = bits_of_fields (head_fields v) ++ tl) by exact Hd.
  pose proof (head_wizzilab v Hz) as Hwd. rewrite <- bits_of_fields_length in Hwd.
  assert (HL : (8 * command_start v + 7 <= length (view (new_reader d)))%nat) by (rewrite Hv', app_length, Hwd; lia).
  pose proof (HR _ (new_RWf d)) as K. rewrite Hwd in K.
  pose proof (adv_left_length (new_reader d) _ (new_RWf d) HL) as Hleft.
  pose proof (view_adv (new_reader d) _ (new_RWf d) HL) as Hview.
  assert (Hneed : need (new_reader d) (8 * command_start v + 7) = S (command_start v)).
  { unfold need. cbn [new_reader left length]. rewrite Nat.sub_0_r. replace (8 * command_start v + 7 + 7)%nat with (S (command_start v) * 8 + 6)%nat by lia.
    rewrite Nat.div_add_l by lia. change (6 / 8)%nat with 0%nat. lia. }
  rewrite Hneed in Hleft. cbn [new_reader left length] in Hleft.
  assert (Hadv : adv (new_reader d) (8 * command_start v + 7) = mkRd d (S (command_start v)) (left (adv (new_reader d) (8 * command_start v + 7))) (8 * command_start v + 7)).
  { unfold adv at 1. rewrite Hneed. cbn [new_reader data pos bread Nat.add]. f_equal. unfold adv. cbn [left]. rewrite Hneed. reflexivity. }
  destruct (left (adv (new_reader d) (8 * command_start v + 7))) as [|x [|? ?]] eqn:Q; cbn [length] in Hleft; try lia.
  exists x. split; [rewrite K by (eexists; exact Hv'); rewrite Hadv; reflexivity|]. split.
  - rewrite Hadv in Hview. unfold view at 1 in Hview. cbn [left pos data app] in Hview. rewrite Hview, Hv', skipn_app, <- Hwd, Nat.sub_diag, skipn_all. reflexivity.
  - apply (f_equal (@length bool)) in Hd. rewrite bits_of_bytes_length, app_length, Hwd in Hd. lia.
Qed.
Lemma plain_wf {E : Env} c : Forall (fun a => a = plain_nop) c -> wf_command c.
Proof.
  intros H. split.
  - revert H. apply Forall_impl. intros a ->. reflexivity.
  - intros pre a post He Hi. rewrite He in H. apply Forall_app in H as (_ & H). apply Forall_cons_iff in H as (-> & _). discriminate.
Qed.
Lemma frame_wf_again {E : Env} v : head_wf v -> wf_command (command_of v) -> wf_fframe v.
Proof.
  unfold head_wf. intros H1 H2. pose proof (with_body_wf _ (command_of v) (ff_crc v) H1 H2 ltac:(apply H1)) as H.
  destruct v as [l s t e a [nc h ac o [c d ti x li ex g k m]] crc]. exact H.
Qed.
Lemma frame_any_wizzilab {E : Env} v : e_feat = Wizzilab -> ff_length v <> 0 ->
  (frame_survives v <-> wf_fframe v /\ all_zero_tail v).
Proof.
  intros Hz HL. split.
  - intros H. assert (Hv : wf_fframe v).
    { destruct H as (l & suf & n & Hw & Hs & H). apply from_reader_0 in H. destruct H as (r & H & _).
      pose proof (frame_head_wf _ _ _ H) as Hh. apply frame_wf_again; [exact Hh|]. apply plain_wf.
      assert (HF : F (write_head v) (head_fields v)).
      { unfold head_wf in Hh. rewrite without_body in Hh. apply F_head in Hh.
        destruct v as [l' s t e a [nc h ac o [c dd ti x li ex g k m]] crc]. exact Hh. }
      unfold fframe_to_bytes, to_bytes in Hw. rewrite write_fframe_eq, HF in Hw. unfold wseq in Hw. cbn [rbind] in Hw.
      destruct (write_command (command_of v)) as [wb| |] eqn:Ewb; try discriminate.
      destruct (W_native 2 (ff_crc v)) as (Hn & _). rewrite Hn in Hw. cbn [rbind] in Hw.
      set (bits := bits_of_fields (head_fields v) ++ wb ++ bits_of_bytes (enc_native 2 (ff_crc v))) in *.
      assert (l = bytes_of_bits bits) by congruence. subst l. clear Hw. destruct (padded bits) as (k & Hk & Hpad).
      set (d := bytes_of_bits bits ++ suf) in *.
      assert (Hd : bytes d) by (apply Forall_app; split; [apply bytes_of_bits_bytes|exact Hs]).
      pose proof (head_wizzilab v Hz) as Hwd. rewrite <- bits_of_fields_length in Hwd.
      set (z := repeat false k ++ bits_of_bytes suf).
      assert (Hdb : bits_of_bytes d = bits_of_fields (head_fields v) ++ wb ++ bits_of_bytes (enc_native 2 (ff_crc v)) ++ z).
      { unfold d, z. rewrite bits_of_bytes_app, Hpad. unfold bits. rewrite <- !app_assoc. reflexivity. }
      destruct (head_read_any v d _ Hz Hh Hdb) as (x & Eh & Hbits & Hlen).
      { rewrite !app_length, bits_of_bytes_length, enc_native_length. lia. }
      rewrite read_fframe_eq in H. unfold bind at 1 in H. rewrite Eh in H.
      unfold bind, read_command in H. cbn [data] in H.
      change (ff_length (with_body v [] 0)) with (ff_length v) in H.
      destruct (read_actions _ _ _ _) as [[m r1]|e|] eqn:Ea; try discriminate.
      destruct (read_native 2 r1) as [[q r2]|e|] eqn:En; try discriminate. unfold ret in H.
      assert (Q : with_body (with_body v [] 0) m q = v) by congruence.
      assert (m = command_of v) by (rewrite <- Q; reflexivity). assert (q = ff_crc v) by (rewrite <- Q; reflexivity). subst m q. clear H Q.
      assert (Ea' : read_actions (S (length d)) (ff_length v) [] (mkRd d (S (command_start v)) [] (8 * command_start v + 7)) = Ok (command_of v, r1)).
      { refine (eq_trans _ Ea). cbn [read_actions]. unfold valid_length. destruct (N.eqb_spec (ff_length v) 0) as [Q|_]; [contradiction|]. reflexivity. }
      change (command_of v) with ([] ++ command_of v) in Ea'.
      refine (proj2 (shifted_any (command_of v) _ _ [] d _ _ x wb z (ff_crc v) r1 r2 Ewb _ Hd (Nat.lt_le_incl _ _ Hlen) eq_refl Hbits _ Ea' En)).
      + apply Hh.
      + intros (j & Hj). apply (f_equal (@length bool)) in Hpad. rewrite bits_of_bytes_length, app_length, repeat_length in Hpad.
        unfold bits in Hpad. rewrite !app_length, Hwd, Hj, bits_of_bytes_length, enc_native_length in Hpad.
        assert (k = 1%nat) by lia. subst k. eexists. reflexivity. }
    split; [exact Hv|]. apply (frame_again_wizzilab v Hz Hv). exact H.
  - intros (Hv & G). apply (frame_again_wizzilab v Hz Hv). exact G.
Qed.
(** With length 0 the first action is looked up in the right bits and read one bit behind them. *)
Definition odd_frame : fframe := small_frame 0 [AIndirectForward (mkIndirectForward true true 38 (Some IiHost))] 0.
Lemma odd_survives {E : Env} : e_feat = Wizzilab -> frame_survives odd_frame /\ ~ wf_fframe odd_frame.
Proof.
  intros Hz. split.
  - destruct E as [f h w]. cbn in Hz. subst f. eexists _, [], _. split; [vm_compute; reflexivity|]. split; [constructor|]. destruct h, w; vm_compute; reflexivity.
  - intros (_ & _ & _ & _ & _ & _ & (_ & _ & _ & _ & (_ & _ & _ & _ & _ & _ & _ & (H & _)))).
    apply Forall_cons_iff in H as (H & _). destruct H as (H & _). discriminate H.
Qed.
Lemma odd_exists {E : Env} : e_feat = Wizzilab -> exists v, ff_length v = 0 /\ frame_survives v /\ ~ wf_fframe v.
Proof. intros Hz. exists odd_frame. split; [reflexivity|]. exact (odd_survives Hz). Qed.
Lemma unknown_frames : let E := env_spec in
  let v c l := small_frame l [unknown_status c] 0xABCD in
  reencodable (unknown_status [1; 2; 3; 4; 5]) /\
  fframe_to_bytes (v [1; 2; 3; 4; 5] 15) = Ok [15; 1; 66; 16; 10; 0; 6; 7; 0x62; 5; 1; 2; 3; 4; 5; 0xCD; 0xAB] /\
  d_from_reader read_fframe [15; 1; 66; 16; 10; 0; 6; 7; 0x62; 5; 1; 2; 3; 4; 5; 0xCD; 0xAB] 0
  = Ok (144%nat, v [1; 2; 3; 4; 5] 15) /\
  ~ reencodable (unknown_status [1; 2; 3]) /\
  fframe_to_bytes (v [1; 2; 3] 13) = Ok [13; 1; 66; 16; 10; 0; 6; 7; 0x62; 3; 1; 2; 3; 0xCD; 0xAB] /\
  d_from_reader read_fframe [13; 1; 66; 16; 10; 0; 6; 7; 0x62; 3; 1; 2; 3; 0xCD; 0xAB] 0 <> Ok (128%nat, v [1; 2; 3] 13).
Proof.
  cbv zeta. split; [split; [reflexivity|unfold clashes; cbn [length N.of_nat]; lia]|]. split; [vm_compute; reflexivity|].
  split; [vm_compute; reflexivity|]. split; [intros (_ & H); apply H; left; reflexivity|]. split; [vm_compute; reflexivity|].
  intros H. vm_compute in H. discriminate H.
Qed.
