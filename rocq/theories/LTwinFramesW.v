(** Different foreground frames that are written as the same bytes, in every build. *)
From Coq Require Import List NArith ZArith Bool Lia ZifyBool ZifyNat ZifyN Arith.
From Verif Require Import Base Deku Utils Types Physical Link Network Session Data Query
  Interface File Operation Action Command Frames WellFormed SpecLayout SpecAction SpecFrames SpecDecode SpecFrameUnique
  SpecTwins LBits LReader LLayout LRound LNumbers LNice LNiceOps LActionApi LCommandApi LCommandMore LReencode LFrames LFrameCanonTop LFrameAgain LFrameUnique LFrameAll LFrameAllW
  LTwins LTwinBits LFramesW LTwinFrames.
Import ListNotations.
Open Scope N_scope.

Lemma restored_parsed {E : Env} a : parsed_action (if is_tx_status a then a else with_opcode (opcode_of a) a) ->
  parsed_action (with_opcode (opcode_of a) a).
Proof.
  destruct (is_tx_status a) eqn:T; [|auto]. destruct a; try discriminate.
  intros [H|[(l & H & _)|(Hz & w & H & P)]]; [destruct H|discriminate|]. right. right. split; [exact Hz|].
  eexists. split; [reflexivity|]. injection H as ->. destruct P as (_ & P1 & P2). split; [reflexivity|]. split; [exact P1|exact P2].
Qed.
Lemma loop_restored {E : Env} fuel : forall len acc r c r', RWf r -> Forall parsed_action (restored acc) ->
  read_actions fuel len acc r = Ok (c, r') -> Forall parsed_action (restored c).
Proof.
  induction fuel as [|fuel IH]; intros len acc r c r' Hr Ha H; [discriminate|].
  cbn [read_actions] in H. unfold bind in H.
  assert (exists ok r1, valid_length len r = Ok (ok, r1) /\ RWf r1) as (ok & r1 & E1 & Hr1).
  { unfold valid_length. destruct (len =? 0)%N.
    - do 2 eexists. split; [reflexivity|exact Hr].
    - unfold bind, stream_position, ret. do 2 eexists. split; [reflexivity|].
      destruct Hr as (R1 & R2 & R3). unfold RWf. cbn [data pos left List.length]. repeat split; lia. }
  rewrite E1 in H. destruct ok; [|injection H as <- _; exact Ha].
  destruct (at_end_spec r1 Hr1) as (e & r2 & E2 & Hr2 & _). rewrite E2 in H.
  destruct e; [injection H as <- _; exact Ha|].
  destruct (last_is_indirect acc) eqn:Hl; [injection H as <- _; exact Ha|].
  destruct (read_action r2) as [[a r3]|er|] eqn:Ea; try discriminate.
  pose proof (Nice_action r2 Hr2) as N8. rewrite Ea in N8. destruct N8 as (Pa & Hr3 & _).
  eapply IH; [exact Hr3| |exact H]. unfold restored. rewrite map_app. apply Forall_app. split; [exact Ha|].
  constructor; [|constructor]. apply restored_parsed, Pa.
Qed.
Lemma frame_restored {E : Env} v : frame_parseable v -> head_wf v /\ Forall parsed_action (restored (command_of v)) /\ u16 (ff_crc v).
Proof.
  intros (d & n & H). apply LFrameAgain.from_reader_0 in H as (r & H & _). pose proof (frame_head_wf d v r H) as Hh. split; [exact Hh|].
  split; [|unfold head_wf in Hh; apply Hh].
  rewrite read_fframe_eq in H. unfold bind at 1 in H. pose proof (Nice_head (new_reader d) (new_RWf d)) as N1.
  destruct (read_head (new_reader d)) as [[h r1]| |] eqn:E1; try discriminate. destruct N1 as (_ & R1 & _).
  unfold bind in H. destruct (read_command (ff_length h) r1) as [[m r2]| |] eqn:E2; try discriminate.
  destruct (read_native 2 r2) as [[c r3]| |] eqn:E3; try discriminate. unfold ret in H. injection H as <- _.
  rewrite with_body_command. unfold read_command in E2. refine (loop_restored _ _ [] _ _ _ R1 (Forall_nil _) E2).
Qed.
Lemma restored_written {E : Env} c : Forall parsed_action (restored c) -> write_command c = Ok (cbits (restored c)).
Proof.
  unfold write_command. induction c as [|a c IH]; [reflexivity|]. cbn [restored map]. fold (restored c). intros H.
  apply Forall_cons_iff in H as [Ha Hc]. cbn [write_list]. rewrite <- (write_opcode (opcode_of a) a), (written _ Ha), (IH Hc). reflexivity.
Qed.
(** The bits of a frame. *)
Definition fbits {E : Env} (v : fframe) : list bool :=
  bits_of_fields (head_fields v) ++ cbits (restored (command_of v)) ++ bits_of_bytes (enc_native 2 (ff_crc v)).
Lemma head_both {E : Env} v : head_wf v -> F (write_head v) (head_fields v) /\ RT (write_head v) read_head (with_body v [] 0).
Proof.
  unfold head_wf. rewrite without_body. intros H. split; [apply F_head in H|apply RT_head in H];
    destruct v as [l s t e a [nc h ac o [c d ti x li ex g k m]] crc]; exact H.
Qed.
Lemma frame_written {E : Env} v : frame_parseable v -> fframe_to_bytes v = Ok (bytes_of_bits (fbits v)).
Proof.
  intros H. destruct (frame_restored v H) as (Hh & Hp & _). destruct (head_both v Hh) as [HF _]. unfold F in HF.
  unfold fframe_to_bytes, to_bytes. rewrite write_fframe_eq, HF, (restored_written _ Hp).
  destruct (W_native 2 (ff_crc v)) as (-> & _). reflexivity.
Qed.
Lemma head_first {E : Env} v d t : head_wf v -> bits_of_bytes d = bits_of_fields (head_fields v) ++ t ->
  exists r, read_head (new_reader d) = Ok (with_body v [] 0, r).
Proof.
  intros Hh Hd. destruct (head_both v Hh) as [HF (bs & Hw & HR)]. unfold F in HF. rewrite Hw in HF.
  assert (bs = bits_of_fields (head_fields v)) as -> by congruence. eexists. apply (HR (new_reader d) (new_RWf d)). exists t. exact Hd.
Qed.
Lemma frame_handy {E : Env} v : N.of_nat (length (bytes_of_bits (fbits v))) < 23 * 2 ^ 24 -> Forall handy (restored (command_of v)).
Proof.
  intros B. rewrite Forall_forall. intros a I l -> [L U]. destruct (filled (fbits v)) as (k & n & _ & Ln & Q).
  rewrite Q, (bytes_of_bits_length _ n Ln) in B. apply in_split in I as (x & y & I). unfold fbits in Ln. rewrite I in Ln.
  unfold cbits in Ln. rewrite flat_map_app in Ln. cbn [flat_map] in Ln.
  assert (A : abits (unknown_status l) = bits_of_bytes (enc_action (unknown_status l))) by reflexivity.
  rewrite A, LCommandMore.unknown_enc in Ln. rewrite !app_length, (bits_of_bytes_length (0x62 :: _)) in Ln. cbn [length] in Ln. rewrite app_length in Ln. lia.
Qed.
Theorem twin_frames_any {E : Env} v w l : frame_parseable v -> frame_parseable w ->
  fframe_to_bytes v = Ok l -> N.of_nat (length l) < 23 * 2 ^ 24 ->
  (fframe_to_bytes w = Ok l <->
    twins (restored (command_of v)) (restored (command_of w)) /\ w = refill v (command_of w) (ff_crc v)).
Proof.
  intros Hv Hw H B. rewrite (frame_written v Hv) in H. assert (l = bytes_of_bits (fbits v)) as -> by congruence. clear H. rewrite (frame_written w Hw).
  destruct (frame_restored v Hv) as (Jv & Pv & Uv). destruct (frame_restored w Hw) as (Jw & Pw & Uw). split.
  - intros H. assert (Q : bytes_of_bits (fbits v) = bytes_of_bits (fbits w)) by congruence.
    destruct (filled (fbits v)) as (k & n & Hk & Lk & Fk). destruct (filled (fbits w)) as (m & o & Hm & Lm & Fm).
    assert (Dv : bits_of_bytes (bytes_of_bits (fbits v)) = fbits v ++ repeat false k) by (rewrite Fk; exact (bits_of_bytes_of_bits _ _ Lk)).
    assert (Dw : bits_of_bytes (bytes_of_bits (fbits v)) = fbits w ++ repeat false m) by (rewrite Q, Fm; exact (bits_of_bytes_of_bits _ _ Lm)).
    destruct (head_first v (bytes_of_bits (fbits v)) _ Jv ltac:(rewrite Dv; unfold fbits; rewrite <- app_assoc; reflexivity)) as (r & R1).
    destruct (head_first w (bytes_of_bits (fbits v)) _ Jw ltac:(rewrite Dw; unfold fbits; rewrite <- app_assoc; reflexivity)) as (r' & R2).
    assert (G : with_body v [] 0 = with_body w [] 0) by congruence. apply (proj1 (refill_same v w)) in G.
    assert (HH : bits_of_fields (head_fields w) = bits_of_fields (head_fields v)) by (rewrite G; reflexivity).
    rewrite Dv in Dw. unfold fbits in Dw. rewrite HH, <- !app_assoc in Dw. apply app_inv_head in Dw.
    assert (TP : twins (restored (command_of v)) (restored (command_of w)) /\
      bits_of_bytes (enc_native 2 (ff_crc v)) ++ repeat false k = bits_of_bytes (enc_native 2 (ff_crc w)) ++ repeat false m).
    { apply (twins_bits (length (restored (command_of v)) + length (restored (command_of w)))); try assumption; try apply Nat.le_refl.
      - rewrite !app_length, !repeat_length, !bits_of_bytes_length, !enc_native_length. lia.
      - rewrite !app_length, !repeat_length, !bits_of_bytes_length, !enc_native_length. lia.
      - apply frame_handy. exact B.
      - apply frame_handy. rewrite <- Q. exact B. }
    destruct TP as [T P].
    apply app_eq_len in P as (P & _); [|rewrite !bits_of_bytes_length, !enc_native_length; reflexivity].
    apply bits_of_bytes_inj in P; [|apply enc_native_bytes|apply enc_native_bytes].
    assert (N : ff_crc w = ff_crc v).
    { assert (X : forall x, to_host 2 x = enc_native 2 x) by (intros x; unfold to_host, enc_native, le_bytes; destruct e_host; reflexivity).
      pose proof (f_equal of_host P) as Y. rewrite <- !X, (of_host_to_host 2 (ff_crc v) Uv), (of_host_to_host 2 (ff_crc w) Uw) in Y. congruence. }
    split; [exact T|]. rewrite <- N. exact G.
  - intros (T & G). do 2 f_equal. unfold fbits. rewrite (twins_cbits _ _ T). rewrite G at 1 3. reflexivity.
Qed.
Lemma twin_frames_any_refuted {E : Env} : exists v w l, frame_parseable v /\ frame_parseable w /\ v <> w /\
  fframe_to_bytes v = Ok l /\ fframe_to_bytes w = Ok l.
Proof.
  destruct e_feat eqn:F; [apply LTwinFrames.twin_frames_refuted; rewrite F; discriminate..|].
  exists (small_frame 10 [unknown_status [0]] 0), (small_frame 10 [serial_status] 0), [10; 1; 66; 16; 20; 0; 12; 14; 196; 2; 0; 0; 0].
  destruct E as [f h b]. cbn in F. subst f.
  split; [|split; [|split; [discriminate|split; destruct h, b; vm_compute; reflexivity]]].
  - exists [10; 1; 66; 16; 20; 0; 12; 14; 0x62; 0x40; 1; 0; 0; 0], 119%nat. destruct h, b; vm_compute; reflexivity.
  - exists [10; 1; 66; 16; 20; 0; 12; 14; 0x62; 1; 0; 0; 0], 111%nat. destruct h, b; vm_compute; reflexivity.
Qed.

(** Commands as they are parsed, with the opcodes they have been given. *)
Lemma command_restored {E : Env} d c : command_try_from d = Ok c -> Forall parsed_action (restored c).
Proof.
  unfold command_try_from. rewrite LActionApi.u_try_from_eq. intros H.
  destruct (read_command 0 (new_reader d)) as [[x r]|e|] eqn:Er; try discriminate.
  assert (x = c) as -> by (destruct (Nat.leb (List.length d) (bread r / 8)) in H; congruence).
  refine (loop_restored _ _ [] _ _ _ (new_RWf d) (Forall_nil _) Er).
Qed.
Lemma bits_handy {E : Env} c : N.of_nat (length (bytes_of_bits (cbits c))) < 23 * 2 ^ 24 -> Forall handy c.
Proof.
  intros B. rewrite Forall_forall. intros a I l -> [L U]. destruct (filled (cbits c)) as (k & n & _ & Ln & Q).
  rewrite Q, (bytes_of_bits_length _ n Ln) in B. apply in_split in I as (x & y & ->).
  unfold cbits in Ln. rewrite flat_map_app in Ln. cbn [flat_map] in Ln.
  assert (A : abits (unknown_status l) = bits_of_bytes (enc_action (unknown_status l))) by reflexivity.
  rewrite A, LCommandMore.unknown_enc in Ln. rewrite !app_length, (bits_of_bytes_length (0x62 :: _)) in Ln. cbn [length] in Ln. rewrite app_length in Ln. lia.
Qed.
Theorem twin_commands_parsed {E : Env} x y c d l : command_try_from x = Ok c -> command_try_from y = Ok d ->
  command_to_bytes c = Ok l -> N.of_nat (length l) < 23 * 2 ^ 24 ->
  (command_to_bytes d = Ok l <-> twins (restored c) (restored d)).
Proof.
  intros Hx Hy H B. pose proof (command_restored x c Hx) as Pc. pose proof (command_restored y d Hy) as Pd.
  unfold command_to_bytes, to_bytes in *. rewrite (restored_written c Pc) in H. rewrite (restored_written d Pd). cbn [rbind] in *.
  assert (l = bytes_of_bits (cbits (restored c))) as -> by congruence. clear H. split.
  - intros H. assert (Q : bytes_of_bits (cbits (restored c)) = bytes_of_bits (cbits (restored d))) by congruence.
    destruct (same_filled _ _ Q) as (k & m & Hk & Hm & Q').
    apply (twins_bits (length (restored c) + length (restored d)) _ _ (repeat false k) (repeat false m)); rewrite ?repeat_length; auto; try lia.
    + apply bits_handy. exact B.
    + apply bits_handy. rewrite <- Q. exact B.
  - intros T. rewrite (twins_cbits _ _ T). reflexivity.
Qed.
