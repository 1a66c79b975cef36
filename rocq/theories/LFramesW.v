(** Foreground frames with the wizzilab feature: C34. *)
From Coq Require Import List NArith ZArith Bool Lia ZifyBool ZifyNat ZifyN Arith.
From Verif Require Import Base Deku Utils Types Physical Link Network Session Data Query
  Interface File Operation Action Command Frames WellFormed SpecLayout SpecAction SpecApi SpecReturn SpecFrames
  LBits LReader LTypes LUtf8 LLayout LRound LRoundOps LAction LApi LNumbers LNice LNiceFile LNiceOps LCount
  LActionApi LReencode LCommandApi LFail LReturn LWrite LFiles LFrames.
Import ListNotations.
Open Scope N_scope.

Lemma app_eq_len {A} (a b c d : list A) : length a = length c -> a ++ b = c ++ d -> a = c /\ b = d.
Proof.
  revert c. induction a as [|x a IH]; intros [|y c] H E; cbn in H; try discriminate.
  - auto.
  - cbn [app] in E. injection E as -> E. destruct (IH c ltac:(lia) E) as (-> & ->). auto.
Qed.
Lemma shift_byte x b R b0 y R0 : b < 256 -> b0 < 256 ->
  x :: bits_of 8 b ++ R = bits_of 8 b0 ++ y :: R0 -> b2n x * 256 + b = 2 * b0 + b2n y /\ R = R0.
Proof.
  intros Hb Hb0 H. change (x :: bits_of 8 b ++ R) with ((x :: bits_of 8 b) ++ R) in H.
  replace (bits_of 8 b0 ++ y :: R0) with ((bits_of 8 b0 ++ [y]) ++ R0) in H by (rewrite <- app_assoc; reflexivity).
  apply app_eq_len in H as (H & ->); [|cbn [length]; rewrite app_length, !bits_of_length; reflexivity].
  split; [|reflexivity]. apply (f_equal N_of_bits) in H. rewrite N_of_bits_cons, N_of_bits_app, N_of_bits_cons, N_of_bits_nil in H.
  rewrite !N_of_bits_bits_of_small in H by assumption. rewrite bits_of_length in H. cbn [length] in H.
  change (2 ^ N.of_nat 8) with 256 in H. change (2 ^ N.of_nat 1) with 2 in H. change (2 ^ N.of_nat 0) with 1 in H. lia.
Qed.

(** Bytes that are a whole Nop or Extension. *)
Lemma single_byte {E : Env} b : b < 256 -> b mod 64 = 0 \/ b mod 64 = 63 ->
  exists a, wf_action a /\ enc_action a = [b] /\ is_indirect a = false /\ (b = 0 -> a = plain_nop).
Proof.
  intros Hb H. set (h := mkHeader (128 <=? b) (64 <=? b mod 128)).
  assert (Hh : hdr_byte h (b mod 64) = b).
  { unfold hdr_byte, first_byte, pack, h. cbn [fold_left fst snd h_group h_response]. change (2 ^ 1) with 2. change (2 ^ 6) with 64.
    destruct (N.leb_spec 128 b), (N.leb_spec 64 (b mod 128)); cbn [bit]; divlia. }
  destruct H as [H|H]; rewrite H in Hh.
  - exists (ANop (mkNop h 0)). split; [reflexivity|]. split; [cbn [enc_action nop_header]; rewrite Hh; reflexivity|].
    split; [reflexivity|]. intros ->. reflexivity.
  - exists (AExtension (mkNop h 63)). split; [reflexivity|]. split; [cbn [enc_action nop_header]; rewrite Hh; reflexivity|].
    split; [reflexivity|]. intros ->. discriminate.
Qed.
Lemma stored_is_opcode {E : Env} a : wf_action a -> stored_opcode a = action_opcode a /\ is_tx_status a = false.
Proof.
  destruct a; cbn [wf_action stored_opcode action_opcode is_tx_status]; intros H; try contradiction; split; try reflexivity;
    unfold wf_file_id_op, wf_file_data, wf_file_properties, wf_action_query, wf_status_operand, wf_forward, wf_indirect_forward in H;
    first [exact H|apply H].
Qed.
Lemma enc_action_nonempty_bytes {E : Env} a : wf_action a -> bytes (enc_action a).
Proof. intros H. apply (W_action a H). Qed.

(** One action read one bit too late. *)
Lemma shifted_action {E : Env} a d p n x rest r : wf_action a -> bytes d -> (p <= length d)%nat ->
  rest <> [] -> x :: bits_of_bytes (skipn p d) = bits_of_bytes (enc_action a) ++ rest ->
  read_action (mkRd d p [] n) = Ok (a, r) ->
  enc_action a = [if x then 255 else 0] /\ is_indirect a = false /\ (x = false -> a = plain_nop) /\
  r = mkRd d (S p) [] (n + 8 + 8) /\ exists rest', rest = x :: rest' /\ x :: bits_of_bytes (skipn (S p) d) = rest.
Proof.
  intros Ha Hd Hp Hne Hbits H. destruct (enc_action_first a Ha) as (b0 & u & E0 & M0).
  pose proof (enc_action_nonempty_bytes a Ha) as Hby. rewrite E0 in *. apply Forall_cons_iff in Hby as (Hb0 & Hu).
  pose proof (At_start d p n Hp) as HA. destruct (skipn p d) as [|b t] eqn:Hs.
  { rewrite (read_action_nil _ p HA Hs) in H. discriminate. }
  assert (Hb : b < 256).
  { rewrite <- (firstn_skipn p d), Hs in Hd. apply Forall_app in Hd as (_ & Hd). apply Forall_cons_iff in Hd. apply Hd. }
  destruct (read_action_parsed _ p b t a r HA Hs H) as (_ & _ & Hst & _).
  destruct (stored_is_opcode a Ha) as (S1 & S2). specialize (Hst S2). rewrite S1, <- M0 in Hst.
  cbn [bits_of_bytes] in Hbits. rewrite <- app_assoc in Hbits.
  assert (exists y R0, bits_of_bytes u ++ rest = y :: R0) as (y & R0 & Hy).
  { destruct (bits_of_bytes u ++ rest) eqn:Q; [|eauto]. apply app_eq_nil in Q as (_ & Q). contradiction. }
  rewrite Hy in Hbits. destruct (shift_byte _ _ _ _ _ _ Hb Hb0 Hbits) as (Hn & HR).
  assert (Hop : b mod 64 = 0 \/ b mod 64 = 63).
  { assert (b2n x <= 1) by (destruct x; cbn; lia). assert (b2n y <= 1) by (destruct y; cbn; lia).
    assert (b2n x = 0 \/ b2n x = 1) as [Qx|Qx] by lia; assert (b2n y = 0 \/ b2n y = 1) as [Qy|Qy] by lia; rewrite Qx, Qy in Hn; divlia. }
  destruct (single_byte b Hb Hop) as (a' & Wa' & E' & I' & P').
  pose proof (read_action_ok a' _ p t Wa' HA) as K. cbn [data] in K. rewrite E' in K. specialize (K Hs). rewrite K in H.
  injection H as -> Hr. rewrite E0 in E'. injection E' as <- ->. 
  assert (Hx : b2n x = b2n y /\ b0 = 255 * b2n x).
  { assert (b2n x = 0 \/ b2n x = 1) as [Qx|Qx] by (destruct x; cbn; lia); assert (b2n y = 0 \/ b2n y = 1) as [Qy|Qy] by (destruct y; cbn; lia);
      rewrite Qx, Qy in *; split; lia. }
  destruct Hx as (Hxy & Hb1). assert (x = y) by (destruct x, y; cbn in Hxy; try reflexivity; discriminate). subst y.
  cbn [bits_of_bytes app] in Hy.
  split; [rewrite Hb1; destruct x; reflexivity|]. split; [exact I'|].
  split; [intros ->; apply P'; rewrite Hb1; reflexivity|]. split.
  { rewrite <- Hr. cbn [data bread length]. f_equal; lia. }
  exists R0. split; [exact Hy|]. rewrite Hy. f_equal.
  destruct (skipn_cons_nth _ _ _ _ Hs) as (_ & -> & _). exact HR.
Qed.
Lemma two {A} (d : list A) : length d = 2%nat -> exists a b, d = [a; b].
Proof. destruct d as [|a [|b [|? ?]]]; cbn [length]; intros H; try discriminate. eauto. Qed.
(** The CRC read one bit too late. *)
Lemma shifted_crc {E : Env} crc d p n x rest r : u16 crc -> bytes d -> (p <= length d)%nat ->
  x :: bits_of_bytes (skipn p d) = bits_of_bytes (enc_native 2 crc) ++ false :: rest ->
  read_native 2 (mkRd d p [] n) = Ok (crc, r) -> x = false /\ crc = 0.
Proof.
  intros Hc Hd Hp Hbits H.
  destruct (two (enc_native 2 crc) (enc_native_length 2 crc)) as (e1 & e2 & Ee).
  pose proof (enc_native_bytes 2 crc) as Hby. rewrite Ee in Hby. apply Forall_cons_iff in Hby as (H1 & Hby). apply Forall_cons_iff in Hby as (H2 & _).
  assert (Hdp : bytes (skipn p d)) by (rewrite <- (firstn_skipn p d) in Hd; apply Forall_app in Hd; apply Hd).
  destruct (skipn p d) as [|b1 [|b2 t]] eqn:Hs.
  { apply (f_equal (@length bool)) in Hbits. rewrite app_length, bits_of_bytes_length, enc_native_length in Hbits. cbn in Hbits. lia. }
  { apply (f_equal (@length bool)) in Hbits. rewrite app_length, bits_of_bytes_length, enc_native_length in Hbits. cbn [bits_of_bytes length] in Hbits.
    rewrite app_length, bits_of_length in Hbits. cbn in Hbits. lia. }
  apply Forall_cons_iff in Hdp as (G1 & Hdp). apply Forall_cons_iff in Hdp as (G2 & _).
  assert (Hr : RWf (mkRd d p [] n)) by (apply At_start; exact Hp).
  assert (Hvw : view (mkRd d p [] n) = bits_of_bytes [b1; b2] ++ bits_of_bytes t).
  { unfold view. cbn [left pos data app]. rewrite Hs, <- bits_of_bytes_app. reflexivity. }
  unfold read_native, bind in H. rewrite read_bits_ok in H; [|exact Hr|rewrite Hvw, app_length, bits_of_bytes_length; cbn [length]; lia].
  rewrite Hvw in H. change (8 * 2)%nat with (length (bits_of_bytes [b1; b2])) in H at 1. rewrite firstn_app, firstn_all, Nat.sub_diag in H.
  cbn [firstn] in H. rewrite app_nil_r in H.
  assert (Hby2 : bytes [b1; b2]) by (apply Forall_cons; [exact G1|apply Forall_cons; [exact G2|apply Forall_nil]]).
  rewrite bytes_of_bits_of_bytes in H by exact Hby2. unfold ret in H. assert (Hcrc : of_host [b1; b2] = crc) by congruence. clear H.
  pose proof (to_host_of_host [b1; b2] Hby2) as T. rewrite Hcrc in T. cbn [length] in T.
  assert (T2 : to_host 2 crc = enc_native 2 crc) by (unfold to_host, enc_native, le_bytes; destruct e_host; reflexivity).
  rewrite T2, Ee in T. injection T as -> ->. rewrite Ee in Hbits.
  cbn [bits_of_bytes app] in Hbits. rewrite <- !app_assoc in Hbits. cbn [app] in Hbits.
  assert (Hone : forall b R y R0, x :: bits_of 8 b ++ R = bits_of 8 b ++ y :: R0 -> b < 256 -> y = x /\ b = 255 * b2n x /\ R = R0).
  { intros b R y R0 HH Hb. destruct (shift_byte _ _ _ _ _ _ Hb Hb HH) as (Q & Q2). destruct x, y; cbn [b2n] in *; repeat split; try reflexivity; try exact Q2; lia. }
  assert (exists y R0, bits_of 8 b2 ++ false :: rest = y :: R0) as (y & R0 & Hy).
  { destruct (bits_of 8 b2 ++ false :: rest) eqn:Q; [|eauto]. apply app_eq_nil in Q as (_ & Q). discriminate. }
  rewrite Hy in Hbits. destruct (Hone _ _ _ _ Hbits G1) as (-> & Hb1 & HR).
  assert (Hbits2 : x :: bits_of 8 b2 ++ bits_of_bytes t = bits_of 8 b2 ++ false :: rest) by (rewrite Hy, HR; reflexivity).
  destruct (Hone _ _ _ _ Hbits2 G2) as (Hx & Hb2 & _). split; [congruence|].
  rewrite <- Hx in *. cbn [b2n] in *. rewrite Hb1, Hb2 in Hcrc. rewrite <- Hcrc. unfold of_host. destruct e_host; reflexivity.
Qed.

(** The loop one bit too late. *)
Lemma shifted_loop {E : Env} c : forall fuel L acc d p n x rest crc r r', Forall wf_action c -> u16 crc -> bytes d ->
  (p <= length d)%nat -> last_is_indirect acc = false ->
  x :: bits_of_bytes (skipn p d) = bits_of_bytes (enc_command c) ++ bits_of_bytes (enc_native 2 crc) ++ false :: rest ->
  read_actions fuel L acc (mkRd d p [] n) = Ok (acc ++ c, r) -> read_native 2 r = Ok (crc, r') ->
  x = false /\ Forall (fun a => a = plain_nop) c /\ crc = 0 /\ L <> 0 /\ L <= N.of_nat (p + length c) /\
  (c = [] \/ N.of_nat (p + length c) < L + 1).
Proof.
  induction c as [|a c IH]; intros fuel L acc d p n x rest crc r r' Hc Hcr Hd Hp Hl Hbits H Hn.
  - cbn [enc_command flat_map bits_of_bytes app] in Hbits. rewrite app_nil_r in H. destruct fuel as [|fuel]; [discriminate|].
    assert (exists b t, skipn p d = b :: t) as (b & t & Hs).
    { destruct (skipn p d) as [|b t]; [|eauto]. apply (f_equal (@length bool)) in Hbits.
      rewrite app_length, bits_of_bytes_length, enc_native_length in Hbits. cbn in Hbits. lia. }
    destruct (goes_on_dec L p) as [G|G].
    { pose proof (loop_overruns _ _ _ _ _ _ _ _ _ _ G Hs Hp Hl H). lia. }
    rewrite loop_limit in H by (unfold goes_on; lia). assert (Hr : mkRd d p [] n = r) by congruence. subst r.
    destruct (shifted_crc crc d p n x rest r' Hcr Hd Hp Hbits Hn) as (Hx & Hz). cbn [length]. rewrite Nat.add_0_r.
    repeat split; auto; apply G.
  - inversion Hc as [|? ? Ha Hc']; subst. cbn [enc_command flat_map] in Hbits. fold (enc_command c) in Hbits.
    rewrite bits_of_bytes_app, <- app_assoc in Hbits. destruct fuel as [|fuel]; [discriminate|].
    assert (exists b t, skipn p d = b :: t) as (b & t & Hs).
    { destruct (skipn p d) as [|b t]; [|eauto]. apply (f_equal (@length bool)) in Hbits.
      rewrite !app_length, bits_of_bytes_length, (bits_of_bytes_length (enc_native 2 crc)), enc_native_length in Hbits. cbn [bits_of_bytes length] in Hbits. lia. }
    destruct (goes_on_dec L p) as [G|G].
    2: { rewrite loop_limit in H by (unfold goes_on; lia). assert (Q : acc = acc ++ a :: c) by congruence.
         apply (f_equal (@length action)) in Q. rewrite app_length in Q. cbn [length] in Q. lia. }
    destruct (at_end_cons _ p b t (At_start d p n Hp) Hs) as (r1 & Ee & Er & Hr1).
    cbn [read_actions] in H. unfold bind at 1 in H. rewrite valid_length_go in H by exact G. cbv iota in H. unfold bind at 1 in H. rewrite Ee in H. cbv iota in H.
    rewrite Hl in H. unfold bind in H.
    assert (Eq : read_action r1 = read_action (mkRd d p [] n)).
    { rewrite (read_action_at r1 p b t Hr1) by (rewrite Er; exact Hs).
      rewrite (read_action_at (mkRd d p [] n) p b t (At_start d p n Hp)) by exact Hs. rewrite Er. reflexivity. }
    rewrite Eq in H. pose proof (Nice_action (mkRd d p [] n) (proj1 (At_start d p n Hp))) as N8. 
    destruct (read_action (mkRd d p [] n)) as [[a' r3]|er|] eqn:Ea; try discriminate.
    destruct (read_actions_prefix _ _ _ _ _ _ ltac:(apply N8) H) as (new & Hnew).
    assert (a' = a /\ new = c) as (-> & ->).
    { rewrite <- app_assoc in Hnew. apply app_inv_head in Hnew. cbn [app] in Hnew. injection Hnew as -> ->. auto. }
    assert (Hne : bits_of_bytes (enc_command c) ++ bits_of_bytes (enc_native 2 crc) ++ false :: rest <> []).
    { intros Q. apply app_eq_nil in Q as (_ & Q). apply app_eq_nil in Q as (_ & Q). discriminate. }
    destruct (shifted_action a d p n x _ r3 Ha Hd Hp Hne Hbits Ea)
      as (_ & Hi & Hpl & -> & rest' & Hr' & Hb').
    destruct (skipn_cons_nth _ _ _ _ Hs) as (_ & _ & Hlt).
    replace (acc ++ a :: c) with ((acc ++ [a]) ++ c) in H by (rewrite <- app_assoc; reflexivity).
    destruct (IH fuel L (acc ++ [a]) d (S p) _ x rest crc r r' Hc' Hcr Hd ltac:(lia) ltac:(rewrite last_is_indirect_snoc; exact Hi) Hb' H Hn)
      as (Hx & Hall & Hz & HL & HL1 & HL2).
    cbn [length]. unfold goes_on in G. split; [exact Hx|]. split; [constructor; auto|]. split; [exact Hz|]. split; [exact HL|].
    split; [lia|]. right. destruct HL2 as [->|HL2]; cbn [length] in *; lia.
Qed.

(** The first action when the length is zero: the opcode is taken from the right bits, the action from the next byte on. *)
Lemma unaligned_action {E : Env} d p x n a r : (0 < p < length d)%nat -> wf_action a ->
  read_action (mkRd d p [x] n) = Ok (a, r) -> read_action (mkRd d p [] n) = Ok (a, r).
Proof.
  intros Hp Ha H.
  assert (exists b t, skipn p d = b :: t) as (b & t & Hs).
  { destruct (skipn p d) as [|b t] eqn:Q; [|eauto]. apply (f_equal (@length N)) in Q. rewrite skipn_length in Q. cbn in Q. lia. }
  destruct (skipn_cons_nth _ _ _ _ Hs) as (Hnth & _).
  rewrite (read_action_at _ p b t (At_start d p n ltac:(lia)) Hs). cbn [data bread].
  assert (Hr : RWf (mkRd d p [x] n)) by (unfold RWf; cbn [data pos left length]; repeat split; lia).
  assert (Hv : (2 + 6 <= length (view (mkRd d p [x] n)))%nat).
  { unfold view. cbn [left pos data app]. rewrite Hs. cbn [bits_of_bytes length]. rewrite app_length, bits_of_length. lia. }
  unfold read_action in H. unfold bind at 1, skip_bits, bind at 1 in H.
  rewrite read_bits_ok in H by (exact Hr || lia). unfold ret in H. unfold bind at 1, read_opcode in H.
  rewrite read_uint_ok in H; [|apply RWf_adv; [exact Hr|lia]|rewrite view_adv, skipn_length by (exact Hr || lia); lia].
  set (code := N_of_bits _) in H. clearbody code. rewrite adv_adv in H by (exact Hr || lia).
  unfold bind, seek_back1 in H.
  assert (Ha8 : pos (adv (mkRd d p [x] n) (2 + 6)) = S p /\ data (adv (mkRd d p [x] n) (2 + 6)) = d /\ bread (adv (mkRd d p [x] n) (2 + 6)) = (n + 8)%nat).
  { unfold adv. cbn [pos data bread]. unfold need. cbn [left length]. change (Nat.div (2 + 6 - 1 + 7) 8) with 1%nat. repeat split; lia. }
  destruct Ha8 as (A1 & A2 & A3). rewrite A1, A2, A3 in H.
  destruct (assoc code action_readers) as [m|] eqn:Q; [|discriminate].
  destruct (arms _ _ (assoc_In _ _ _ Q)) as (_ & Hm).
  pose proof (At_start d p (n + 8) ltac:(lia)) as (RW & _).
  pose proof (Hm b _ RW eq_refl Hnth) as N1. unfold NiceR in N1. rewrite H in N1. destruct N1 as ((P1 & P2 & _) & _).
  destruct (stored_is_opcode a Ha) as (S1 & S2). specialize (P2 S2).
  assert (code = b mod 64) as <- by (rewrite <- P1, <- P2, S1; reflexivity). rewrite Q. exact H.
Qed.

Lemma bytes_of_bits_7 l k : length l = (8 * k + 7)%nat -> bits_of_bytes (bytes_of_bits l) = l ++ [false].
Proof.
  intros H. rewrite <- (firstn_skipn (8 * k) l) at 1.
  assert (Ha : length (firstn (8 * k) l) = (8 * k)%nat) by (rewrite firstn_length; lia).
  assert (Hb : length (skipn (8 * k) l) = 7%nat) by (rewrite skipn_length; lia).
  rewrite <- (bits_of_bytes_of_bits (firstn (8 * k) l) k Ha).
  rewrite bytes_of_bits_of_bytes_app by apply bytes_of_bits_bytes.
  rewrite bits_of_bytes_app, (bits_of_bytes_of_bits _ k Ha).
  rewrite <- (firstn_skipn (8 * k) l) at 3. rewrite <- app_assoc. f_equal.
  destruct (skipn (8 * k) l) as [|a [|b [|c [|d [|e [|f [|g [|? ?]]]]]]]]; cbn [length] in Hb; try discriminate.
  destruct a, b, c, d, e, f, g; reflexivity.
Qed.
Lemma wizzilab_bits {E : Env} v : e_feat = Wizzilab ->
  bits_of_bytes (enc_fframe v) = bits_of_fields (head_fields v) ++
    bits_of_bytes (enc_command (command_of v)) ++ bits_of_bytes (enc_native 2 (ff_crc v)) ++ [false].
Proof.
  intros Hz. unfold enc_fframe. rewrite bytes_of_bits_7 with (k := (command_start v + length (enc_command (command_of v)) + 2)%nat).
  - rewrite frame_bits, <- !app_assoc. reflexivity.
  - rewrite frame_bits, !app_length, bits_of_fields_length, (head_wizzilab v Hz), !bits_of_bytes_length, enc_native_length. lia.
Qed.
Lemma head_read_wizzilab {E : Env} v suf : e_feat = Wizzilab -> wf_fframe v -> exists x,
  read_head (new_reader (enc_fframe v ++ suf))
  = Ok (with_body v [] 0, mkRd (enc_fframe v ++ suf) (S (command_start v)) [x] (8 * command_start v + 7)) /\
  x :: bits_of_bytes (skipn (S (command_start v)) (enc_fframe v ++ suf))
  = bits_of_bytes (enc_command (command_of v)) ++ bits_of_bytes (enc_native 2 (ff_crc v)) ++ false :: bits_of_bytes suf /\
  (S (command_start v) < length (enc_fframe v ++ suf))%nat.
Proof.
  intros Hz Hv. destruct (RT_head v Hv) as (bs & Hw & HR). pose proof (F_head v Hv) as HF. unfold F in HF. rewrite Hw in HF.
  assert (El : bs = bits_of_fields (head_fields v)) by congruence. clear HF. subst bs.
  set (d := enc_fframe v ++ suf).
  set (tl := bits_of_bytes (enc_command (command_of v)) ++ bits_of_bytes (enc_native 2 (ff_crc v)) ++ false :: bits_of_bytes suf).
  assert (Hv' : view (new_reader d) = bits_of_fields (head_fields v) ++ tl).
  { unfold view, d, tl. cbn [new_reader left pos data app skipn]. rewrite bits_of_bytes_app, (wizzilab_bits v Hz), <- !app_assoc. reflexivity. }
  pose proof (head_wizzilab v Hz) as Hwd. rewrite <- bits_of_fields_length in Hwd.
  assert (HL : (8 * command_start v + 7 <= length (view (new_reader d)))%nat) by (rewrite Hv', app_length, Hwd; lia).
  assert (Htl : (16 < length tl)%nat) by (unfold tl; rewrite !app_length, !bits_of_bytes_length, enc_native_length; cbn [length]; lia).
  pose proof (HR _ (new_RWf d)) as K. rewrite Hwd in K.
  pose proof (adv_left_length (new_reader d) _ (new_RWf d) HL) as Hleft.
  pose proof (view_adv (new_reader d) _ (new_RWf d) HL) as Hview.
  assert (Hneed : need (new_reader d) (8 * command_start v + 7) = S (command_start v)).
  { unfold need. cbn [new_reader left length]. rewrite Nat.sub_0_r. replace (8 * command_start v + 7 + 7)%nat with (S (command_start v) * 8 + 6)%nat by lia.
    rewrite Nat.div_add_l by lia. change (6 / 8)%nat with 0%nat. lia. }
  rewrite Hneed in Hleft. cbn [new_reader left length] in Hleft.
  assert (Hadv : adv (new_reader d) (8 * command_start v + 7) = mkRd d (S (command_start v)) (left (adv (new_reader d) (8 * command_start v + 7))) (8 * command_start v + 7)).
  { unfold adv at 1. rewrite Hneed. cbn [new_reader data pos bread Nat.add]. f_equal. unfold adv. cbn [left]. rewrite Hneed. reflexivity. }
  destruct (left (adv (new_reader d) (8 * command_start v + 7))) as [|x [|? ?]] eqn:Q; cbn [length] in Hleft; try lia.
  exists x. split; [rewrite K by (eexists; exact Hv'); rewrite Hadv; reflexivity|]. split.
  - rewrite Hadv in Hview. unfold view at 1 in Hview. cbn [left pos data app] in Hview. rewrite Hview, Hv', skipn_app, <- Hwd, Nat.sub_diag, skipn_all. reflexivity.
  - apply (f_equal (@length bool)) in Hv'. unfold view in Hv'. cbn [new_reader left pos data app skipn] in Hv'.
    rewrite bits_of_bytes_length, app_length, Hwd in Hv'. lia.
Qed.

(** C34 with the wizzilab feature. *)
Lemma bits_zero_bytes k : bits_of_bytes (repeat 0 k) = repeat false (8 * k).
Proof.
  induction k as [|k IH]; [reflexivity|]. cbn [repeat bits_of_bytes]. rewrite IH.
  replace (8 * S k)%nat with (8 + 8 * k)%nat by lia. rewrite repeat_app. reflexivity.
Qed.
Lemma enc_plain {E : Env} c : Forall (fun a => a = plain_nop) c -> enc_command c = repeat 0 (length c).
Proof. induction 1 as [|a c -> _ IH]; [reflexivity|]. cbn [enc_command flat_map]. fold (enc_command c). rewrite IH. reflexivity. Qed.
Lemma plain_last c : Forall (fun a => a = plain_nop) c -> last_is_indirect c = false.
Proof.
  intros H. destruct (destruct_last c) as [->|(l & z & ->)]; [reflexivity|]. rewrite last_is_indirect_snoc.
  apply Forall_app in H as (_ & H). inversion H; subst. reflexivity.
Qed.
Lemma fframe_is_bytes {E : Env} v : bytes (enc_fframe v). Proof. apply bytes_of_bits_bytes. Qed.

Lemma wizzilab_loop_eq {E : Env} fuel L d p x n c r : (0 < p < length d)%nat -> Forall wf_action c ->
  read_actions fuel L [] (mkRd d p [x] n) = Ok (c, r) ->
  read_actions fuel L [] (mkRd d p [] n) = Ok (c, r).
Proof.
  intros Hp Hc H. destruct fuel as [|fuel]; [discriminate|].
  destruct (N.eq_dec L 0) as [->|HL].
  - cbn [read_actions] in *. unfold valid_length in *. change (0 =? 0) with true in *. cbv iota in *. unfold bind at 1, ret at 1 in H. unfold bind at 1, ret at 1.
    unfold bind at 1 in H. unfold at_end in H at 1. cbn [left] in H. change (last_is_indirect []) with false in *. cbv iota in *.
    assert (exists b t, skipn p d = b :: t) as (b & t & Hs).
    { destruct (skipn p d) as [|b t] eqn:Q; [|eauto]. apply (f_equal (@length N)) in Q. rewrite skipn_length in Q. cbn in Q. lia. }
    assert (Hp' : (p <= length d)%nat) by lia.
    destruct (at_end_cons _ p b t (At_start d p n Hp') Hs) as (r1 & Ee & Er & Hr1).
    unfold bind at 1. rewrite Ee. cbv iota. unfold bind in *.
    assert (Eq : read_action r1 = read_action (mkRd d p [] n)).
    { rewrite (read_action_at r1 p b t Hr1) by (rewrite Er; exact Hs).
      rewrite (read_action_at (mkRd d p [] n) p b t (At_start d p n Hp')) by exact Hs. rewrite Er. reflexivity. }
    rewrite Eq. assert (Hr : RWf (mkRd d p [x] n)) by (unfold RWf; cbn [data pos left length]; repeat split; lia).
    pose proof (Nice_action _ Hr) as N8.
    destruct (read_action (mkRd d p [x] n)) as [[a r3]|er|] eqn:Ea; try discriminate.
    destruct (read_actions_prefix _ _ _ _ _ _ ltac:(apply N8) H) as (new & Hnew).
    assert (Ha : wf_action a) by (rewrite Hnew in Hc; cbn [app] in Hc; inversion Hc; assumption).
    rewrite (unaligned_action d p x n a r3 Hp Ha Ea). exact H.
  - cbn [read_actions] in *. unfold valid_length in *. destruct (N.eqb_spec L 0) as [Q|_]; [contradiction|].
    unfold bind at 1 2, stream_position in H. unfold bind at 1 2, stream_position. exact H.
Qed.

Lemma frame_wizzilab {E : Env} v suf : e_feat = Wizzilab -> wf_fframe v -> bytes suf ->
  ((exists r, read_fframe (new_reader (enc_fframe v ++ suf)) = Ok (v, r)) <-> all_zero_tail v).
Proof.
  intros Hz Hv Hsuf. destruct (head_read_wizzilab v suf Hz Hv) as (x & Eh & Hbits & Hlen).
  set (d := enc_fframe v ++ suf) in *. set (p := S (command_start v)) in *.
  assert (Hd : bytes d) by (apply Forall_app; split; [apply fframe_is_bytes|exact Hsuf]).
  assert (Hc : wf_command (command_of v)) by apply Hv. assert (Hcrc : u16 (ff_crc v)) by apply Hv.
  assert (Eq : read_fframe (new_reader d) =
    bind (read_command (ff_length v)) (fun m => c <- read_native 2 ;; ret (with_body (with_body v [] 0) m c)) (mkRd d p [x] (8 * command_start v + 7))).
  { rewrite read_fframe_eq. unfold bind at 1. rewrite Eh. reflexivity. }
  rewrite Eq. clear Eq Eh. unfold bind, read_command. cbn [data].
  split.
  - intros (r & H). destruct (read_actions _ _ _ _) as [[m r1]|e|] eqn:Ea; try discriminate.
    destruct (read_native 2 r1) as [[k r2]|e|] eqn:En; try discriminate. unfold ret in H.
    assert (Q : with_body (with_body v [] 0) m k = v) by congruence.
    assert (m = command_of v) by (rewrite <- Q; reflexivity). assert (k = ff_crc v) by (rewrite <- Q; reflexivity). subst m k.
    apply wizzilab_loop_eq in Ea; [|lia|apply Hc].
    change (command_of v) with ([] ++ command_of v) in Ea.
    destruct (shifted_loop (command_of v) _ _ [] _ _ _ _ _ _ _ _ (proj1 Hc) Hcrc Hd (Nat.lt_le_incl _ _ Hlen) eq_refl Hbits Ea En) as (_ & H1 & H2 & H3 & H4 & H5).
    unfold all_zero_tail. cbv zeta. split; [exact H1|]. split; [exact H2|]. unfold p in *. destruct H5 as [H5|H5]; [rewrite H5 in *; cbn [length] in *|]; split; try lia.
  - intros (H1 & H2 & H3 & H4). cbv zeta in *.
    assert (HL0 : ff_length v <> 0) by lia.
    assert (Hloop : forall fuel, read_actions fuel (ff_length v) [] (mkRd d p [x] (8 * command_start v + 7)) = read_actions fuel (ff_length v) [] (mkRd d p [] (8 * command_start v + 7))).
    { intros [|fuel]; [reflexivity|]. cbn [read_actions]. unfold valid_length. destruct (N.eqb_spec (ff_length v) 0) as [Q|_]; [contradiction|]. reflexivity. }
    rewrite Hloop. clear Hloop.
    assert (Hzero : exists t, skipn p d = enc_command (command_of v) ++ [0; 0] ++ t).
    { rewrite (enc_plain _ H1), H2 in Hbits.
      assert (He : enc_native 2 0 = repeat 0 2) by (unfold enc_native; destruct e_host; reflexivity).
      rewrite He, !bits_zero_bytes in Hbits.
      assert (Hsh : x :: bits_of_bytes (skipn p d) = false :: (repeat false (8 * (length (command_of v) + 2)) ++ bits_of_bytes suf)).
      { rewrite Hbits. replace (8 * (length (command_of v) + 2))%nat with (8 * length (command_of v) + 8 * 2)%nat by lia. rewrite repeat_app, <- app_assoc.
        change (false :: bits_of_bytes suf) with ([false] ++ bits_of_bytes suf). rewrite !app_assoc.
        change [false] with (repeat false 1). rewrite <- !repeat_app.
        rewrite app_comm_cons. f_equal. change (false :: repeat false (8 * length (command_of v) + 8 * 2)) with (repeat false (S (8 * length (command_of v) + 8 * 2))).
        f_equal. lia. }
      assert (Hsh2 : bits_of_bytes (skipn p d) = repeat false (8 * (length (command_of v) + 2)) ++ bits_of_bytes suf) by congruence. clear Hsh. rename Hsh2 into Hsh. rewrite <- bits_zero_bytes, <- bits_of_bytes_app in Hsh.
      exists suf. apply bits_of_bytes_inj in Hsh.
      - rewrite Hsh, (enc_plain _ H1), repeat_app, <- app_assoc. reflexivity.
      - rewrite <- (firstn_skipn p d) in Hd. apply Forall_app in Hd. apply Hd.
      - apply Forall_app. split; [|exact Hsuf]. apply Forall_forall. intros y Hy. apply repeat_spec in Hy. subst y. reflexivity. }
    destruct Hzero as (t & Hs).
    pose proof (Nat.lt_le_incl _ _ Hlen) as Hp.
    assert (Hel : length (enc_command (command_of v)) = length (command_of v)) by (rewrite (enc_plain _ H1), repeat_length; reflexivity).
    assert (Hrd : Forall readable (command_of v)) by (apply wf_all_readable, Hc).
    pose proof (skipn_length p d) as Hsl. rewrite Hs, app_length in Hsl. cbn [app length] in Hsl.
    rewrite (loop_many (command_of v) (S (length d)) (ff_length v) [] d p (8 * command_start v + 7) ([0; 0] ++ t) Hrd); [| |exact Hp| |exact Hs|lia].
    2: { cbn [app]. apply removelast_plain. exact (proj2 Hc). }
    2: { intros pre a post He. right.
         assert (Hpre : Forall (fun a => a = plain_nop) pre) by (rewrite He in H1; apply Forall_app in H1; apply H1).
         rewrite (enc_plain pre Hpre), repeat_length. rewrite He, app_length in H4. cbn [length] in H4. unfold p. lia. }
    cbn [app]. replace (S (length d) - length (command_of v))%nat with (S (length d - length (command_of v))) by lia.
    rewrite loop_limit by (unfold goes_on; rewrite Hel; unfold p; lia).
    destruct (skipn_app_eq p d (enc_command (command_of v)) _ Hp Hs) as (Hs1 & Hp1).
    set (q := (p + length (enc_command (command_of v)))%nat) in *.
    set (r0 := mkRd d q [] _).
    assert (Hr0 : RWf r0) by (apply At_start; exact Hp1).
    destruct (RT_native 2 0 ltac:(reflexivity)) as (bs & Hn & HR). destruct (W_native 2 0) as (Hn' & _).
    assert (El : bs = bits_of_bytes (enc_native 2 0)) by congruence. subst bs.
    assert (He0 : enc_native 2 0 = [0; 0]) by (unfold enc_native; destruct e_host; reflexivity).
    rewrite (HR r0 Hr0).
    2: { exists (bits_of_bytes t). unfold view, r0. cbn [left pos data app]. rewrite Hs1, He0, bits_of_bytes_app. reflexivity. }
    pose proof (with_body_same v) as Hb. rewrite H2 in Hb. rewrite Hb. unfold ret. eauto.
Qed.

(** ** Sample frames *)
Lemma small_wf {E : Env} l c crc : l < 2 ^ 30 -> wf_command c -> crc < 2 ^ 16 -> wf_fframe (small_frame l c crc).
Proof.
  intros Hl Hc Hk. unfold wf_fframe, wf_nframe, wf_tframe, wf_length, wf_address, wf_access_class, u8, u16, present.
  cbn [small_frame ff_length ff_subnet ff_eirp ff_type ff_target ff_crc ff_frame nf_hopping nf_control nc_hopping nf_access nc_origin_type nf_origin nf_frame
    tf_control tf_dialog tf_transaction tf_target_rx tf_listen tf_exec_delay tf_congestion tf_ack tf_command no_flags tc_agc tc_listen tc_exec_delay tc_ack_requested tc_dialog_start tc_ack_not_void andb ac_specifier ac_mask address_matches].
  repeat lazymatch goal with |- _ /\ _ => split end; try exact I; try reflexivity; try assumption; try (vm_compute; reflexivity).
Qed.
Lemma small_start {E : Env} l c crc : l < 64 -> command_start (small_frame l c crc) = match e_feat with Wizzilab => 7%nat | _ => 8%nat end.
Proof.
  intros H. unfold command_start, head_fields, link_fields. cbv zeta. rewrite !total_width_app, octets_width.
  cbn [small_frame ff_length]. unfold enc_length. change (2 ^ 6) with 64. apply N.ltb_lt in H. rewrite H. unfold ncontrol_fields, nls_width. destruct e_feat; reflexivity.
Qed.
(** A frame without actions whose length field counts the bytes behind it. *)
Lemma small_counts {E : Env} : N.to_nat (ff_length (small_frame 9 [] 1)) = bytes_after_length (small_frame 9 [] 1).
Proof. unfold bytes_after_length. destruct E as [[] [] []]; reflexivity. Qed.
Lemma foreground_refuted {E : Env} : ~ (forall v, wf_fframe v -> N.to_nat (ff_length v) = bytes_after_length v ->
  exists r, read_fframe (new_reader (enc_fframe v)) = Ok (v, r)).
Proof.
  intros H. specialize (H (small_frame 9 [] 1) (small_wf 9 [] 1 eq_refl wf_nil eq_refl) small_counts). destruct H as (r & H).
  destruct E as [[] [] []]; vm_compute in H; discriminate.
Qed.
(** Neither the value nor anything else comes out. *)
Lemma foreground_lost {E : Env} : fframe_try_from (enc_fframe (small_frame 9 [] 1)) = Err EIncomplete.
Proof. destruct E as [[] [] []]; vm_compute; reflexivity. Qed.
Lemma frame_panics {E : Env} : exists d, bytes d /\ fframe_from_bytes d 0 = Panic.
Proof.
  exists (enc_fframe (small_frame 10 [plain_nop; plain_nop] 0)). split; [apply fframe_is_bytes|].
  destruct E as [[] [] []]; vm_compute; reflexivity.
Qed.

Lemma from_bytes_refuted {E : Env} : ~ (forall d, bytes d -> fframe_from_bytes d 0 <> Panic).
Proof. intros H. destruct frame_panics as (d & Hd & Q). exact (H d Hd Q). Qed.

(** ** C12, all frame parsers *)
Lemma frames_no_panic {E : Env} d :
  (bframe_try_from d <> Panic /\ bframe_try_from d <> Err EFuel) /\
  (fframe_try_from d <> Panic /\ fframe_try_from d <> Err EFuel) /\
  forall r L, data r = d -> reader_state r ->
    (read_tframe L r <> Panic /\ read_tframe L r <> Err EFuel) /\
    (read_nframe L r <> Panic /\ read_nframe L r <> Err EFuel).
Proof.
  split; [apply d_try_from_safe, Safe_bframe|]. split; [apply d_try_from_safe, Safe_fframe|].
  intros r L _ Hr. pose proof (Safe_tframe L r Hr) as H1. pose proof (Safe_nframe L r Hr) as H2.
  destruct (read_tframe L r) as [[? ?]|?|]; destruct (read_nframe L r) as [[? ?]|?|]; try contradiction;
    repeat split; try discriminate; intros Q; injection Q as Q; contradiction.
Qed.

(** ** C35 *)
Lemma control_reads {E : Env} r r' :
  (forall v, reader_state r -> read_ncontrol r = Ok (v, r') -> length (view r) = (ncontrol_width + length (view r'))%nat /\ reader_state r') /\
  (forall v, reader_state r -> read_tcontrol r = Ok (v, r') -> length (view r) = (7 + length (view r'))%nat /\ reader_state r').
Proof.
  split; intros v Hr H.
  - destruct (Adv_ncontrol r v r' Hr H) as (L & ->). rewrite view_adv, skipn_length by (exact Hr || exact L). split; [lia|apply RWf_adv; [exact Hr|exact L]].
  - destruct (Adv_tcontrol r v r' Hr H) as (L & ->). rewrite view_adv, skipn_length by (exact Hr || exact L). split; [lia|apply RWf_adv; [exact Hr|exact L]].
Qed.
Lemma ncontrol_bits {E : Env} v : exists l, write_ncontrol v = Ok l /\ parses read_ncontrol l v /\
  length l = (match e_feat with Wizzilab => 8 | _ => 9 end)%nat.
Proof. destruct (ncontrol_size v) as (l & H1 & H2 & H3). exists l. auto. Qed.
Lemma tcontrol_bits v : exists l, write_tcontrol v = Ok l /\ parses read_tcontrol l v /\ length l = 7%nat.
Proof. destruct (tcontrol_size v) as (l & H1 & H2 & H3). exists l. auto. Qed.
Lemma control_refuted {E : Env} :
  ~ (forall v, exists l, write_tcontrol v = Ok l /\ length l = 8%nat) /\
  (e_feat <> Wizzilab -> ~ (forall v, exists l, write_ncontrol v = Ok l /\ length l = 8%nat)).
Proof.
  split; [|intros Hz]; intros H.
  - destruct (H no_flags) as (l & E1 & L). destruct (tcontrol_size no_flags) as (l' & E2 & L2 & _). rewrite E2 in E1.
    assert (l' = l) by congruence. subst. lia.
  - destruct (H (mkNControl false false AtNoId NlsNone)) as (l & E1 & L). destruct (ncontrol_size (mkNControl false false AtNoId NlsNone)) as (l' & E2 & L2 & _).
    rewrite E2 in E1. assert (l' = l) by congruence. subst. unfold ncontrol_width in L2. destruct e_feat; try lia; contradiction.
Qed.
(** Where the parts of a frame start, in bits past a byte boundary. *)
Lemma mod8_of a k : (exists n, a = 8 * n + k)%nat -> (k < 8)%nat -> Nat.modulo a 8 = k.
Proof.
  intros (n & ->) Hk. replace (8 * n + k)%nat with (k + n * 8)%nat by lia. rewrite Nat.mod_add by lia. apply Nat.mod_small. exact Hk.
Qed.
Lemma offsets {E : Env} v : let n := ff_frame v in
  let up_to_access := link_fields v ++ ncontrol_fields (nf_control n) in
  let up_to_transport := up_to_access ++ network_fields n in
  Nat.modulo (total_width (link_fields v)) 8 = 0%nat /\
  Nat.modulo (total_width up_to_access) 8 = (match e_feat with Wizzilab => 0 | _ => 1 end)%nat /\
  Nat.modulo (total_width up_to_transport) 8 = (match e_feat with Wizzilab => 0 | _ => 1 end)%nat /\
  Nat.modulo (total_width (head_fields v)) 8 = (match e_feat with Wizzilab => 7 | _ => 0 end)%nat.
Proof.
  cbv zeta. destruct (link_width v) as (a & Ha). destruct (network_width (ff_frame v)) as (b & Hb).
  destruct (head_width v) as (k & Hk). rewrite !total_width_app, Ha, Hb, Hk, ncontrol_fields_width. unfold ncontrol_width.
  repeat lazymatch goal with |- _ /\ _ => split end; destruct e_feat; apply mod8_of; try lia;
    first [exists a; lia|exists (a + 1)%nat; lia|exists (a + b + 1)%nat; lia|exists (k + 2)%nat; lia|exists (k + 1)%nat; lia].
Qed.

(** ** C34 *)
Lemma frame_layout {E : Env} v : wf_fframe v ->
  fframe_to_bytes v = Ok (bytes_of_bits (bits_of_fields (frame_fields v))) /\ bytes (enc_fframe v) /\
  length (enc_fframe v) = (command_start v + length (enc_command (command_of v)) + 2 + match e_feat with Wizzilab => 1 | _ => 0 end)%nat.
Proof.
  intros Hv. split; [apply fframe_bytes; exact Hv|]. split; [apply fframe_is_bytes|].
  destruct e_feat eqn:Hz; try (rewrite fframe_length by (congruence || exact Hv); unfold command_end; lia).
  pose proof (f_equal (@length bool) (wizzilab_bits v Hz)) as L.
  rewrite !app_length, !bits_of_bytes_length, bits_of_fields_length, (head_wizzilab v Hz), enc_native_length in L. cbn [length] in L. lia.
Qed.
(** The command and the CRC stand where the header ends, when that is a byte boundary. *)
Lemma frame_bytes_split {E : Env} v : e_feat <> Wizzilab -> wf_fframe v ->
  enc_fframe v = firstn (command_start v) (enc_fframe v) ++ enc_command (command_of v) ++ enc_native 2 (ff_crc v) /\
  length (firstn (command_start v) (enc_fframe v)) = command_start v.
Proof.
  intros Hz Hv. destruct (fframe_split v Hz Hv) as (Hs & Hl & _).
  assert (Hf : firstn (command_start v) (enc_fframe v) = header_bytes v).
  { rewrite Hs, firstn_app, <- Hl, Nat.sub_diag, firstn_all, firstn_O, app_nil_r. reflexivity. }
  rewrite Hf. split; [exact Hs|exact Hl].
Qed.
Lemma frame_view {E : Env} v suf : e_feat <> Wizzilab -> wf_fframe v -> loop_stops v ->
  exists r, read_fframe (new_reader (enc_fframe v ++ suf)) = Ok (v, r) /\ reader_state r /\ view r = bits_of_bytes suf /\
    bread r = (8 * length (enc_fframe v) + 8 * length (command_of v))%nat.
Proof. intros Hz Hv Hs. exact (proj1 (frame_exact v suf Hz Hv) Hs). Qed.

(** ** Frames of length 0 *)
Lemma loop_stops_0 {E : Env} v : ff_length v = 0 -> (loop_stops v <-> ends_indirect (command_of v)).
Proof.
  intros H0. unfold loop_stops, ends_indirect. rewrite H0. change (N.to_nat 0) with 0%nat. split.
  - destruct (rev (command_of v)) as [|a l] eqn:Er; [lia|]. intros [H|[Ha _]]; [lia|].
    exists (rev l), a. split; [|exact Ha]. rewrite <- (rev_involutive (command_of v)), Er. reflexivity.
  - intros (pre & a & -> & Ha). rewrite rev_app_distr. cbn [rev app]. right. split; [exact Ha|left; reflexivity].
Qed.
Lemma frame_0_exact {E : Env} v suf : wf_fframe v -> bytes suf -> ff_length v = 0 ->
  ((exists r, read_fframe (new_reader (enc_fframe v ++ suf)) = Ok (v, r)) <->
   e_feat <> Wizzilab /\ ends_indirect (command_of v)).
Proof.
  intros Hv Hs H0.
  assert (D : e_feat = Wizzilab \/ e_feat <> Wizzilab) by (destruct e_feat; [right|right|left]; congruence).
  destruct D as [HF|HF].
  - rewrite (frame_wizzilab v suf HF Hv Hs). unfold all_zero_tail. rewrite H0. change (N.to_nat 0) with 0%nat.
    split; [intros (_ & _ & L & _); lia|intros [C _]; contradiction].
  - destruct (frame_exact v suf HF Hv) as (H1 & H2). rewrite <- (loop_stops_0 v H0). split.
    + intros (r & H). split; [exact HF|].
      assert (DL : loop_stops v \/ ~ loop_stops v).
      { unfold loop_stops. cbv zeta. destruct (rev (command_of v)) as [|a l]; [lia|]. destruct (is_indirect a) eqn:Ha; [lia|].
        destruct (Nat.lt_decidable (command_end v - length (enc_action a)) (N.to_nat (ff_length v)));
        destruct (Nat.le_decidable (N.to_nat (ff_length v)) (command_end v)); [left; left; lia|..]; right; intros [[? ?]|[? _]]; try lia; discriminate. }
      destruct DL as [L|L]; [exact L|]. exfalso. exact (H2 L r H).
    + intros [_ L]. destruct (H1 L) as (r & H & _). exists r. exact H.
Qed.
