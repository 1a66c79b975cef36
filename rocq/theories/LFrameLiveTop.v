(** Lemmas for C77: the errors of the reader of frames. *)
From Coq Require Import List NArith ZArith Bool Lia ZifyBool ZifyNat ZifyN Arith.
From Verif Require Import Base Deku Utils Types Physical Link Network Session Data Query
  Interface File Operation Action Command Frames WellFormed SpecLayout SpecAction SpecDecode SpecStream SpecLive SpecErr LUtf8 LBits LReader LLayout
  LNice LNiceOps LActionApi LReturn LFiles LStream LDecode LDecodeTypes LDecodeOps LDecodeAct LDecodeCmd LDecodeTx LDecodeLoop LJoin
  LLive LLiveOps LLiveAct LLiveCmd LLiveTx LLiveTop LLiveLoop LErr LErrTop LFrameStream LDecodeFrame LFrameLive LFrameLiveLoop SpecFrameDecode SpecFrameLive.
Import ListNotations.
Open Scope N_scope.

(** An action of the loop is read by the reader its opcode names. *)
Lemma act_reader {E : Env} d p n w b tl : bytes d -> skipn p d = b :: tl -> (length w <= 2)%nat -> (w = [] \/ 1 <= p)%nat ->
  read_action (peeked d p n w b) = reader_of (part (N.of_nat (length w)) 6 b) (at_byte d p (n + 8)).
Proof.
  intros Hd Sk Lw H1.
  assert (Lp : (p < length d)%nat).
  { destruct (Nat.ltb_spec p (length d)) as [L|L]; [exact L|]. rewrite skipn_all2 in Sk by exact L. discriminate. }
  destruct w as [|x [|y [|]]]; [| | |cbn [length] in Lw; lia].
  - exact (entry_reader d p n false _ b tl Hd ltac:(lia) (entry_peeked d p n b (nth_of_skipn _ _ _ _ Sk)) Sk).
  - assert (P1 : (1 <= p)%nat) by (destruct H1 as [H1|H1]; [discriminate|exact H1]).
    assert (Bb : b < 256).
    { rewrite <- (firstn_skipn p d), Sk in Hd. apply Forall_app in Hd as [_ Hd]. apply Forall_cons_iff in Hd. apply Hd. }
    destruct (bits8 b Bb) as [L8 N8]. pose proof (octet_parts_1 _ L8) as PP. rewrite N8 in PP.
    assert (Ws : RWf (mkRd d p [x] n)) by (unfold RWf; cbn [pos data left length]; lia).
    cbn [peeked length]. change (N.of_nat 1) with 1.
    rewrite read_action_ok; [|exact Ws|rewrite view_length by exact Ws; cbn [left length data pos]; lia|cbn [pos]; lia].
    unfold view. cbn [left pos data]. rewrite Sk, bits_of_bytes_cons. cbn [app]. rewrite skipn_cons.
    rewrite skipn_short, firstn_short by (rewrite ?skipn_length; lia). rewrite PP. f_equal.
    unfold at_byte, need. cbn [left pos data bread length]. change (Nat.div (8 - 1 + 7) 8) with 1%nat. f_equal. lia.
  - assert (P1 : (1 <= p)%nat) by (destruct H1 as [H1|H1]; [discriminate|exact H1]).
    exact (entry_reader d p n true _ b tl Hd ltac:(lia) (entry_pending d p n x y P1) Sk).
Qed.
(** The loop fails at an action. *)
Lemma limited_err {E : Env} d limit : bytes d -> forall m f p n w acc e,
  (length d - p <= m)%nat -> (m < f)%nat -> (p <= length d)%nat ->
  (length w <= 2)%nat -> (w = [] \/ 1 <= p)%nat -> last_is_indirect acc = false ->
  read_actions f limit acc (mkRd d p w n) = Err e ->
  exists p' n' pend', (p' <= length d)%nat /\ (pend' = 0 \/ pend' = 1 \/ pend' = 2)
    /\ steps limit (N.of_nat p) (N.of_nat (length w)) (skipn p d) (N.of_nat p') pend' (skipn p' d)
    /\ goes_on limit (N.of_nat p')
    /\ match skipn p' d with
       | [] => e = EIncomplete
       | b :: _ => reader_of (opcode_in limit pend' b) (at_byte d p' n') = Err e
       end.
Proof.
  intros Hd. induction m as [m IH] using (well_founded_induction lt_wf). intros f p n w acc e Hm Hf Hp Lw Hw Hacc H.
  destruct f as [|f]; [lia|]. cbn [read_actions] in H. rewrite (bind_ok _ _ _ _ _ (valid_eq limit d p w n)) in H.
  set (w' := if limit =? 0 then w else []) in *.
  assert (Lw' : (length w' <= 2)%nat) by (unfold w'; destruct (limit =? 0); [exact Lw|cbn; lia]).
  assert (Hw' : (w' = [] \/ 1 <= p)%nat) by (unfold w'; destruct (limit =? 0); [exact Hw|left; reflexivity]).
  assert (Ew : forall b, part (N.of_nat (length w')) 6 b = opcode_in limit (N.of_nat (length w)) b).
  { intros b. unfold w', opcode_in. destruct (limit =? 0); reflexivity. }
  assert (Pw : N.of_nat (length w) = 0 \/ N.of_nat (length w) = 1 \/ N.of_nat (length w) = 2) by lia.
  destruct ((limit =? 0) || (N.of_nat p <? limit)) eqn:HV; [|discriminate]. apply goes_on_eq in HV.
  pose proof (peek_end d p n w') as PE. destruct (skipn p d) as [|b tl] eqn:Sk.
  - rewrite (bind_ok _ _ _ _ _ PE), ?Hacc in H. destruct w' as [|x w'']; [discriminate|].
    exists p, n, (N.of_nat (length w)). split; [exact Hp|]. split; [exact Pw|]. rewrite Sk. split; [constructor|]. split; [exact HV|].
    assert (Ws : RWf (mkRd d p (x :: w'') n)) by (destruct Hw' as [Hw'|Hw']; [discriminate|]; unfold RWf; cbn [pos data left length] in *; lia).
    assert (L0 : length (skipn p d) = 0%nat) by (rewrite Sk; reflexivity). rewrite skipn_length in L0.
    assert (LV : (length (view (mkRd d p (x :: w'') n)) <= 2)%nat) by (rewrite view_length by exact Ws; cbn [left data pos length] in *; lia).
    cbn [orb] in H. revert H. generalize dependent (mkRd d p (x :: w'') n). intros s _ Ws LV H.
    assert (HA : read_action s = Err EIncomplete).
    { unfold read_action, skip_bits, bind.
      destruct (Nat.ltb_spec (length (view s)) 2) as [L2|L2]; [rewrite read_bits_err by assumption; reflexivity|].
      rewrite read_bits_ok by assumption. unfold ret at 1. unfold read_opcode.
      rewrite read_uint_err; [reflexivity|apply RWf_adv; assumption|]. rewrite view_adv, skipn_length by assumption. lia. }
    rewrite (bind_err _ _ _ _ HA) in H. congruence.
  - assert (Lp : (p < length d)%nat).
    { destruct (Nat.ltb_spec p (length d)) as [L|L]; [exact L|]. rewrite skipn_all2 in Sk by exact L. discriminate. }
    rewrite (bind_ok _ _ _ _ _ PE), ?Hacc in H. cbn [orb] in H.
    pose proof (act_at d p n w' b tl Hd Sk Lw' Hw') as EA. unfold OpAt in EA. rewrite at_byte_view, Sk in EA by exact Hd. rewrite Ew in EA.
    destruct (dec_operand (opcode_in limit (N.of_nat (length w)) b) (b :: tl)) as [[a rest]|] eqn:Eo.
    2: { destruct EA as [e' EA]. rewrite (bind_err _ _ _ _ EA) in H. assert (e' = e) by congruence. subst e'.
         exists p, (n + 8)%nat, (N.of_nat (length w)). split; [exact Hp|]. split; [exact Pw|]. rewrite Sk. split; [constructor|]. split; [exact HV|].
         rewrite <- Ew. rewrite (act_reader d p n w' b tl Hd Sk Lw' Hw') in EA. exact EA. }
    destruct EA as (k & Hk1 & Hk & Hs & Hr). rewrite at_byte_length in Hk. rewrite (bind_ok _ _ _ _ _ Hr) in H.
    destruct (after_act d p (n + 8) a k ltac:(lia) Hk1) as (w2 & n2 & HA & Lw2 & Hn2). rewrite HA in H.
    assert (Hrest : rest = skipn (p + k) d) by (rewrite Hs, <- Sk, skipn_skipn; reflexivity).
    destruct (is_indirect a) eqn:Hi.
    + exfalso. assert (Ht : is_tx a = false) by (destruct a; try discriminate; reflexivity). rewrite Ht in *.
      destruct w2; [|discriminate]. destruct f as [|f]; [lia|].
      destruct (limited_stop d (p + k) n2 f limit (acc ++ [a]) ltac:(lia) ltac:(rewrite last_indirect_snoc; exact Hi)) as (s & Hl & Hes).
      congruence.
    + assert (Lw2' : (length w2 <= 2)%nat) by (rewrite Lw2; destruct (is_tx a); lia).
      destruct (IH (length d - (p + k))%nat ltac:(lia) f (p + k)%nat n2 w2 (acc ++ [a]) e ltac:(lia) ltac:(lia) ltac:(lia) Lw2'
        ltac:(right; lia) ltac:(rewrite last_indirect_snoc; exact Hi) H) as (p' & n' & pend' & Hp' & Pp' & HS & HG & HR).
      exists p', n', pend'. split; [exact Hp'|]. split; [exact Pp'|]. split; [|split; assumption].
      eapply steps_on; [exact HV|exact Eo|exact Hi|].
      replace (N.of_nat p + N.of_nat (length (b :: tl) - length rest)) with (N.of_nat (p + k)) by (rewrite Hrest, <- Sk, !skipn_length; lia).
      replace (if is_tx a then 2 else 0) with (N.of_nat (length w2)) by (rewrite Lw2; destruct (is_tx a); reflexivity).
      rewrite Hrest. exact HS.
Qed.

(** ** Headers *)
Lemma Kd_link : Kd g_link. Proof. unfold g_link. kd. Qed.
Lemma Kd_headers {E : Env} : Kd g_headers. Proof. unfold g_headers, g_net, g_trans. kd. Qed.
(** Readers of a fixed number of bits. *)
Definition Short {A} (n : nat) (m : reader A) : Prop := forall r, RWf r -> (length (view r) < n)%nat -> m r = Err EIncomplete.
Definition Fix {A} (n : nat) (m : reader A) : Prop := Short n m /\
  forall r, RWf r -> (n <= length (view r))%nat -> exists v, m r = Ok (v, adv r n).
Lemma Short_bind {A B} n k (m : reader A) (f : A -> reader B) : Fix n m -> (forall v, Short k (f v)) -> Short (n + k) (bind m f).
Proof.
  intros (HS & HO) HF r Hr L. destruct (Nat.ltb_spec (length (view r)) n) as [L1|L1]; [apply bind_err, HS; assumption|].
  destruct (HO r Hr L1) as [v Hv]. rewrite (bind_ok _ _ _ _ _ Hv). apply HF; [apply RWf_adv; assumption|]. rewrite view_adv, skipn_length by assumption. lia.
Qed.
Lemma Fix_uint n : Fix n (read_uint n).
Proof. split; [intros r Hr L; apply read_uint_err; assumption|]. intros r Hr L. rewrite read_uint_ok by assumption. eexists. reflexivity. Qed.
Lemma Fix_bool : Fix 1 read_bool.
Proof.
  split; [intros r Hr L; unfold read_bool; apply bind_err, read_uint_err; assumption|]. intros r Hr L. unfold read_bool.
  rewrite (bind_ok _ _ _ _ _ (read_uint_ok 1 r Hr L)). eexists. reflexivity.
Qed.
Lemma Fix_skip n : Fix n (skip_bits n).
Proof.
  split; intros r Hr L; unfold skip_bits, bind; [rewrite read_bits_err by assumption; reflexivity|]. rewrite read_bits_ok by assumption. eexists. reflexivity.
Qed.
Lemma Fix_type : Fix 2 read_address_type.
Proof.
  unfold read_address_type, read_enum. split; intros r Hr L; [apply bind_err, read_uint_err; assumption|].
  rewrite (bind_ok _ _ _ _ _ (read_uint_ok 2 r Hr L)).
  assert (L2 : length (firstn 2 (view r)) = 2%nat) by (rewrite firstn_length; lia).
  destruct (firstn 2 (view r)) as [|x [|y [|]]]; try discriminate. destruct x, y; eexists; reflexivity.
Qed.
Lemma Short_ncontrol {E : Env} : e_feat <> Wizzilab -> Short 9 read_ncontrol.
Proof.
  intros HF. assert (HB : nls_bits = 4%nat) by (unfold nls_bits, is_wizzilab; destruct e_feat; congruence).
  unfold read_ncontrol, read_nls_method. rewrite HB.
  apply (Short_bind 1 8); [apply Fix_bool|intros a]. apply (Short_bind 1 7); [apply Fix_bool|intros b].
  apply (Short_bind 2 5); [apply Fix_type|intros t]. apply (Short_bind 1 4); [apply Fix_skip|intros u].
  intros r Hr L. apply bind_err. unfold read_enum. apply bind_err, read_uint_err; assumption.
Qed.
Lemma NI_ncontrol {E : Env} : NI 9 read_ncontrol.
Proof.
  unfold read_ncontrol, read_nls_method.
  apply (NI_bind 9 1); [lia|apply NI_bool; lia|intros a]. apply (NI_bind _ 1); [cbn; lia|apply NI_bool; lia|intros b].
  apply (NI_bind _ 2); [cbn; lia|apply NI_enum; lia|intros t]. apply (NI_bind _ 1); [cbn; lia|apply NI_skip|intros u].
  assert (HB : (nls_bits <= 4)%nat) by (unfold nls_bits; destruct is_wizzilab; lia).
  apply (NI_bind _ 4); [cbn; lia|apply NI_enum; exact HB|intros n]. apply NI_ret.
Qed.
Lemma bad_method_bits y z : length y = 8%nat -> 4 <= part 0 3 (N_of_bits y) -> nc_of (y ++ [z]) = None.
Proof.
  intros L. do 8 (destruct y as [|? y]; [discriminate|]). destruct y; [|discriminate]. clear L.
  repeat match goal with b : bool |- _ => destruct b end; vm_compute; intros H; try reflexivity; exfalso; apply H; reflexivity.
Qed.
Lemma bad_ncontrol {E : Env} r c tl : e_feat <> Wizzilab -> RWf r -> left r = [] -> octets (view r) = c :: tl -> 4 <= part 0 3 c ->
  g_headers r = Err (match tl with [] => EIncomplete | _ => EParse end).
Proof.
  intros HF Hr Hl EO Hc. pose proof (octets_view r Hr Hl) as LV. rewrite EO in LV. cbn [length] in LV. unfold g_headers. apply bind_err.
  destruct tl as [|x tl].
  - apply Short_ncontrol; [exact HF|exact Hr|]. cbn [length] in LV. lia.
  - cbn [length] in LV. pose proof (read_ncontrol_9 r HF Hr) as R9. destruct (Nat.leb_spec 9 (length (view r))) as [L9|L9]; [|lia].
    destruct (octets_head _ _ _ EO) as (y & v1 & V1 & LY & -> & EO1).
    destruct v1 as [|z v1]; [rewrite V1, app_nil_r in L9; lia|].
    assert (F9 : firstn 9 (view r) = y ++ [z]).
    { rewrite V1, firstn_app, LY, firstn_all2 by lia. reflexivity. }
    rewrite F9, bad_method_bits in R9 by assumption. destruct R9 as [e R9].
    pose proof (NI_ncontrol r Hr L9) as NN. rewrite R9 in NN.
    assert (K : plain (read_ncontrol r)) by (unfold read_ncontrol, read_nls_method; apply Kd_bind; [kd|intros ?; kd|right; exact Hl]).
    rewrite R9 in K. cbn [plain] in K. rewrite R9. f_equal. destruct K as [->| ->]; [congruence|reflexivity].
Qed.
Lemma bad_headers {E : Env} c l : e_feat <> Wizzilab -> 4 <= part 0 3 c -> dec_headers (c :: l) = None.
Proof.
  intros HF Hc. unfold dec_headers.
  assert (N : forall x l, dec_net c (2 * part 0 3 c + x) l = None).
  { intros x l'. unfold dec_net, andthen. destruct (named code_address_type address_types (part 4 2 c) l') as [[t l'']|]; [|reflexivity].
    unfold named. pose proof (part_below 0 3 c) as B. change (2 ^ 3) with 8 in B.
    assert (HN : find (fun v => code_nls v =? 2 * part 0 3 c + x) all_nls = None).
    { cbn [find all_nls code_nls]. repeat match goal with |- context [?a =? 2 * part 0 3 c + x] => destruct (N.eqb_spec a (2 * part 0 3 c + x)); [lia|] end. reflexivity. }
    rewrite HN. reflexivity. }
  destruct e_feat; [| |contradiction]; (destruct l as [|x tl]; [reflexivity|rewrite N; reflexivity]).
Qed.
Lemma bad_head {E : Env} d s : bad_method d -> dec_head (d ++ s) = None.
Proof.
  intros (HF & x & c & tl & HL & Hc). destruct (Loc_link _ _ _ HL) as (p & Hp & Hs). unfold dec_head, andthen.
  rewrite Hp, <- app_assoc, Hs. cbn [app]. rewrite bad_headers by assumption. reflexivity.
Qed.

(** ** What the reader of frames says *)
Lemma frame_err {E : Env} d e : bytes d -> read_fframe (new_reader d) = Err e ->
  (dec_head d = None /\ (e = EIncomplete \/ e = EParse) /\ (bad_method d -> (e = EIncomplete <-> method_cut d)))
  \/ exists limit link net l1, dec_head d = Some ((limit, link, net), l1) /\
     ((e = EIncomplete /\ dec_limited (length l1) limit (N.of_nat (length d - length l1)) lost_bits l1 <> None)
      \/ exists n p pend l, (pend = 0 \/ pend = 1 \/ pend = 2)
         /\ steps limit (N.of_nat (length d - length l1)) lost_bits l1 (N.of_nat p) pend l
         /\ goes_on limit (N.of_nat p) /\ (p <= length d)%nat /\ skipn p d = l
         /\ match l with
            | [] => e = EIncomplete
            | b :: _ => reader_of (opcode_in limit pend b) (at_byte d p n) = Err e
            end).
Proof.
  intros Hd H. rewrite read_fframe_parts in H. unfold dec_head.
  pose proof (Dec_link (new_reader d) (RWf_new d)) as HL. unfold DecAt in HL. rewrite view_new, octets_bits in HL by exact Hd.
  destruct (dec_link d) as [[[limit link] l]|] eqn:EL.
  2: { left. unfold andthen at 1. rewrite EL. split; [reflexivity|]. destruct HL as [e' HL]. rewrite (bind_err _ _ _ _ HL) in H.
       assert (e' = e) by congruence. subst e'. pose proof (Kd_link (new_reader d) (or_intror eq_refl)) as K. rewrite HL in K.
       split; [exact K|]. intros (_ & x & c & tl & EL' & _). congruence. }
  destruct HL as (k & Hk & Hs & HL). rewrite bits_of_bytes_length in Hk. rewrite (bind_ok _ _ _ _ _ HL) in H.
  cbn [fst snd] in H. clear HL. change (new_reader d) with (at_byte d 0 0) in H.
  rewrite (adv_aligned (at_byte d 0 0)) in H; [|apply at_byte_wf; lia|reflexivity|rewrite at_byte_length; lia].
  cbn [at_byte data pos bread] in H. rewrite !Nat.add_0_l in H. change (mkRd d k [] (8 * k)) with (at_byte d k (8 * k)) in H.
  assert (Wk : RWf (at_byte d k (8 * k))) by (apply at_byte_wf; lia).
  pose proof (head_ok (at_byte d k (8 * k)) Wk eq_refl) as HH. unfold HeadAt in HH.
  rewrite at_byte_view, <- Hs in HH by exact Hd.
  destruct (dec_headers l) as [[net l1]|] eqn:EH.
  2: { left. unfold andthen. rewrite EL, EH. split; [reflexivity|]. destruct HH as [e' HH]. rewrite (bind_err _ _ _ _ HH) in H.
       assert (e' = e) by congruence. subst e'. pose proof (Kd_headers (at_byte d k (8 * k)) (or_intror eq_refl)) as K. rewrite HH in K.
       split; [exact K|]. intros (HF & x & c & tl & EL' & Hc). assert (l = c :: tl) by congruence. subst l.
       pose proof (bad_ncontrol (at_byte d k (8 * k)) c tl HF Wk eq_refl ltac:(rewrite at_byte_view by exact Hd; congruence) Hc) as BN.
       rewrite HH in BN. injection BN as ->. split.
       - intros E0. destruct tl as [|y tl]; [|discriminate]. split; [exact HF|]. exists x, c. split; assumption.
       - intros (_ & x' & c' & EL2 & _). assert (tl = []) by congruence. subst tl. reflexivity. }
  right. exists limit, link, net, l1. unfold andthen. rewrite EL, EH. split; [reflexivity|].
  destruct HH as (k1 & H1 & Hk1 & Hs1 & HH). rewrite at_byte_length in Hk1. rewrite (bind_ok _ _ _ _ _ HH) in H. clear HH.
  destruct (after_head d k (8 * k) k1 ltac:(lia) H1) as (w & HA & Lw). rewrite HA in H. clear HA.
  assert (E1 : l1 = skipn (k + k1) d) by (rewrite Hs1, Hs, skipn_skipn; reflexivity).
  assert (LO : (lost <= 1)%nat) by (unfold lost; destruct e_feat; lia).
  assert (EP : N.of_nat (length d - length l1) = N.of_nat (k + k1)) by (rewrite E1, skipn_length; lia).
  assert (EW : lost_bits = N.of_nat (length w)) by (rewrite Lw; unfold lost, lost_bits; destruct e_feat; reflexivity).
  rewrite EP, EW. clear EP EW.
  destruct (read_command limit (mkRd d (k + k1) w (8 * k + 8 * k1 - lost))) as [[c s]|e'|] eqn:RC.
  - left. rewrite (bind_ok _ _ _ _ _ RC) in H.
    pose proof (limited_ok d limit Hd (length d) (S (length d)) (length l1) (k + k1)%nat (8 * k + 8 * k1 - lost)%nat w []
      ltac:(lia) ltac:(lia) ltac:(rewrite E1, skipn_length; lia) ltac:(lia) ltac:(lia) ltac:(right; lia) eq_refl) as R.
    rewrite <- E1 in R. cbn [app] in R.
    change (read_actions (S (length d)) limit [] (mkRd d (k + k1) w (8 * k + 8 * k1 - lost)))
      with (read_command limit (mkRd d (k + k1) w (8 * k + 8 * k1 - lost))) in R. rewrite RC in R.
    destruct (dec_limited (length l1) limit (N.of_nat (k + k1)) (N.of_nat (length w)) l1) as [[c' l2]|]; [|destruct R as [? R]; discriminate].
    split; [|discriminate]. destruct R as (s' & k2 & n' & Hs2 & Hk2 & R & (Ws & Vs & Bs) & Hn). assert (s' = s) by congruence. subst s'.
    pose proof (Dec_native 2 s Ws) as HN. unfold DecAt in HN. 
    destruct (read_native 2 s) as [[crc s3]|e'|] eqn:RN; [rewrite (bind_ok _ _ _ _ _ RN) in H; discriminate| |].
    + rewrite (bind_err _ _ _ _ RN) in H. assert (e' = e) by congruence. subst e'. unfold read_native, bind in RN.
      destruct (Nat.ltb_spec (length (view s)) (8 * 2)) as [L|L]; [rewrite read_bits_err in RN by assumption; congruence|].
      rewrite read_bits_ok in RN by assumption. discriminate.
    + unfold bind in H. rewrite RN in H. discriminate.
  - right. rewrite (bind_err _ _ _ _ RC) in H. assert (e' = e) by congruence. subst e'. unfold read_command in RC. cbn [data] in RC.
    destruct (limited_err d limit Hd (length d) (S (length d)) (k + k1)%nat (8 * k + 8 * k1 - lost)%nat w [] e
      ltac:(lia) ltac:(lia) ltac:(lia) ltac:(lia) ltac:(right; lia) eq_refl RC) as (p' & n' & pend & Hp' & Pp & HS & HG & HR).
    exists n', p', pend, (skipn p' d). split; [exact Pp|]. rewrite E1. split; [exact HS|]. split; [exact HG|]. split; [exact Hp'|]. split; [reflexivity|exact HR].
  - unfold bind in H at 1. rewrite RC in H. discriminate.
Qed.
