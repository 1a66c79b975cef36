(** Lemmas for C63: actions. *)
From Coq Require Import List NArith ZArith Bool Lia ZifyBool ZifyNat ZifyN Arith.
From Verif Require Import Base Deku Utils Types Physical Link Network Session Data Query
  Interface File Operation Action Command WellFormed SpecLayout SpecDecode SpecStream SpecLive LUtf8 LBits LReader LLayout
  LNice LNiceOps LActionApi LFiles LStream LDecode LDecodeTypes LDecodeOps LDecodeAct LDecodeCmd LDecodeTx LDecodeLoop LJoin
  LLive LLiveOps LLiveAct LLiveCmd LLiveTx.
Import ListNotations.
Open Scope N_scope.

(** ** Deciding [text_begins] *)
Lemma below_dec (Q : N -> Prop) n : (forall b, b < n -> Q b \/ ~ Q b) -> (exists b, b < n /\ Q b) \/ ~ (exists b, b < n /\ Q b).
Proof.
  induction n as [|n IH] using N.peano_ind; intros H.
  - right. intros (b & Hb & _). lia.
  - destruct IH as [(b & Hb & Hq)|IH]; [intros b Hb; apply H; lia|left; exists b; split; [lia|exact Hq]|].
    destruct (H n ltac:(lia)) as [Hn|Hn]; [left; exists n; split; [lia|exact Hn]|].
    right. intros (b & Hb & Hq). destruct (N.eq_dec b n) as [->|D]; [contradiction|]. apply IH. exists b. split; [lia|exact Hq].
Qed.
Lemma tails_dec k : forall (P : list N -> Prop), (forall t, bytes t -> P t \/ ~ P t) ->
  (exists t, bytes t /\ length t = k /\ P t) \/ ~ (exists t, bytes t /\ length t = k /\ P t).
Proof.
  induction k as [|k IH]; intros P HP.
  - destruct (HP [] ltac:(constructor)) as [H|H]; [left; exists []; repeat split; [constructor|exact H]|].
    right. intros (t & _ & Lt & Ht). destruct t; [contradiction|discriminate].
  - destruct (below_dec (fun b => exists t, bytes t /\ length t = k /\ P (b :: t)) 256) as [(b & Hb & t & Bt & Lt & Ht)|H].
    + intros b Hb. apply (IH (fun t => P (b :: t))). intros t Bt. apply HP. constructor; assumption.
    + left. exists (b :: t). split; [constructor; assumption|]. split; [cbn [length]; rewrite Lt; reflexivity|exact Ht].
    + right. intros (t & Bt & Lt & Ht). destruct t as [|b t]; [discriminate|]. apply Forall_cons_iff in Bt as [Bb Bt].
      apply H. exists b. split; [exact Bb|]. exists t. split; [exact Bt|]. split; [cbn [length] in Lt; lia|exact Ht].
Qed.
Lemma utf8_dec l : bytes l -> is_utf8 l \/ ~ is_utf8 l.
Proof.
  intros H. destruct (utf8_valid l) eqn:V; [left; apply utf8_valid_is; assumption|].
  right. intros U. rewrite is_utf8_valid in V by exact U. discriminate.
Qed.
Lemma text_begins_dec n q : bytes q -> text_begins n q \/ ~ text_begins n q.
Proof.
  intros Bq. destruct (Nat.le_gt_cases (length q) n) as [L|L].
  - destruct (tails_dec (n - length q) (fun t => is_utf8 (q ++ t))) as [(t & Bt & Lt & Ht)|H].
    + intros t Bt. apply utf8_dec. apply Forall_app. split; assumption.
    + left. exists t. split; [exact Bt|]. split; [rewrite app_length; lia|exact Ht].
    + right. intros (t & Bt & Lt & Ht). apply H. exists t. rewrite app_length in Lt. split; [exact Bt|]. split; [lia|exact Ht].
  - right. intros (t & Bt & Lt & Ht). rewrite app_length in Lt. lia.
Qed.
Lemma text_ok_dec n q : bytes q -> text_ok n q \/ (length q < n)%nat /\ ~ text_begins n q.
Proof.
  intros Bq. destruct (Nat.le_gt_cases n (length q)) as [L|L]; [left; intros L'; lia|].
  destruct (text_begins_dec n q Bq) as [H|H]; [left; intros _; exact H|right; split; assumption].
Qed.

(** ** Evaluation *)
Lemma step {A} (m : reader A) D r v rest : DecA m D -> RWf r -> left r = [] -> D (octets (view r)) = Some (v, rest) ->
  exists r1, RWf r1 /\ left r1 = [] /\ octets (view r1) = rest /\ m r = Ok (v, r1).
Proof.
  intros HA Hr Hl HD. specialize (HA r Hr Hl). unfold DecAt in HA. rewrite HD in HA. destruct HA as (k & Hk & -> & HA).
  exists (adv r (8 * k)). split; [apply RWf_adv; assumption|]. split; [rewrite adv_aligned by assumption; reflexivity|].
  split; [|exact HA]. rewrite view_adv, octets_skip by assumption. reflexivity.
Qed.
Lemma length_err r e : RWf r -> read_length r = Err e -> e = EIncomplete.
Proof.
  intros Hr H. unfold read_length, bind in H.
  destruct (Nat.ltb_spec (length (view r)) 2) as [L|L].
  { rewrite read_uint_err in H by assumption. congruence. }
  rewrite read_uint_ok in H by assumption. pose proof (RWf_adv _ _ Hr L) as Hr1.
  set (n := N.to_nat _) in H. destruct (Nat.ltb_spec (length (view (adv r 2))) n) as [L2|L2].
  - rewrite read_uint_err in H by assumption. congruence.
  - rewrite read_uint_ok in H by assumption. discriminate.
Qed.
Lemma string_err n r : RWf r -> left r = [] -> 
  ((length (octets (view r)) < n)%nat -> read_string n r = Err EIncomplete) /\
  ((n <= length (octets (view r)))%nat -> ~ is_utf8 (firstn n (octets (view r))) -> read_string n r = Err EParse) /\
  ((n <= length (octets (view r)))%nat -> is_utf8 (firstn n (octets (view r))) ->
     exists r1 v, RWf r1 /\ left r1 = [] /\ octets (view r1) = skipn n (octets (view r)) /\ read_string n r = Ok (v, r1)).
Proof.
  intros Hr Hl. split; [|split].
  - intros L. rewrite octets_length in L. unfold read_string, bind. rewrite read_list_u8_short; [reflexivity|exact Hr|].
    pose proof (Nat.div_mod (length (view r)) 8 ltac:(lia)). pose proof (Nat.mod_upper_bound (length (view r)) 8 ltac:(lia)). lia.
  - intros L U. unfold read_string. pose proof (Dec_bytes n r Hr) as HB. unfold DecAt, some_bytes in HB.
    destruct (N.leb_spec (N.of_nat n) (N.of_nat (length (octets (view r))))); [|lia].
    destruct HB as (k & _ & _ & HB). unfold bind. rewrite HB. rewrite Nat2N.id.
    destruct (utf8_valid _) eqn:V; [|reflexivity]. exfalso. apply U. apply utf8_valid_is; [apply octets_first_bytes|exact V].
  - intros L U. apply is_utf8_valid in U.
    destruct (step (read_string n) (text (N.of_nat n)) r (firstn n (octets (view r))) (skipn n (octets (view r)))) as (r1 & W & Ha & Ho & Hs);
      [apply Dec_A, Dec_text|exact Hr|exact Hl| |exists r1, (firstn n (octets (view r))); auto].
    unfold text, andthen, some_bytes. destruct (N.leb_spec (N.of_nat n) (N.of_nat (length (octets (view r))))); [|lia].
    rewrite Nat2N.id, U. reflexivity.
Qed.
Lemma firmware_err {B} (f : firmware_version -> reader B) r x y q : RWf r -> left r = [] -> octets (view r) = x :: y :: q ->
  ((length q < 6)%nat -> bind read_firmware_version f r = Err EIncomplete) /\
  ((6 <= length q)%nat -> ~ is_utf8 (firstn 6 q) -> bind read_firmware_version f r = Err EParse) /\
  ((6 <= length q < 13)%nat -> is_utf8 (firstn 6 q) -> bind read_firmware_version f r = Err EIncomplete).
Proof.
  intros Hr Hl Ho.
  destruct (step read_u8 one r x (y :: q) (Dec_A _ _ Dec_u8) Hr Hl) as (r1 & W1 & L1 & O1 & R1); [rewrite Ho; reflexivity|].
  destruct (step read_u8 one r1 y q (Dec_A _ _ Dec_u8) W1 L1) as (r2 & W2 & L2 & O2 & R2); [rewrite O1; reflexivity|].
  destruct (string_err 6 r2 W2 L2) as (S1 & S2 & S3). rewrite O2 in *.
  assert (EQ : bind read_firmware_version f r =
    match read_string 6 r2 with
    | Ok (s, r3) => match read_string 7 r3 with Ok (t, r4) => f (mkFirmware x y s t) r4 | Err e => Err e | Panic => Panic end
    | Err e => Err e | Panic => Panic end).
  { unfold read_firmware_version, bind. rewrite R1, R2. destruct (read_string 6 r2) as [[s r3]|e|]; try reflexivity.
    destruct (read_string 7 r3) as [[t r4]|e|]; reflexivity. }
  rewrite EQ. split; [|split].
  - intros L. rewrite S1 by exact L. reflexivity.
  - intros L U. rewrite S2 by assumption. reflexivity.
  - intros L U. destruct S3 as (r3 & s & W3 & L3 & O3 & R3); [lia|exact U|]. rewrite R3.
    destruct (string_err 7 r3 W3 L3) as (T1 & _). rewrite T1; [reflexivity|]. rewrite O3, skipn_length. lia.
Qed.

(** ** The two kinds of operands *)
Lemma file_data_err {E : Env} (c : file_data -> action) r b l1 o l2 n x y q :
  RWf r -> left r = [] -> octets (view r) = b :: l1 -> dec_file_offset l1 = Some (o, l2) -> fo_file_id o = 2 ->
  dec_length l2 = Some (n, x :: y :: q) ->
  ((length q < 6)%nat -> (v <- read_file_data ;; ret (c v)) r = Err EIncomplete) /\
  ((6 <= length q)%nat -> ~ is_utf8 (firstn 6 q) -> (v <- read_file_data ;; ret (c v)) r = Err EParse) /\
  ((6 <= length q < 13)%nat -> is_utf8 (firstn 6 q) -> (v <- read_file_data ;; ret (c v)) r = Err EIncomplete).
Proof.
  intros Hr Hl Ho H1 Hid H2.
  destruct (step g_hdr (let* b := one in give (dec_header b, part 0 6 b)) r (dec_header b, part 0 6 b) l1 (Dec_A _ _ Dec_hdr) Hr Hl) as (r1 & W1 & L1 & O1 & R1); [rewrite Ho; reflexivity|].
  destruct (step read_file_offset dec_file_offset r1 o l2 (Dec_A _ _ Dec_file_offset) W1 L1) as (r2 & W2 & L2 & O2 & R2); [rewrite O1; exact H1|].
  destruct (step read_length dec_length r2 n (x :: y :: q) (Dec_A _ _ Dec_length) W2 L2) as (r3 & W3 & L3 & O3 & R3); [rewrite O2; exact H2|].
  assert (EQ : (v <- read_file_data ;; ret (c v)) r =
     bind read_firmware_version (fun v => ret (c (mkFileData (dec_header b) (part 0 6 b) o (FFirmwareVersion v)))) r3).
  { unfold read_file_data. unfold g_hdr in R1. unfold bind in *.
    destruct (read_header r) as [[h s]|e|]; try discriminate. destruct (read_opcode s) as [[p s']|e|]; try discriminate.
    assert (h = dec_header b /\ p = part 0 6 b /\ s' = r1) as (-> & -> & ->) by (unfold ret in R1; repeat split; congruence).
    rewrite R2. unfold read_file_payload, bind. rewrite R3, Hid, file_id_try_from_ok by lia.
    change (file_id_of 2) with FidFirmwareVersion. cbn [read_file]. unfold bind.
    destruct (read_firmware_version r3) as [[v z]|e|]; reflexivity. }
  rewrite EQ. apply firmware_err with (x := x) (y := y); assumption.
Qed.
Lemma status_err {E : Env} r b i rest : RWf r -> left r = [] -> octets (view r) = b :: i :: rest -> part 6 2 b = 1 -> i = 2 \/ i = 3 ->
  (v <- read_status_operand ;; ret (AStatus v)) r = Err (match dec_length rest with None => EIncomplete | Some _ => EParse end).
Proof.
  intros Hr Hl Ho Hb Hi.
  destruct (step g_status (let* b := one in
   let* t := named code_status_type [StAction; StInterface; StInterfaceFinal] (part 6 2 b) in
   give (t, part 0 6 b)) r (StInterface, part 0 6 b) (i :: rest) (Dec_A _ _ Dec_g_status) Hr Hl) as (r1 & W1 & L1 & O1 & R1).
  { rewrite Ho. unfold andthen, one, named. rewrite Hb. reflexivity. }
  destruct (step read_u8 one r1 i rest (Dec_A _ _ Dec_u8) W1 L1) as (r2 & W2 & L2 & O2 & R2); [rewrite O1; reflexivity|].
  assert (EQ : forall t, (t = ItLoRaWanABP \/ t = ItLoRaWanOTAA) -> read_interface_type r1 = Ok (t, r2) ->
    (v <- read_status_operand ;; ret (AStatus v)) r = match read_length r2 with Ok _ => Err EParse | Err e => Err e | Panic => Panic end).
  { intros t Ht Rt. unfold read_status_operand. unfold g_status in R1. unfold bind in *.
    destruct (read_status_type r) as [[h s]|e|]; try discriminate. destruct (read_opcode s) as [[p s']|e|]; try discriminate.
    assert (h = StInterface /\ p = part 0 6 b /\ s' = r1) as (-> & -> & ->) by (unfold ret in R1; repeat split; congruence).
    cbn [read_status]. unfold read_itf_status_op, bind. rewrite Rt. destruct (read_length r2) as [[n r3]|e|]; try reflexivity.
    destruct Ht as [-> | ->]; reflexivity. }
  assert (EL : (v <- read_status_operand ;; ret (AStatus v)) r = match read_length r2 with Ok _ => Err EParse | Err e => Err e | Panic => Panic end).
  { destruct Hi as [-> | ->].
    - apply (EQ ItLoRaWanABP); [auto|]. unfold read_interface_type, bind. rewrite R2. reflexivity.
    - apply (EQ ItLoRaWanOTAA); [auto|]. unfold read_interface_type, bind. rewrite R2. reflexivity. }
  rewrite EL. pose proof (Dec_length r2 W2) as HL. unfold DecAt in HL. rewrite O2 in HL.
  destruct (dec_length rest) as [[n l]|].
  - destruct HL as (k & _ & _ & ->). reflexivity.
  - destruct HL as [e HL]. rewrite HL. rewrite (length_err _ _ W2 HL). reflexivity.
Qed.

(** ** Operands *)
Lemma op34 {E : Env} : reader_of 34 = (v <- read_status_operand ;; ret (AStatus v)).
Proof. unfold reader_of, action_readers. destruct is_wizzilab; reflexivity. Qed.
Lemma op_file {E : Env} op : In op [4; 5; 32] -> exists c, reader_of op = (v <- read_file_data ;; ret (c v)).
Proof. intros [<-|[<-|[<-|[]]]]; [exists AWriteFileData|exists AWriteFileDataFlush|exists AReturnFileData]; unfold reader_of, action_readers; destruct is_wizzilab; reflexivity. Qed.
Lemma op38 {E : Env} : e_feat = Wizzilab -> reader_of 38 = tx_reader.
Proof. intros H. unfold reader_of, action_readers, is_wizzilab. rewrite H. reflexivity. Qed.
Lemma tx_cut_err {E : Env} r h tl l n l2 c x : RWf r -> left r = [] -> octets (view r) = h :: tl -> part 6 2 h = 1 ->
  shifted tl = 0xD7 :: l -> dec_length l = Some (n, l2) -> dec_channel l2 = Some (c, [x]) -> tx_reader r = Err EIncomplete.
Proof.
  intros Hr Hl Ho Hh Hs Hn Hc. destruct tl as [|o tl]; [discriminate|].
  destruct (tx_at r h (o :: tl) Hr Hl Ho) as (_ & _ & T). destruct (T Hh o tl eq_refl) as (r1 & W1 & L1 & O1 & _ & ->). clear T.
  rewrite Hs in O1.
  assert (St : forall A (m : reader A) D r v rest, Dec m D -> RWf r -> D (octets (view r)) = Some (v, rest) ->
    exists r1, RWf r1 /\ octets (view r1) = rest /\ m r = Ok (v, r1)).
  { clear. intros A m D r v rest HD Hr H. specialize (HD r Hr). unfold DecAt in HD. rewrite H in HD. destruct HD as (k & Hk & -> & HD).
    exists (adv r (8 * k)). split; [apply RWf_adv; assumption|]. split; [|exact HD]. rewrite view_adv, octets_skip by assumption. reflexivity. }
  destruct (St _ read_u8 one r1 0xD7 l Dec_u8 W1) as (r2 & W2 & O2 & R2); [rewrite O1; reflexivity|].
  destruct (St _ read_length dec_length r2 n l2 Dec_length W2) as (r3 & W3 & O3 & R3); [rewrite O2; exact Hn|].
  destruct (St _ read_channel dec_channel r3 c [x] Dec_channel W3) as (r4 & W4 & O4 & R4); [rewrite O3; exact Hc|].
  destruct (St _ read_u8 one r4 x [] Dec_u8 W4) as (r5 & W5 & O5 & R5); [rewrite O4; reflexivity|].
  assert (L5 : (length (view r5) < 8)%nat).
  { apply (f_equal (@length N)) in O5. rewrite octets_length in O5. cbn [length] in O5. revert O5. clear. intros. divlia. }
  unfold tx_body, bind. rewrite R2, R3. unfold read_interface_tx_status. cbn [N.eqb Pos.eqb]. unfold read_dash7_tx_status, read_i8, bind.
  rewrite R4, R5. unfold ret at 1. unfold read_final_status_code, read_enum, bind. rewrite read_uint_err by assumption. reflexivity.
Qed.
(** [stuck], for the operand at a state. *)
Lemma stuck_incomplete {E : Env} op r b tl : RWf r -> left r = [] -> octets (view r) = b :: tl -> stuck op (b :: tl) ->
  reader_of op r = Err EIncomplete.
Proof.
  intros Hr Hl Ho [(-> & b' & i & rest & H & H1 & Hi & Hd)|[(Hop & b' & l1 & o & l2 & n & x & y & q & H & H1 & Hid & H2 & Hq)
    |(HW & -> & h & tl' & l & n & l2 & c & x & H & Hh & Hs & Hn & Hc & _)]].
  - injection H as <- ->. rewrite op34, (status_err r b i rest) by assumption. rewrite Hd. reflexivity.
  - injection H as <- ->. destruct (op_file _ Hop) as [c ->].
    destruct (file_data_err c r b l1 o l2 n x y q Hr Hl Ho H1 Hid H2) as (F1 & F2 & F3).
    destruct Hq as [[L _]|(L & U & _)]; [apply F1; exact L|apply F3; assumption].
  - injection H as <- <-. rewrite op38 by exact HW. eapply tx_cut_err; eassumption.
Qed.
Lemma incomplete_operand {E : Env} op r b tl : RWf r -> left r = [] -> octets (view r) = b :: tl -> op < 64 ->
  reader_of (op) r = Err EIncomplete ->
  (exists s v, bytes s /\ dec_operand (op) (b :: tl ++ s) = Some (v, [])) \/ stuck op (b :: tl).
Proof.
  intros Hr Hl Ho Ho64 He. assert (Bt : bytes (b :: tl)) by (rewrite <- Ho; apply octets_bytes).
  assert (D38 : e_feat = Wizzilab /\ op = 38 \/ (e_feat = Wizzilab -> op <> 38)).
  { destruct e_feat; try (right; intros; discriminate). destruct (N.eq_dec op 38); [left; auto|right; auto]. }
  destruct D38 as [[HW ->]|H38].
  { rewrite op38 in He by exact HW. destruct (tx_at r b tl Hr Hl Ho) as (T1 & T2 & T3).
    destruct (N.eq_dec (part 6 2 b) 1) as [Hb|Hb]; [|rewrite T1 in He by exact Hb; discriminate].
    assert (Done : forall s v rest, bytes s -> dec_tx (b :: tl ++ s) = Some (v, rest) -> rest = [] ->
      exists s v, bytes s /\ dec_operand 38 (b :: tl ++ s) = Some (v, [])).
    { intros s v rest Bs H ->. exists s, (ATxStatus v). split; [exact Bs|]. cbn [dec_operand]. rewrite HW. unfold andthen. rewrite H. reflexivity. }
    destruct tl as [|o l].
    { left. eapply (Done [0; 0; 0]); [repeat constructor| |]. 
      - unfold dec_tx. cbn [app]. rewrite Hb. reflexivity.
      - reflexivity. }
    destruct (T3 Hb o l eq_refl) as (r1 & W1 & L1 & O1 & Tl & HR). rewrite HR in He.
    destruct (LivT_tx_body (part 2 6 o) HW) as (_ & _ & HF).
    assert (DX : body_ok (octets (view r1)) (tail2 r1) \/ stuck 38 (b :: o :: l)).
    { rewrite O1, Tl. destruct (shifted (o :: l)) as [|i q] eqn:Es; [left; intros l0 n l2 H; discriminate|].
      destruct (N.eq_dec i 0xD7) as [->|Ni]; [|left; intros l0 n l2 H; congruence].
      destruct (dec_length q) as [[n l2]|] eqn:Hn; [|left; intros l0 n l2 H G; congruence].
      assert (Same : forall (P : Prop), (forall c x, dec_channel l2 = Some (c, [x]) -> last (o :: l) 0 mod 4 = 0 \/ last (o :: l) 0 mod 4 = 3) ->
        body_ok (0xD7 :: q) (last (o :: l) 0 mod 4) \/ P).
      { intros P K. left. intros l0 n' l2' H G c' x' Kc. injection H as <-. assert (l2' = l2) as -> by congruence. eapply K. exact Kc. }
      destruct (dec_channel l2) as [[c [|x [|]]]|] eqn:Hc; try (apply Same; intros c' x' K; discriminate).
      set (w := last (o :: l) 0 mod 4). assert (Bw : w < 4) by (apply N.mod_lt; discriminate).
      destruct (four w Bw) as [Ew|[Ew|[Ew|Ew]]].
      - apply Same. intros c' x' K. left. exact Ew.
      - right. right. right. split; [exact HW|]. split; [reflexivity|]. exists b, (o :: l), q, n, l2, c, x. repeat split; auto.
      - right. right. right. split; [exact HW|]. split; [reflexivity|]. exists b, (o :: l), q, n, l2, c, x. repeat split; auto.
      - apply Same. intros c' x' K. right. exact Ew. }
    destruct DX as [DX|DX]; [|right; exact DX]. left.
    destruct (HF r1 W1 L1 He DX) as (e & s & v & B256 & H64 & Bs & Hs & _). rewrite Tl in H64. rewrite O1 in Hs.
    destruct (unshift_spec s (last (o :: l) 0) e ltac:(constructor; assumption) ltac:(symmetry; exact H64)) as [Bu Su].
    unfold andthen in Hs. destruct (dec_tx_body (part 2 6 o) (shifted (o :: l) ++ e :: s)) as [[v' rest]|] eqn:Eb; [|discriminate].
    unfold give in Hs. assert (rest = []) as -> by congruence.
    eapply (Done (unshift e s) v'); [exact Bu| |reflexivity].
    unfold dec_tx. cbn [app]. rewrite Hb. cbn [N.eqb Pos.eqb].
    change (o :: l ++ unshift e s) with ((o :: l) ++ unshift e s). rewrite shifted_app, Su by discriminate. rewrite Eb.
    cbn [length]. rewrite Nat.sub_0_r, skipn_all. reflexivity. }
  assert (Fin : op_ok (op) (b :: tl) -> exists s v, bytes s /\ dec_operand (op) (b :: tl ++ s) = Some (v, [])).
  { intros HX. destruct (LivX_operand (op) Ho64 H38) as (_ & _ & HF). rewrite <- Ho in HX.
    destruct (HF r Hr Hl He HX) as (s & v & Bs & Hs & _). rewrite Ho in Hs. exists s, v. split; assumption. }
  destruct (N.eq_dec (op) 34) as [E34|N34].
  - destruct tl as [|i rest].
    { left. apply Fin. split; [intros _ b' i rest H; discriminate|]. rewrite E34. intros H. cbn [In] in H.
      decompose [or] H; try discriminate; contradiction. }
    assert (Hi : (part 6 2 b = 1 /\ (i = 2 \/ i = 3)) \/ (part 6 2 b = 1 -> i <> 2 /\ i <> 3)).
    { destruct (N.eq_dec (part 6 2 b) 1); [|right; lia]. destruct (N.eq_dec i 2); [left; auto|]. destruct (N.eq_dec i 3); [left; auto|].
      right. auto. }
    destruct Hi as [[H1 Hi]|Hi].
    + right. left. split; [exact E34|]. exists b, i, rest. split; [reflexivity|]. split; [exact H1|]. split; [exact Hi|].
      rewrite E34, op34, (status_err r b i rest) in He by assumption. destruct (dec_length rest); [discriminate|reflexivity].
    + left. apply Fin. split; [intros _ b' i' rest' H; injection H as <- <- <-; exact Hi|]. rewrite E34. intros H. cbn [In] in H.
      decompose [or] H; try discriminate; contradiction.
  - destruct (in_dec N.eq_dec (op) [4; 5; 32]) as [Hop|Nop].
    2: { left. apply Fin. split; [intros H; contradiction|intros H; contradiction]. }
    destruct (dec_file_offset tl) as [[o l2]|] eqn:H1.
    2: { left. apply Fin. split; [intros H; contradiction|]. intros _ b' rest H. injection H as <- <-. intros o l2 n x y q G. congruence. }
    assert (Easy : (fo_file_id o = 2 -> forall n x y q, dec_length l2 = Some (n, x :: y :: q) -> version_ok q) ->
      op_ok (op) (b :: tl)).
    { intros G. split; [intros H; contradiction|]. intros _ b' rest H. injection H as <- <-. intros o' l2' n x y q G1 G2 G3.
      assert (o' = o /\ l2' = l2) as [-> ->] by (split; congruence). eapply G; eassumption. }
    destruct (N.eq_dec (fo_file_id o) 2) as [Hid|Nid]; [|left; apply Fin, Easy; intros H; contradiction].
    destruct (dec_length l2) as [[n [|x [|y q]]]|] eqn:H2; try (left; apply Fin, Easy; intros _ n' x' y' q' H; discriminate).
    assert (Bq : bytes q).
    { apply Forall_cons_iff in Bt as [_ Bt].
      destruct (Loc_file_offset tl o l2 H1) as (p & Hp & _). rewrite Hp in Bt. apply Forall_app in Bt as [_ Bt].
      destruct (Loc_length l2 n _ H2) as (p' & Hp' & _). rewrite Hp' in Bt. apply Forall_app in Bt as [_ Bt].
      apply Forall_cons_iff in Bt as [_ Bt]. apply Forall_cons_iff in Bt as [_ Bt]. exact Bt. }
    destruct (op_file _ Hop) as [c Hc]. destruct (file_data_err c r b tl o l2 n x y q Hr Hl Ho H1 Hid H2) as (F1 & F2 & F3).
    rewrite <- Hc, He in F2.
    assert (Base : (length q < 6)%nat /\ ~ text_begins 6 q
        \/ (6 <= length q < 13)%nat /\ is_utf8 (firstn 6 q) /\ ~ text_begins 7 (skipn 6 q) \/ version_ok q).
    { destruct (text_ok_dec 6 q Bq) as [T6|T6]; [|auto].
      destruct (Nat.le_gt_cases 6 (length q)) as [L|L]; [|right; right; split; [exact T6|lia]].
      assert (Bs : bytes (skipn 6 q)) by (rewrite <- (firstn_skipn 6 q) in Bq; apply Forall_app in Bq; apply Bq).
      assert (Bf : bytes (firstn 6 q)) by (rewrite <- (firstn_skipn 6 q) in Bq; apply Forall_app in Bq; apply Bq).
      destruct (text_ok_dec 7 _ Bs) as [T7|[L7 T7]]; [right; right; split; [exact T6|intros _; exact T7]|].
      rewrite skipn_length in L7. destruct (utf8_dec _ Bf) as [U|U]; [right; left; repeat split; try assumption; lia|].
      specialize (F2 L U). discriminate. }
    assert (K : version_ok q \/ stuck op (b :: tl)).
    { destruct Base as [B|[B|B]]; [right; right; left|right; right; left|left; exact B]; (split; [exact Hop|]); exists b, tl, o, l2, n, x, y, q; repeat split; auto. }
    destruct K as [K|K]; [|right; exact K]. left. apply Fin, Easy. intros _ n' x' y' q' G.
    assert (q' = q) as -> by congruence. exact K.
Qed.

(** ** Actions *)
Lemma action_error {E : Env} d e : action_from_bytes d 0 = Err e <-> read_action (new_reader d) = Err e.
Proof.
  unfold action_from_bytes. rewrite u_from_bytes_0. destruct (read_action (new_reader d)) as [[v r]|x|]; split; intros H; try discriminate; congruence.
Qed.
Lemma first_operand {E : Env} b tl : bytes (b :: tl) ->
  read_action (new_reader (b :: tl)) = reader_of (part 0 6 b) (at_byte (b :: tl) 0 8).
Proof. intros H. exact (entry_reader (b :: tl) 0 0 false _ b tl H ltac:(lia) (entry_plain _ _ _) eq_refl). Qed.
Lemma action_ends {E : Env} d : bytes d ->
  (action_can_end d <-> exists s a rest, bytes s /\ dec_action (d ++ s) = Some (a, rest)).
Proof.
  intros Hd. split.
  - intros (s & x & Bs & H). exists s. pose proof (decode_action_from_bytes (d ++ s) ltac:(apply Forall_app; split; assumption)) as D.
    destruct (dec_action (d ++ s)) as [[a rest]|]; [exists a, rest; split; [exact Bs|reflexivity]|]. destruct D as [e D]. congruence.
  - intros (s & a & rest & Bs & H). pose proof (decode_action_from_bytes (d ++ s) ltac:(apply Forall_app; split; assumption)) as D.
    rewrite H in D. eexists s, _. split; [exact Bs|exact D].
Qed.

Lemma text_continued n q s v rest : bytes q -> bytes s -> text (N.of_nat n) (q ++ s) = Some (v, rest) -> (length q <= n)%nat ->
  text_begins n q.
Proof.
  intros Bq Bs H L. unfold text, andthen, some_bytes in H.
  destruct (N.leb_spec (N.of_nat n) (N.of_nat (length (q ++ s)))) as [L2|L2]; [|discriminate].
  rewrite Nat2N.id in H. destruct (utf8_valid (firstn n (q ++ s))) eqn:V; [|discriminate].
  rewrite app_length in L2. exists (firstn (n - length q) s).
  rewrite firstn_app, (firstn_all2 q) in V by lia.
  assert (Bf : bytes (firstn (n - length q) s)).
  { rewrite <- (firstn_skipn (n - length q) s) in Bs. apply Forall_app in Bs. apply Bs. }
  split; [exact Bf|]. split; [rewrite app_length, firstn_length; lia|].
  apply utf8_valid_is; [apply Forall_app; split; assumption|exact V].
Qed.
Lemma Loc_app {A} (D : dec A) l v rest s : Loc D -> D l = Some (v, rest) -> D (l ++ s) = Some (v, rest ++ s).
Proof. intros HL H. destruct (HL _ _ _ H) as (p & -> & Hp). rewrite <- app_assoc. apply Hp. Qed.
Lemma stuck_ends {E : Env} op b tl s : bytes (b :: tl) -> bytes s -> stuck op (b :: tl) -> dec_operand op (b :: tl ++ s) = None.
Proof.
  intros Bt Bs [(-> & b' & i & rest & H & H1 & Hi & Hd)|[(Hop & b' & l1 & o & l2 & n & x & y & q & H & H1 & Hid & H2 & Hq)
    |(HW & -> & h & tl' & l & n & l2 & c & x & H & Hh & Hs & Hn & Hc & Hw)]].
  - injection H as <- ->. cbn [dec_operand]. unfold andthen at 1. cbn [one app]. unfold named. rewrite H1.
    cbn [find code_status_type N.eqb Pos.eqb]. unfold andthen at 1. unfold give at 1. unfold dec_status. cbn [N.eqb Pos.eqb].
    unfold andthen, dec_itf_status, one. destruct Hi as [-> | ->]; reflexivity.
  - injection H as <- <-.
    assert (Bq : bytes q).
    { apply Forall_cons_iff in Bt as [_ Bt].
      destruct (Loc_file_offset tl o l2 H1) as (p & Hp & _). rewrite Hp in Bt. apply Forall_app in Bt as [_ Bt].
      destruct (Loc_length l2 n _ H2) as (p' & Hp' & _). rewrite Hp' in Bt. apply Forall_app in Bt as [_ Bt].
      apply Forall_cons_iff in Bt as [_ Bt]. apply Forall_cons_iff in Bt as [_ Bt]. exact Bt. }
    assert (Hc : exists c, dec_operand op = dec_file_data c).
    { destruct Hop as [<-|[<-|[<-|[]]]]; eexists; reflexivity. }
    destruct Hc as [c ->]. unfold dec_file_data, andthen. cbn [one].
    rewrite (Loc_app _ _ _ _ s Loc_file_offset H1). rewrite (Loc_app _ _ _ _ s Loc_length H2). rewrite Hid. cbn [app].
    unfold dec_file. cbn [N.eqb Pos.eqb]. unfold andthen at 1. cbn [one]. unfold andthen at 1. cbn [one].
    unfold andthen at 1. destruct (text 6 (q ++ s)) as [[v rest]|] eqn:T6; [|reflexivity].
    destruct Hq as [[L N6]|(L & U & N7)].
    + exfalso. apply N6. eapply (text_continued 6); [exact Bq|exact Bs|exact T6|lia].
    + assert (rest = skipn 6 q ++ s) as ->.
      { unfold text, andthen, some_bytes in T6. destruct (N.leb_spec 6 (N.of_nat (length (q ++ s)))); [|discriminate].
        change (N.to_nat 6) with 6%nat in T6. destruct (utf8_valid _); [|discriminate]. unfold give in T6.
        assert (R : rest = skipn 6 (q ++ s)) by congruence. rewrite R, skipn_app. replace (6 - length q)%nat with 0%nat by lia. reflexivity. }
      unfold andthen at 1. destruct (text 7 (skipn 6 q ++ s)) as [[w rest]|] eqn:T7; [|reflexivity].
      exfalso. apply N7. eapply (text_continued 7); [|exact Bs|exact T7|rewrite skipn_length; lia].
      rewrite <- (firstn_skipn 6 q) in Bq. apply Forall_app in Bq. apply Bq.
  - injection H as <- <-. cbn [dec_operand]. rewrite HW. unfold andthen at 1. destruct tl as [|o tl]; [discriminate|].
    unfold dec_tx. cbn [app]. rewrite Hh. cbn [N.eqb Pos.eqb]. change (o :: tl ++ s) with ((o :: tl) ++ s).
    rewrite shifted_app, Hs by discriminate. set (q := shifted (last (o :: tl) 0 :: s)).
    assert (Hq : dec_final q = None).
    { unfold q. destruct s as [|a s]; [reflexivity|]. cbn [shifted]. apply Forall_cons_iff in Bs as [Ba _]. unfold byte in Ba.
      unfold dec_final, andthen, one, named.
      assert (E0 : forall v, (code_final v =? last (o :: tl) 0 mod 4 * 64 + a / 4) = false).
      { intros v. apply N.eqb_neq. assert (A4 : a / 4 < 64) by (clear - Ba; divlia).
        set (w := last (o :: tl) 0 mod 4) in *. assert (Hv : code_final v = 0 \/ 0xEA <= code_final v) by (destruct v; vm_compute; intuition discriminate).
        lia. }
      unfold all_final. cbn [find]. rewrite !E0. reflexivity. }
    assert (Hb : dec_tx_body (part 2 6 o) ((0xD7 :: l) ++ q) = None).
    { unfold dec_tx_body. unfold andthen at 1. cbn [one app]. unfold andthen at 1. rewrite (Loc_app _ _ _ _ q Loc_length Hn). cbn [N.eqb Pos.eqb].
      unfold dec_dash7_tx. unfold andthen at 1. unfold andthen at 1. rewrite (Loc_app _ _ _ _ q Loc_channel Hc). cbn [app].
      unfold andthen at 1. cbn [signed andthen one give]. unfold andthen at 1. rewrite Hq. reflexivity. }
    rewrite Hb. reflexivity.
Qed.
