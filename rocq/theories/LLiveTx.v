(** Lemmas for C63: the transmission status, which is read from bit 6 of each byte on. *)
From Coq Require Import List NArith ZArith Bool Lia ZifyBool ZifyNat ZifyN Arith.
From Verif Require Import Base Deku Utils Types Physical Link Network Session Data Query
  Interface File Operation Action Command WellFormed SpecLayout SpecDecode SpecLive LBits LReader LLayout LNiceOps
  LDecode LDecodeTypes LDecodeOps LDecodeAct LDecodeCmd LDecodeTx LJoin LLive LLiveOps LLiveAct LLiveCmd.
Import ListNotations.
Open Scope N_scope.

(** The bits after the last whole byte. *)
Definition tail2 (r : rd) : N := N_of_bits (skipn (8 * length (octets (view r))) (view r)).
Definition two_left (r : rd) : Prop := Nat.modulo (length (view r)) 8 = 2%nat.
(** Where [m] runs out of input with two bits left, [D] accepts some continuation whose first byte
    starts with them, unless [X] rules it out. *)
Definition FinT {A} (m : reader A) (D : dec A) (P : A -> Prop) (X : list N -> N -> Prop) : Prop := forall r, RWf r -> two_left r ->
  m r = Err EIncomplete -> X (octets (view r)) (tail2 r) ->
  exists b s v, b < 256 /\ b / 64 = tail2 r /\ bytes s /\ D (octets (view r) ++ b :: s) = Some (v, []) /\ P v.
Definition Any2 (_ : list N) (_ : N) : Prop := True.
Definition LivT {A} (m : reader A) (D : dec A) (P : A -> Prop) (X : list N -> N -> Prop) : Prop := Dec m D /\ Loc D /\ FinT m D P X.

Lemma tail2_bound r : two_left r -> tail2 r < 4.
Proof.
  intros H. unfold tail2. set (z := skipn _ _).
  assert (L : length z = 2%nat) by (unfold z; rewrite skipn_length, octets_length; unfold two_left in H; clear - H; divlia).
  destruct z as [|x [|y [|]]]; try discriminate. destruct x, y; vm_compute; reflexivity.
Qed.
Lemma two_left_adv r k : RWf r -> (8 * k <= length (view r))%nat -> two_left r -> two_left (adv r (8 * k)) /\ tail2 (adv r (8 * k)) = tail2 r.
Proof.
  intros Hr Hk H. unfold two_left, tail2 in *. rewrite view_adv, octets_skip by assumption. rewrite !skipn_length, octets_length.
  split; [clear - H Hk; divlia|]. rewrite skipn_skipn. do 2 f_equal. clear - H Hk. divlia.
Qed.
Lemma LivT_ext {A} (m m' : reader A) (D D' : dec A) P (X X' : list N -> N -> Prop) : LivT m D P X ->
  (forall r, RWf r -> m' r = m r) -> (forall l, D' l = D l) -> (forall l w, X' l w -> X l w) -> LivT m' D' P X'.
Proof.
  intros (HA & HL & HF) Hm HD HX. split; [|split].
  - eapply Dec_ext; eassumption.
  - intros l v r H. rewrite HD in H. destruct (HL _ _ _ H) as (p & Hp & Hs). exists p. split; [exact Hp|].
    intros s. rewrite HD. apply Hs.
  - intros r Hr Hl H Hx. rewrite Hm in H by exact Hr. destruct (HF r Hr Hl H (HX _ _ Hx)) as (b & s & v & Hb & H64 & Bs & Hs & Hv).
    exists b, s, v. rewrite HD. auto.
Qed.
Lemma LivT_ret {A} (v : A) P X : LivT (ret v) (give v) P X.
Proof. split; [apply Dec_ret|]. split; [apply Loc_give|]. intros r Hr Hl H. discriminate. Qed.
Lemma LivT_bindX {A B} (m : reader A) (f : A -> reader B) D K P Q X0 (X : A -> list N -> N -> Prop) (Y : list N -> N -> Prop) :
  LivT m D P X0 -> (forall v, LivT (f v) (K v) Q (X v)) -> (forall v, P v -> St (K v) Q) -> (forall l w, Y l w -> X0 l w) ->
  (forall l v rest w, D l = Some (v, rest) -> Y l w -> X v rest w) -> LivT (bind m f) (andthen D K) Q Y.
Proof.
  intros (HA & HL & HF) H HS HX0 HX. split; [|split].
  - apply Dec_bind; [exact HA|]. intros v. apply H.
  - apply Loc_bind; [exact HL|]. intros v. apply H.
  - intros r Hr Hl He Hy. unfold bind in He. destruct (m r) as [[v r1]|e|] eqn:Em; [| |discriminate].
    + specialize (HA r Hr). unfold DecAt in HA. destruct (D (octets (view r))) as [[w rest]|] eqn:ED.
      2: { destruct HA as [e HA]. congruence. }
      destruct HA as (k & Hk & Hrest & HA). assert (w = v /\ r1 = adv r (8 * k)) as [-> ->] by (split; congruence). clear HA.
      destruct (two_left_adv r k Hr Hk Hl) as [Hl1 Ht1].
      destruct (H v) as (_ & _ & Hf). specialize (Hf (adv r (8 * k)) (RWf_adv _ _ Hr Hk) Hl1 He). rewrite Ht1 in Hf.
      rewrite view_adv, octets_skip, <- Hrest in Hf by assumption. specialize (Hf (HX _ _ _ _ ED Hy)).
      destruct Hf as (b & s & x & Hb & H64 & Bs & Hs & Hx). exists b, s, x. do 3 (split; [assumption|]). split; [|exact Hx].
      destruct (HL _ _ _ ED) as (p & Hp & Hp'). unfold andthen. rewrite Hp, <- app_assoc, Hp'. exact Hs.
    + injection He as ->. destruct (HF r Hr Hl Em (HX0 _ _ Hy)) as (b & s & v & Hb & H64 & Bs & Hs & Hv).
      destruct (HS v Hv) as (t & w & Bt & Ht & Hw). exists b, (s ++ t), w. do 2 (split; [assumption|]).
      split; [apply Forall_app; split; assumption|]. split; [|exact Hw]. unfold andthen.
      destruct (HL _ _ _ Hs) as (p & Hp & Hp'). rewrite app_nil_r in Hp.
      replace (octets (view r) ++ b :: s ++ t) with ((octets (view r) ++ b :: s) ++ t) by (rewrite <- app_assoc; reflexivity).
      rewrite Hp, Hp'. exact Ht.
Qed.
Lemma LivT_bind {A B} (m : reader A) (f : A -> reader B) D K P Q (X : A -> list N -> N -> Prop) (Y : list N -> N -> Prop) :
  LivT m D P Any2 -> (forall v, LivT (f v) (K v) Q (X v)) -> (forall v, P v -> St (K v) Q) ->
  (forall l v rest w, D l = Some (v, rest) -> Y l w -> X v rest w) -> LivT (bind m f) (andthen D K) Q Y.
Proof. intros H G HS HX. eapply LivT_bindX; [exact H|exact G|exact HS|intros l w _; exact I|exact HX]. Qed.
Lemma LivT_then {A B} (m : reader A) (f : A -> reader B) D K Q :
  LivT m D Any Any2 -> (forall v, LivT (f v) (K v) Q Any2) -> (forall v, St (K v) Q) -> LivT (bind m f) (andthen D K) Q Any2.
Proof. intros H G HS. eapply LivT_bind with (P := Any) (X := fun _ => Any2); [exact H|exact G|intros v _; apply HS|]. intros. exact I. Qed.
Lemma LivT_group {A} (m : reader A) D P (X : list N -> N -> Prop) : Dec m D -> Loc D -> NI 8 m ->
  (forall w, w < 4 -> X [] w -> exists b v, b < 256 /\ b / 64 = w /\ D [b] = Some (v, []) /\ P v) -> LivT m D P X.
Proof.
  intros HD HL HN HS. split; [exact HD|]. split; [exact HL|]. intros r Hr Hl He HX.
  destruct (Nat.le_gt_cases 8 (length (view r))) as [L|L].
  - specialize (HN r Hr L). rewrite He in HN. contradiction.
  - rewrite octets_short in * by exact L. destruct (HS _ (tail2_bound r Hl) HX) as (b & v & Hb & H64 & H & Hv).
    exists b, [], v. repeat split; try assumption. constructor.
Qed.
Lemma four w : w < 4 -> w = 0 \/ w = 1 \/ w = 2 \/ w = 3.
Proof. lia. Qed.
Ltac byte b := exists b; eexists; split; [reflexivity|split; [reflexivity|split; [vm_compute; reflexivity|exact I]]].
Lemma LivT_block {A} (m : reader A) n (f : list N -> A) : Dec m (let* l := some_bytes n in give (f l)) ->
  (forall r, RWf r -> (8 * N.to_nat n <= length (view r))%nat -> m r <> Err EIncomplete) -> LivT m (let* l := some_bytes n in give (f l)) Any Any2.
Proof.
  intros HD HN. split; [exact HD|]. split; [loc|]. intros r Hr Hl He _. pose proof (tail2_bound r Hl) as B.
  destruct (Nat.le_gt_cases (8 * N.to_nat n) (length (view r))) as [L|L]; [destruct (HN r Hr L He)|].
  assert (Lo : (length (octets (view r)) < N.to_nat n)%nat) by (rewrite octets_length; clear - L; divlia).
  exists (64 * tail2 r), (repeat 0 (N.to_nat n - length (octets (view r)) - 1)). eexists. split; [lia|]. split; [clear - B; divlia|].
  split; [apply bytes_repeat|]. split; [|exact I]. unfold andthen, some_bytes.
  rewrite app_length. cbn [length]. rewrite repeat_length.
  destruct (N.leb_spec n (N.of_nat (length (octets (view r)) + S (N.to_nat n - length (octets (view r)) - 1)))) as [K|K]; [|lia].
  rewrite firstn_all2, skipn_all2 by (rewrite app_length; cbn [length]; rewrite repeat_length; lia). reflexivity.
Qed.
Lemma LivT_byte : LivT read_u8 one Any Any2.
Proof.
  apply LivT_group; [exact Dec_u8|apply Loc_one|exact (NI_uint 8)|]. intros w Hw _. exists (64 * w), (64 * w).
  split; [lia|]. split; [clear; divlia|]. split; [reflexivity|exact I].
Qed.
Lemma LivT_num k : LivT (read_uint (8 * k)) (num (N.of_nat k)) Any Any2.
Proof.
  apply LivT_block; [apply Dec_num|]. intros r Hr L. rewrite read_uint_ok by (try exact Hr; lia). discriminate.
Qed.
Lemma LivT_pad k : LivT (skip_bits (8 * k)) (let* l := some_bytes (N.of_nat k) in give tt) Any Any2.
Proof.
  apply (LivT_block _ _ (fun _ => tt)); [apply Dec_pad|]. intros r Hr L. unfold skip_bits, bind. rewrite read_bits_ok by (try exact Hr; lia). discriminate.
Qed.
Lemma LivT_native {E : Env} k : LivT (read_native k) (host_num (N.of_nat k)) Any Any2.
Proof.
  apply LivT_block; [apply Dec_native|]. intros r Hr L. unfold read_native, bind. rewrite read_bits_ok by (try exact Hr; lia). discriminate.
Qed.
Lemma LivT_flat {A B} (m : reader A) D (f : A -> B) D' X : LivT m D Any X -> (forall l, D' l = (let* v := D in give (f v)) l) ->
  LivT (v <- m ;; ret (f v)) D' Any X.
Proof.
  intros H G. eapply LivT_ext with (m := v <- m ;; ret (f v)) (X := X); [|reflexivity|exact G|auto].
  eapply LivT_bindX with (P := Any) (X := fun _ _ _ => True); [exact H|intros; apply LivT_ret|intros; apply St_give; exact I|auto|auto].
Qed.
Lemma LivT_vec n : LivT (read_vec_u8 n) (some_bytes n) Any Any2.
Proof.
  eapply LivT_ext with (m := read_vec_u8 n) (D := let* l := some_bytes n in give l) (X := Any2); [|reflexivity| |auto].
  - apply (LivT_block _ n (fun l => l)).
    + eapply Dec_ext; [apply (Dec_vec n)|reflexivity|]. intros l. unfold andthen. destruct (some_bytes n l) as [[? ?]|]; reflexivity.
    + intros r Hr L He. pose proof (Dec_vec n r Hr) as H. unfold DecAt, some_bytes in H. rewrite octets_length in H.
      destruct (N.leb_spec n (N.of_nat (Nat.div (length (view r)) 8))) as [K|K]; [destruct H as (k & _ & _ & H); congruence|].
      clear - L K. divlia.
  - intros l. unfold andthen. destruct (some_bytes n l) as [[? ?]|]; reflexivity.
Qed.
Lemma LivT_bytes n : LivT (read_list n read_u8) (some_bytes (N.of_nat n)) Any Any2.
Proof.
  eapply LivT_ext with (m := read_list n read_u8) (D := let* l := some_bytes (N.of_nat n) in give l) (X := Any2); [|reflexivity| |auto].
  - apply (LivT_block _ (N.of_nat n) (fun l => l)).
    + eapply Dec_ext; [apply (Dec_bytes n)|reflexivity|]. intros l. unfold andthen. destruct (some_bytes _ l) as [[? ?]|]; reflexivity.
    + intros r Hr L He. pose proof (Dec_bytes n r Hr) as H. unfold DecAt, some_bytes in H. rewrite octets_length in H.
      destruct (N.leb_spec (N.of_nat n) (N.of_nat (Nat.div (length (view r)) 8))) as [K|K]; [destruct H as (k & _ & _ & H); congruence|].
      clear - L K. divlia.
  - intros l. unfold andthen. destruct (some_bytes _ l) as [[? ?]|]; reflexivity.
Qed.
Lemma LivT_length : LivT read_length dec_length Any Any2.
Proof.
  split; [exact Dec_length|]. split; [apply Loc_length|]. intros r Hr Hl He _. pose proof (tail2_bound r Hl) as B.
  pose proof (Dec_length r Hr) as H. unfold DecAt in H.
  destruct (octets (view r)) as [|b tl] eqn:Eo.
  - exists (64 * tail2 r), (repeat 0 (N.to_nat (tail2 r))). eexists. split; [lia|]. split; [clear - B; divlia|].
    split; [apply bytes_repeat|]. split; [|exact I]. cbn [app]. unfold dec_length, andthen, one.
    replace (64 * tail2 r / 64) with (tail2 r) by (clear - B; divlia). unfold num, andthen, some_bytes. rewrite repeat_length.
    destruct (N.leb_spec (tail2 r) (N.of_nat (N.to_nat (tail2 r)))); [|lia].
    rewrite firstn_all2, skipn_all2 by (rewrite repeat_length; lia). reflexivity.
  - unfold dec_length, andthen, one in H. unfold num, andthen in H.
    destruct (some_bytes (b / 64) tl) as [[x y]|] eqn:Es; [destruct H as (k & _ & _ & H); congruence|].
    assert (Ln : (length tl < N.to_nat (b / 64))%nat) by (unfold some_bytes in Es; destruct (N.leb_spec (b / 64) (N.of_nat (length tl))); [discriminate|lia]).
    exists (64 * tail2 r), (repeat 0 (N.to_nat (b / 64) - length tl - 1)). eexists. split; [lia|]. split; [clear - B; divlia|].
    split; [apply bytes_repeat|]. split; [|exact I]. cbn [app]. unfold dec_length, andthen, one. unfold num, andthen, some_bytes.
    rewrite app_length. cbn [length]. rewrite repeat_length.
    destruct (N.leb_spec (b / 64) (N.of_nat (length tl + S (N.to_nat (b / 64) - length tl - 1)))); [|lia].
    rewrite firstn_all2, skipn_all2 by (rewrite app_length; cbn [length]; rewrite repeat_length; lia). reflexivity.
Qed.

(** ** Parts *)
Lemma LivT_channel_header : LivT read_channel_header dec_channel_header Any Any2.
Proof.
  apply LivT_group; [exact Dec_channel_header|loc|ni|]. intros w Hw _.
  destruct (four w Hw) as [->|[->|[->| ->]]]; [byte 0|byte 64|byte 128|byte 192].
Qed.
Lemma LivT_channel : LivT read_channel dec_channel Any Any2.
Proof.
  unfold read_channel, dec_channel. apply LivT_then; [exact LivT_channel_header|intros h|intros h; st].
  apply LivT_then; [exact (LivT_num 2)|intros i; apply LivT_ret|intros i; st].
Qed.
Lemma LivT_final : LivT read_final_status_code dec_final Any (fun q w => q = [] -> w = 0 \/ w = 3).
Proof.
  apply LivT_group; [exact Dec_final|unfold dec_final; loc|unfold read_final_status_code; ni|]. intros w Hw H.
  destruct (H eq_refl) as [->| ->]; [byte 0|byte 255].
Qed.
Lemma LivT_i8 : LivT read_i8 signed Any Any2.
Proof. apply LivT_then; [exact LivT_byte|intros; apply LivT_ret|intros; apply St_give; exact I]. Qed.
Lemma LivT_control {E : Env} : e_feat = Wizzilab -> LivT g_control d_control Any Any2.
Proof.
  intros HW. apply LivT_group; [exact Dec_control|unfold d_control; loc| |].
  - destruct E as [f h w]. unfold g_control, is_wizzilab, read_nls_method, nls_bits, is_wizzilab, read_group_condition, read_address_type.
    cbn [e_feat] in *. subst f. ni.
  - intros w Hw _. destruct E as [f h w']. cbn [e_feat] in HW. subst f.
    destruct (four w Hw) as [->|[->|[->| ->]]]; [byte 16|byte 80|byte 144|byte 208].
Qed.
Lemma LivT_access_class : LivT read_access_class (let* k := one in give (mkAccessClass (part 4 4 k) (part 0 4 k))) Any Any2.
Proof.
  apply LivT_group; [exact Dec_access_class|loc|ni|]. intros w Hw _.
  destruct (four w Hw) as [->|[->|[->| ->]]]; [byte 0|byte 64|byte 128|byte 192].
Qed.
Lemma LivT_varint : LivT read_varint dec_varint Any Any2.
Proof.
  apply LivT_group; [exact Dec_varint|loc|unfold read_varint; ni; apply NI_fail; match goal with v : varint_error |- _ => destruct v; discriminate end|]. intros w Hw _.
  destruct (four w Hw) as [->|[->|[->| ->]]]; [byte 0|byte 64|byte 128|byte 192].
Qed.
Ltac flatT L := eapply LivT_flat; [exact L|reflexivity].
Lemma LivT_address t : LivT (read_address t) (dec_address t) Any Any2.
Proof.
  destruct t; cbn [read_address dec_address].
  - flatT LivT_varint.
  - apply LivT_ret.
  - flatT (LivT_num 8).
  - flatT (LivT_num 2).
Qed.
Lemma LivT_nls_state n : LivT (read_nls_state n) (dec_nls_state n) Any Any2.
Proof. destruct n; cbn [read_nls_state dec_nls_state]; first [apply LivT_ret|flatT (LivT_bytes 5)]. Qed.
Lemma LivT_addressee {E : Env} : e_feat = Wizzilab -> LivT read_addressee dec_addressee Any Any2.
Proof.
  intros HW. eapply LivT_ext with (m := x <- g_control ;; c <- read_access_class ;; a <- read_address (snd (fst (fst x))) ;;
     s <- read_nls_state (snd x) ;;
     ret (mkAddressee (fst (fst (fst x))) (snd (fst (fst x))) (snd (fst x)) (snd x) c a s))
    (D := let* x := d_control in let* c := (let* k := one in give (mkAccessClass (part 4 4 k) (part 0 4 k))) in
     let* a := dec_address (snd (fst (fst x))) in let* s := dec_nls_state (snd x) in
     give (mkAddressee (fst (fst (fst x))) (snd (fst (fst x))) (snd (fst x)) (snd x) c a s)) (X := Any2).
  - apply LivT_then; [apply LivT_control; exact HW|intros x|intros x; st].
    apply LivT_then; [exact LivT_access_class|intros c|intros c; st].
    apply LivT_then; [apply LivT_address|intros a|intros a; st].
    apply LivT_then; [apply LivT_nls_state|intros s; apply LivT_ret|intros s; st].
  - unfold read_addressee, g_control. destruct E as [[] h w]; unfold is_wizzilab; cbn [e_feat]; rsame.
  - intros l. unfold dec_addressee, d_control. destruct E as [[] h w]; cbn [e_feat]; revert l; dsame.
  - auto.
Qed.
(** The error code of a transmission. *)
Definition code_ok (l : list N) (w : N) : Prop := forall c x, dec_channel l = Some (c, [x]) -> w = 0 \/ w = 3.
Lemma LivT_dash7_tx {E : Env} : e_feat = Wizzilab -> LivT read_dash7_tx_status dec_dash7_tx Any code_ok.
Proof.
  intros HW.
  eapply LivT_ext with (m := read_dash7_tx_status)
   (D := let* c := dec_channel in let* l := signed in let* e := dec_final in
  let* pad := (let* l := some_bytes 3 in give tt) in
  let* t := host_num 4 in let* a := dec_addressee in
  give (mkDash7TxStatus c l e t a)) (X := code_ok); [|reflexivity|unfold dec_dash7_tx; dsame|auto].
  unfold read_dash7_tx_status.
  eapply LivT_bind with (P := Any) (X := fun c q w => forall x, q = [x] -> w = 0 \/ w = 3); [exact LivT_channel| |intros; st|].
  2: { intros l v rest w H HY x ->. eapply HY. exact H. }
  intros c. eapply LivT_bind with (P := Any) (X := fun c q w => q = [] -> w = 0 \/ w = 3); [exact LivT_i8| |intros; st|].
  2: { intros l v rest w H HY ->. destruct l as [|x l]; [discriminate|]. unfold signed, andthen, one, give in H.
       assert (l = []) as -> by congruence. eapply HY. reflexivity. }
  intros l. eapply LivT_bindX with (P := Any) (X0 := fun q w => q = [] -> w = 0 \/ w = 3) (X := fun _ => Any2); [exact LivT_final| |intros; st|auto|intros; exact I].
  intros e. apply LivT_then; [exact (LivT_pad 3)|intros p|intros p; st].
  apply LivT_then; [exact (LivT_native 4)|intros t|intros t; st].
  apply LivT_then; [apply LivT_addressee; exact HW|intros a; apply LivT_ret|intros a; st].
Qed.
Definition body_ok (q : list N) (w : N) : Prop := forall l n l2, q = 0xD7 :: l -> dec_length l = Some (n, l2) -> code_ok l2 w.
Lemma LivT_tx_body {E : Env} op : e_feat = Wizzilab -> LivT (i <- read_u8 ;; l <- read_length ;; s <- read_interface_tx_status i l ;;
   ret (ATxStatus (mkTxStatusOp op i s))) (let* v := dec_tx_body op in give (ATxStatus v)) Any body_ok.
Proof.
  intros HW. eapply LivT_ext with (m := i <- read_u8 ;; l <- read_length ;;
     if i =? 0xD7 then s <- read_dash7_tx_status ;; ret (ATxStatus (mkTxStatusOp op i (TxDash7 s)))
     else s <- read_vec_u8 l ;; ret (ATxStatus (mkTxStatusOp op i (TxOther s))))
    (D := let* i := one in let* n := dec_length in
     if i =? 0xD7 then let* s := dec_dash7_tx in give (ATxStatus (mkTxStatusOp op i (TxDash7 s)))
     else let* s := some_bytes n in give (ATxStatus (mkTxStatusOp op i (TxOther s)))) (X := body_ok).
  - eapply LivT_bind with (P := Any) (X := fun i l w => i = 0xD7 -> forall n l2, dec_length l = Some (n, l2) -> code_ok l2 w); [exact LivT_byte| | |].
    + intros i. eapply LivT_bind with (P := Any) (X := fun n l w => i = 0xD7 -> code_ok l w); [exact LivT_length| | |].
      * intros n. destruct (N.eqb_spec i 0xD7) as [Hi|Hi].
        -- eapply LivT_bindX with (P := Any) (X0 := code_ok) (X := fun _ => Any2); [apply LivT_dash7_tx; exact HW|intros; apply LivT_ret|intros; st|auto|intros; exact I].
        -- eapply LivT_bindX with (P := Any) (X0 := Any2) (X := fun _ => Any2); [apply LivT_vec|intros; apply LivT_ret|intros; st|intros; exact I|intros; exact I].
      * intros n _. destruct (i =? 0xD7); [|st]. apply St_bind with (P := Any); [loc| |intros; st]. unfold dec_dash7_tx. st.
      * intros l n rest w H HY Hi. eapply HY; eassumption.
    + intros i _. apply St_bind with (P := Any); [loc|st|]. intros n _. destruct (i =? 0xD7); [|st].
      apply St_bind with (P := Any); [loc| |intros; st]. unfold dec_dash7_tx. st.
    + intros l i rest w H HY -> n l2 Hn. destruct l as [|b l]; [discriminate|]. unfold one in H.
      assert (b = 0xD7 /\ l = rest) as [-> ->] by (split; congruence). eapply HY; [reflexivity|exact Hn].
  - intros r Hr. apply bind_ext. intros i r1. apply bind_ext. intros n r2. unfold read_interface_tx_status.
    destruct (i =? 0xD7); rewrite bind_bind; reflexivity.
  - intros l. unfold dec_tx_body. rewrite andthen_andthen. apply andthen_ext. intros i l1.
    rewrite andthen_andthen. apply andthen_ext. intros n l2. destruct (i =? 0xD7); rewrite andthen_andthen; reflexivity.
  - auto.
Qed.

(** ** The operand *)
Definition tx_reader {E : Env} : reader action := v <- read_tx_status_op ;; ret (ATxStatus v).
Definition tx_body {E : Env} (op : N) : reader action :=
  i <- read_u8 ;; l <- read_length ;; s <- read_interface_tx_status i l ;; ret (ATxStatus (mkTxStatusOp op i s)).
Lemma last2 l : Nat.modulo (length l) 8 = 0%nat -> l <> [] ->
  N_of_bits (skipn (8 * length (octets (skipn 6 l))) (skipn 6 l)) = last (octets l) 0 mod 4.
Proof.
  induction l as [l Hl|x l Hx IH] using octet_ind; intros M NE.
  - rewrite Nat.mod_small in M by exact Hl. destruct l; [contradiction|discriminate].
  - assert (M' : Nat.modulo (length l) 8 = 0%nat) by (rewrite app_length, Hx in M; clear - M; divlia).
    rewrite octets_shift by exact M. rewrite (octets_cons x) by exact Hx. rewrite shifted_length. cbn [length Nat.pred].
    destruct l as [|z l].
    + rewrite app_nil_r. cbn [octets length last]. change (8 * 0)%nat with 0%nat. rewrite skipn_O. destruct (octet_parts x Hx) as (_ & _ & _ & -> & _). reflexivity.
    + specialize (IH M' ltac:(discriminate)). rewrite octets_shift in IH by exact M'. rewrite shifted_length in IH.
      set (w := z :: l) in *. assert (Lw : (8 <= length w)%nat).
      { destruct (Nat.ltb_spec (length w) 8) as [L|L]; [|exact L]. rewrite Nat.mod_small in M' by exact L. discriminate. }
      assert (Lo : (1 <= length (octets w))%nat) by (rewrite octets_length; clear - Lw; divlia).
      destruct (octets w) as [|c ow] eqn:Eo; [cbn [length] in Lo; lia|].
      cbn [length] in *. rewrite skipn_skipn in *. rewrite skipn_app, (skipn_all2 x) by lia. cbn [app].
      match goal with |- N_of_bits (skipn ?a _) = _ => replace a with (6 + 8 * length ow)%nat by lia end.
      match type of IH with N_of_bits (skipn ?a _) = _ => replace a with (6 + 8 * length ow)%nat in IH by lia end.
      exact IH.
Qed.
Lemma tx_at {E : Env} r h tl : RWf r -> left r = [] -> octets (view r) = h :: tl ->
  (part 6 2 h <> 1 -> tx_reader r = Err EParse) /\
  (part 6 2 h = 1 -> tl = [] -> tx_reader r = Err EIncomplete) /\
  (part 6 2 h = 1 -> forall o l, tl = o :: l -> exists r1, RWf r1 /\ two_left r1 /\ octets (view r1) = shifted tl
     /\ tail2 r1 = last tl 0 mod 4 /\ tx_reader r = tx_body (part 2 6 o) r1).
Proof.
  intros Hr Hl Ho. pose proof (view_octets r Hr Hl) as M.
  assert (L : (8 <= length (view r))%nat).
  { destruct (Nat.ltb_spec (length (view r)) 8) as [L|L]; [|exact L]. rewrite octets_short in Ho by exact L. discriminate. }
  assert (Ex : exists x l, view r = x ++ l /\ length x = 8%nat)
    by (exists (firstn 8 (view r)), (skipn 8 (view r)); rewrite firstn_skipn, firstn_length; split; [reflexivity|lia]).
  destruct Ex as (x & l & V & Hx). rewrite V, (octets_cons x) in Ho by exact Hx. injection Ho as Hh Htl. subst h.
  assert (Ml : Nat.modulo (length l) 8 = 0%nat) by (rewrite V, app_length, Hx in M; clear - M; divlia).
  assert (R1 : read_uint 2 r = Ok (part 6 2 (N_of_bits x), adv r 2)).
  { rewrite read_uint_ok by (try exact Hr; lia). rewrite V, firstn_short by lia.
    destruct (octet_parts x Hx) as (-> & _). reflexivity. }
  assert (W2 : RWf (adv r 2)) by (apply RWf_adv; [exact Hr|lia]).
  assert (R2 : skip_bits 6 (adv r 2) = Ok (tt, adv r 8)).
  { unfold skip_bits, bind. rewrite read_bits_ok by (try exact W2; rewrite view_adv, skipn_length by (try exact Hr; lia); lia).
    rewrite adv_adv by (try exact Hr; lia). reflexivity. }
  assert (W8 : RWf (adv r 8)) by (apply RWf_adv; [exact Hr|lia]).
  assert (V8 : view (adv r 8) = l).
  { rewrite view_adv by (try exact Hr; lia). rewrite V, skipn_app, skipn_all2, Hx by lia. reflexivity. }
  split; [|split].
  - intros N1. unfold tx_reader, read_tx_status_op, read_enum, bind. rewrite R1. cbn [assoc].
    destruct (N.eqb_spec (part 6 2 (N_of_bits x)) 1); [contradiction|]. reflexivity.
  - intros E1 ->. assert (l = []) as ->.
    { destruct (Nat.ltb_spec (length l) 8) as [L2|L2].
      - rewrite Nat.mod_small in Ml by exact L2. destruct l; [reflexivity|discriminate].
      - apply (f_equal (@length N)) in Htl. rewrite octets_length in Htl. cbn [length] in Htl. exfalso. revert Htl L2. clear. intros. divlia. }
    unfold tx_reader, read_tx_status_op, read_enum, bind. rewrite R1. cbn [assoc]. rewrite E1. cbn [N.eqb Pos.eqb].
    unfold ret. rewrite R2. unfold read_opcode. rewrite read_uint_err by (try exact W8; rewrite V8; cbn; lia). reflexivity.
  - intros E1 o l0 ->.
    assert (L2 : (8 <= length l)%nat).
    { destruct (Nat.ltb_spec (length l) 8) as [L2|L2]; [|exact L2]. rewrite octets_short in Htl by exact L2. discriminate. }
    assert (Ey : exists y l', l = y ++ l' /\ length y = 8%nat)
      by (exists (firstn 8 l), (skipn 8 l); rewrite firstn_skipn, firstn_length; split; [reflexivity|lia]).
    destruct Ey as (y & l' & El & Hy).
    assert (Hy' : N_of_bits y = o) by (rewrite El, (octets_cons y) in Htl by exact Hy; congruence). subst o.
    assert (R3 : read_opcode (adv r 8) = Ok (part 2 6 (N_of_bits y), adv r 14)).
    { unfold read_opcode. rewrite read_uint_ok by (try exact W8; rewrite V8; lia). rewrite V8, El, firstn_short by lia.
      destruct (octet_parts y Hy) as (_ & -> & _). rewrite adv_adv by (try exact Hr; lia). reflexivity. }
    assert (LV : length (view r) = (8 + length l)%nat) by (rewrite V, app_length, Hx; reflexivity).
    assert (W14 : RWf (adv r 14)) by (apply RWf_adv; [exact Hr|lia]).
    assert (V14 : view (adv r 14) = skipn 6 l).
    { change 14%nat with (8 + 6)%nat. rewrite <- adv_adv by (try exact Hr; lia).
      rewrite view_adv by (try exact W8; rewrite V8; lia). rewrite V8. reflexivity. }
    exists (adv r 14). split; [exact W14|]. unfold two_left, tail2. rewrite V14.
    split; [rewrite skipn_length; clear - Ml L2; divlia|].
    split; [rewrite octets_shift by exact Ml; rewrite Htl; reflexivity|].
    split; [rewrite last2, Htl; [reflexivity|exact Ml|intros ->; cbn [length] in L2; lia]|].
    unfold tx_reader, tx_body, read_tx_status_op. rewrite !bind_bind. unfold bind at 1. unfold read_enum. unfold bind at 1. rewrite R1.
    cbn [assoc]. rewrite E1. cbn [N.eqb Pos.eqb]. unfold ret at 1. cbn beta iota. rewrite !bind_bind. unfold bind at 1. rewrite R2.
    cbn beta iota. rewrite !bind_bind. unfold bind at 1. rewrite R3. cbn beta iota.
    rewrite bind_bind. apply bind_ext. intros i r1. rewrite bind_bind. apply bind_ext. intros n r2.
    rewrite bind_bind. reflexivity.
Qed.

(** Input for given shifted bytes. *)
Fixpoint unshift (b : N) (s : list N) : list N :=
  match s with [] => [b mod 64 * 4] | c :: s => (b mod 64 * 4 + c / 64) :: unshift c s end.
Lemma unshift_spec s : forall a b, bytes (b :: s) -> a mod 4 = b / 64 -> bytes (unshift b s) /\ shifted (a :: unshift b s) = b :: s.
Proof.
  induction s as [|c s IH]; intros a b Hb Ha; apply Forall_cons_iff in Hb as [Hb Hs].
  - cbn [unshift]. unfold byte in Hb. assert (B : b mod 64 * 4 < 256) by (clear - Hb; divlia).
    split; [constructor; [exact B|constructor]|]. cbn [shifted]. rewrite Ha. f_equal. clear - Hb. divlia.
  - cbn [unshift]. pose proof (proj1 (proj1 (Forall_cons_iff _ _ _) Hs)) as Hc. unfold byte in Hb, Hc. assert (B0 : b mod 64 * 4 + c / 64 < 256) by (clear - Hb Hc; divlia).
    assert (Hm : (b mod 64 * 4 + c / 64) mod 4 = c / 64) by (clear - Hb Hc; divlia).
    destruct (IH (b mod 64 * 4 + c / 64) c Hs Hm) as [B R].
    split; [constructor; [exact B0|exact B]|]. change (shifted (a :: (b mod 64 * 4 + c / 64) :: unshift c s)) with
      ((a mod 4 * 64 + (b mod 64 * 4 + c / 64) / 4) :: shifted ((b mod 64 * 4 + c / 64) :: unshift c s)).
    rewrite R, Ha. f_equal. clear - Hb Hc. divlia.
Qed.
Lemma shifted_app tl t : tl <> [] -> shifted (tl ++ t) = shifted tl ++ shifted (last tl 0 :: t).
Proof.
  induction tl as [|a tl IH]; intros H; [contradiction|]. destruct tl as [|b tl]; [destruct t; reflexivity|].
  change ((a :: b :: tl) ++ t) with (a :: b :: (tl ++ t)). change (last (a :: b :: tl) 0) with (last (b :: tl) 0).
  change (shifted (a :: b :: tl ++ t)) with ((a mod 4 * 64 + b / 4) :: shifted ((b :: tl) ++ t)).
  rewrite IH by discriminate. reflexivity.
Qed.
