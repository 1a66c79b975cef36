(** Lemmas for C28. *)
From Coq Require Import List NArith ZArith Bool Lia Arith.
From Verif Require Import Base Deku Utils Types Physical Link Network Session Data Query Interface File
  Operation Action Command Frames SpecApi SpecHost LBits LReader.
Import ListNotations.
Open Scope N_scope.

(** ** Writing *)
Lemma octets_inj a : forall b, length a = length b -> bytes_of_bits a = bytes_of_bits b -> a = b.
Proof.
  induction a as [a Ha|x a Hx IH] using octet_ind; intros b Hl H.
  - assert (K : forall l, (length l < 8)%nat -> l <> [] -> bytes_of_bits l = [N_of_bits (l ++ repeat false (8 - length l))]).
    { intros l Hs Hn. do 8 (destruct l as [|? l]; [try reflexivity; congruence|]). cbn [length] in Hs. lia. }
    destruct a as [|a0 a]; [destruct b; [reflexivity|discriminate]|]. destruct b as [|b0 b]; [discriminate|].
    rewrite (K (a0 :: a)), (K (b0 :: b)) in H by (congruence || lia).
    rewrite Hl in H. assert (H' : forall p q : N, [p] = [q] -> p = q) by congruence. apply H' in H. apply N_of_bits_inj in H; [|rewrite !app_length; congruence].
    apply app_inv_tail in H. exact H.
  - rewrite app_length, Hx in Hl. rewrite <- (firstn_skipn 8 b) in H |- *.
    assert (H8 : length (firstn 8 b) = 8%nat) by (rewrite firstn_length; lia).
    rewrite !bytes_of_bits_cons8 in H by assumption.
    assert (H' : forall (p q : N) l l', p :: l = q :: l' -> p = q /\ l = l') by (intros; split; congruence).
    apply H' in H. destruct H as [H1 H2]. f_equal.
    + apply N_of_bits_inj; [congruence|exact H1].
    + apply IH; [|exact H2]. rewrite skipn_length. lia.
Qed.

Definition WH (a b : writer) (fs : list (nat * N)) : Prop :=
  match a, b with
  | Ok x, Ok y => length x = length y /\ (x = y <-> Forall symmetric fs)
  | Err e, Err f => e = f
  | Panic, Panic => True
  | _, _ => False
  end.
Lemma WH_same w : WH w w [].
Proof. destruct w; cbn; [|reflexivity|exact I]. split; [reflexivity|]. split; [constructor|reflexivity]. Qed.
Lemma WH_seq a b c d fs gs : WH a b fs -> WH c d gs -> WH (a +++ c) (b +++ d) (fs ++ gs).
Proof.
  unfold WH, wseq. destruct a as [x| |], b as [y| |]; cbn [rbind]; try tauto.
  destruct c as [x'| |], d as [y'| |]; cbn [rbind]; try tauto.
  intros [L1 H1] [L2 H2]. rewrite !app_length. split; [lia|]. rewrite Forall_app, <- H1, <- H2. split.
  - intros H. assert (x = y).
    { rewrite <- (firstn_all2 (n := length x) x), <- (firstn_all2 (n := length x) y) by lia.
      apply (f_equal (firstn (length x))) in H. rewrite !firstn_app in H.
      replace (length x - length x)%nat with O in H by lia. replace (length x - length y)%nat with O in H by lia.
      cbn [firstn] in H. rewrite !app_nil_r in H. exact H. }
    subst y. apply app_inv_head in H. auto.
  - intros [-> ->]. reflexivity.
Qed.
Lemma WH_app a b fs gs hs : WH a b gs -> gs = fs ++ hs -> WH a b (fs ++ hs).
Proof. intros H <-. exact H. Qed.
Lemma WH_native E k v : WH (@write_native (on Little E) k v) (@write_native (on Big E) k v) [(k, v)].
Proof.
  unfold WH, write_native, to_host, on. cbn [e_host]. unfold le_bytes.
  rewrite !bits_of_bytes_length, rev_length. split; [reflexivity|]. split.
  - intros H. constructor; [|constructor]. unfold symmetric. cbn [fst snd].
    apply bits_of_bytes_inj; [|apply be_bytes_bytes|exact H]. apply Forall_rev, be_bytes_bytes.
  - intros H. inversion_clear H as [|? ? H1 _]. unfold symmetric in H1. cbn [fst snd] in H1. rewrite H1. reflexivity.
Qed.
Lemma WH_prefixed a b fs : WH a b fs -> WH (write_length_prefixed a) (write_length_prefixed b) fs.
Proof.
  unfold WH at 1, write_length_prefixed, to_bytes. destruct a as [x| |], b as [y| |]; cbn [rbind]; try tauto.
  intros [L H].
  assert (Lb : length (bytes_of_bits x) = length (bytes_of_bits y)).
  { clear H. revert y L. induction x as [x Hx|p x Hp IH] using octet_ind; intros y L.
    - do 8 (destruct x as [|? x]; [do 8 (destruct y as [|? y]; [try discriminate; reflexivity|]); discriminate|]). cbn [length] in Hx. lia.
    - rewrite app_length, Hp in L. rewrite <- (firstn_skipn 8 y).
      rewrite !bytes_of_bits_cons8 by (assumption || (rewrite firstn_length; lia)). cbn [length]. f_equal. apply IH.
      rewrite skipn_length. lia. }
  rewrite Lb. unfold write_buf, write_vec_u8. rewrite !write_bytes.
  assert (K : WH (Ok (bits_of_bytes (bytes_of_bits x))) (Ok (bits_of_bytes (bytes_of_bits y))) fs).
  { cbn. rewrite !bits_of_bytes_length. split; [lia|]. rewrite <- H. split; [|intros ->; reflexivity].
    intros K. apply bits_of_bytes_inj in K; try apply bytes_of_bits_bytes. apply octets_inj; assumption. }
  exact (WH_seq _ _ _ _ [] fs (WH_same _) K).
Qed.
Lemma WH_list {A} (w w' : A -> writer) (f : A -> list (nat * N)) l :
  (forall x, WH (w x) (w' x) (f x)) -> WH (write_list w l) (write_list w' l) (flat_map f l).
Proof. intros H. induction l as [|x l IH]; cbn [write_list flat_map]; [apply WH_same|]. apply WH_seq; [apply H|exact IH]. Qed.

(** Fields that do not depend on the host first, then the rest. *)
Lemma WH_skip w a b fs : WH a b fs -> WH (w +++ a) (w +++ b) fs.
Proof. apply (WH_seq w w a b [] fs), WH_same. Qed.
Lemma WH_last a b w fs : WH a b fs -> WH (a +++ w) (b +++ w) fs.
Proof. intros H. rewrite <- (app_nil_r fs). apply WH_seq; [exact H|apply WH_same]. Qed.

Section Host.
Variable E : Env.
Notation EL := (on Little E).
Notation EB := (on Big E).
Lemma WH_file f : WH (@write_file EL f) (@write_file EB f) (file_natives f).
Proof. destruct f; try exact (WH_same _). apply WH_native. Qed.
Lemma WH_abp c : WH (@write_abp EL c) (@write_abp EB c) (abp_natives c).
Proof.
  unfold write_abp, abp_natives. do 3 apply WH_skip.
  apply (WH_seq _ _ _ _ [_] [_]); apply WH_native.
Qed.
Lemma WH_config c : WH (@write_interface_config EL c) (@write_interface_config EB c) (config_natives c).
Proof. destruct c; try exact (WH_same _). cbn [write_interface_config config_natives]. apply WH_skip, WH_abp. Qed.
Lemma WH_tx s : WH (@write_interface_tx_status EL s) (@write_interface_tx_status EB s) (tx_natives s).
Proof.
  destruct s as [v|]; try exact (WH_same _). cbn [write_interface_tx_status tx_natives]. unfold write_dash7_tx_status.
  do 4 apply WH_skip. apply (WH_last _ _ (@write_addressee EL _)). apply WH_native.
Qed.
Lemma WH_file_data op v : WH (@write_file_data EL op v) (@write_file_data EB op v) (file_natives (fd_data v)).
Proof.
  unfold write_file_data. do 3 apply WH_skip. unfold write_file_payload.
  change (@file_id_try_from EB) with (@file_id_try_from EL). destruct (file_id_try_from _); cbn [rbind]; [|reflexivity|exact I].
  apply WH_prefixed, WH_file.
Qed.
Lemma WH_action a : WH (@write_action EL a) (@write_action EB a) (action_natives a).
Proof.
  destruct a; try exact (WH_same _); cbn [write_action action_natives]; try apply WH_file_data.
  - unfold write_tx_status_op. do 4 apply WH_skip. apply WH_prefixed, WH_tx.
  - unfold write_forward. do 3 apply WH_skip. apply WH_config.
Qed.
Lemma WH_command c : WH (@write_command EL c) (@write_command EB c) (command_natives c).
Proof. apply WH_list, WH_action. Qed.
Lemma WH_bframe f : WH (@write_bframe EL f) (@write_bframe EB f) (bframe_natives f).
Proof. unfold write_bframe. do 3 apply WH_skip. apply (WH_seq _ _ _ _ [_] [_]); apply WH_native. Qed.
Lemma WH_tframe f : WH (@write_tframe EL f) (@write_tframe EB f) (command_natives (tf_command f)).
Proof. unfold write_tframe. do 8 apply WH_skip. apply WH_command. Qed.
Lemma WH_nframe f : WH (@write_nframe EL f) (@write_nframe EB f) (command_natives (tf_command (nf_frame f))).
Proof. unfold write_nframe. do 4 apply WH_skip. apply WH_tframe. Qed.
Lemma WH_fframe f : WH (@write_fframe EL f) (@write_fframe EB f) (fframe_natives f).
Proof. unfold write_fframe. do 5 apply WH_skip. apply WH_seq; [apply WH_nframe|apply WH_native]. Qed.
End Host.

Lemma WH_bytes (w : Env -> writer) E fs : WH (w (on Little E)) (w (on Big E)) fs ->
  (same_bytes w E <-> unwritable w E \/ Forall symmetric fs).
Proof.
  unfold WH, same_bytes, unwritable, to_bytes. destruct (w (on Little E)) as [x| |], (w (on Big E)) as [y| |]; cbn [rbind]; try tauto.
  - intros [L H]. rewrite <- H. split.
    + intros K. right. injection K as K. apply octets_inj; assumption.
    + intros [K|K]; [destruct (K _ eq_refl)|subst y; reflexivity].
  - intros <-. split; [|reflexivity]. intros _. left. discriminate.
  - split; [|reflexivity]. intros _. left. discriminate.
Qed.

(** Everything whose writer does not take the environment's byte order is the same by computation;
    the rest is turned. *)
Lemma turn_twice_bytes k v : rev (be_bytes k (turn k v)) = be_bytes k v.
Proof.
  unfold turn. pose proof (be_N_of_be (rev (be_bytes k v))) as H. rewrite rev_length, be_bytes_length in H.
  rewrite H by (apply Forall_rev, be_bytes_bytes). apply rev_involutive.
Qed.
Lemma turn_native E k v : @write_native (on Big E) k v = @write_native (on Little E) k (turn k v).
Proof. unfold write_native, to_host, on. cbn [e_host]. unfold le_bytes. rewrite turn_twice_bytes. reflexivity. Qed.
Section Turn.
Variable E : Env.
Notation EL := (on Little E).
Notation EB := (on Big E).
Lemma turn_write_file f : @write_file EB f = @write_file EL (turn_file f).
Proof. destruct f; try reflexivity. apply turn_native. Qed.
Lemma turn_write_config c : @write_interface_config EB c = @write_interface_config EL (turn_config c).
Proof. destruct c; try reflexivity. cbn [write_interface_config turn_config]. unfold write_abp. rewrite !turn_native. reflexivity. Qed.
Lemma turn_write_tx s : @write_interface_tx_status EB s = @write_interface_tx_status EL (turn_tx s).
Proof. destruct s; try reflexivity. cbn [write_interface_tx_status turn_tx]. unfold write_dash7_tx_status. rewrite turn_native. reflexivity. Qed.
Lemma turn_write_file_data op v : @write_file_data EB op v = @write_file_data EL op (turn_file_data v).
Proof. unfold write_file_data, write_file_payload. rewrite turn_write_file. reflexivity. Qed.
Lemma turn_write_action a : @write_action EB a = @write_action EL (turn_action a).
Proof.
  destruct a; try reflexivity; cbn [write_action turn_action action_opcode]; try apply turn_write_file_data.
  - unfold write_tx_status_op. rewrite turn_write_tx. reflexivity.
  - unfold write_forward. rewrite turn_write_config. reflexivity.
Qed.
Lemma turn_write_command c : @write_command EB c = @write_command EL (map turn_action c).
Proof.
  unfold write_command. induction c as [|a c IH]; [reflexivity|]. cbn [write_list map]. rewrite IH, turn_write_action. reflexivity.
Qed.
Lemma turn_write_bframe f : @write_bframe EB f = @write_bframe EL (turn_bframe f).
Proof. unfold write_bframe. rewrite !turn_native. reflexivity. Qed.
Lemma turn_write_fframe f : @write_fframe EB f = @write_fframe EL (turn_fframe f).
Proof.
  unfold write_fframe, write_nframe, write_tframe. rewrite !turn_native, turn_write_command. reflexivity.
Qed.
End Turn.

(** ** Reading *)
Definition RH {A} (t : A -> A) (m m' : reader A) : Prop := forall r, turned t (m r) (m' r).
Lemma RH_same {A} (m : reader A) : RH (fun x => x) m m.
Proof. intros r. unfold turned. destruct (m r) as [[v r']| |]; reflexivity. Qed.
Lemma RH_ret {A} (t : A -> A) v : RH t (ret v) (ret (t v)).
Proof. intros r. reflexivity. Qed.
Lemma RH_ret' {A} (t : A -> A) v w : t v = w -> RH t (ret v) (ret w).
Proof. intros <- r. reflexivity. Qed.
Lemma RH_bind {A B} (t : A -> A) (u : B -> B) m m' (k k' : A -> reader B) :
  RH t m m' -> (forall v, RH u (k v) (k' (t v))) -> RH u (bind m k) (bind m' k').
Proof.
  intros H K r. specialize (H r). unfold turned, bind in *. rewrite H. destruct (m r) as [[v r']| |]; [|reflexivity..]. apply K.
Qed.
Lemma RH_bind_same {A B} (u : B -> B) (m : reader A) (k k' : A -> reader B) :
  (forall v, RH u (k v) (k' v)) -> RH u (bind m k) (bind m k').
Proof. intros K. apply (RH_bind (fun x => x)); [apply RH_same|exact K]. Qed.
Lemma read_bits_length n r l r' : read_bits n r = Ok (l, r') -> length l = n.
Proof.
  unfold read_bits. destruct (Nat.leb_spec (pos r + need r n) (length (data r))) as [L|L]; [|discriminate].
  intros H. injection H as <- _. rewrite firstn_length, app_length, bits_of_bytes_length, firstn_length, skipn_length.
  pose proof (need_bounds r n). lia.
Qed.
Lemma RH_native E k : RH (turn k) (@read_native (on Little E) k) (@read_native (on Big E) k).
Proof.
  intros r. unfold turned, read_native, bind. destruct (read_bits (8 * k) r) as [[l r']| |] eqn:H; [|reflexivity..].
  apply read_bits_length in H. unfold ret, of_host, on. cbn [e_host]. unfold N_of_le, turn.
  assert (L : length (bytes_of_bits l) = k) by (apply bytes_of_bits_length; exact H).
  pose proof (be_N_of_be (rev (bytes_of_bits l))) as K. rewrite rev_length, L in K.
  rewrite K by (apply Forall_rev, bytes_of_bits_bytes). rewrite rev_involutive. reflexivity.
Qed.
Lemma RH_assoc {A} (t : A -> A) c l l' :
  Forall2 (fun p q => fst p = fst q /\ RH t (snd p) (snd q)) l l' ->
  RH t (match assoc c l with Some m => m | None => fail EInvalidParam end)
       (match assoc c l' with Some m => m | None => fail EInvalidParam end).
Proof.
  induction 1 as [|[a m] [b m'] l l' [Ha Hm] _ IH]; cbn [assoc]; [intros r; reflexivity|].
  cbn [fst snd] in Ha, Hm. subst b. destruct (c =? a); assumption.
Qed.
Ltac rh := repeat (first [apply RH_bind_same; intros ?|eapply RH_bind; [apply RH_native|intros ?]]); try (apply RH_ret'; reflexivity).
Section Read.
Variable E : Env.
Notation EL := (on Little E).
Notation EB := (on Big E).
Lemma RH_file id n : RH turn_file (@read_file EL id n) (@read_file EB id n).
Proof. destruct id; cbn [read_file]; rh. Qed.
Lemma RH_config : RH turn_config (@read_interface_config EL) (@read_interface_config EB).
Proof.
  unfold read_interface_config. apply RH_bind_same. intros x. cbn [assoc].
  destruct (x =? 0); [rh|]. destruct (x =? 1); [rh|].
  destruct (x =? 2).
  { unfold read_abp. intros r.
    refine (RH_bind (fun c => mkAbp (ab_base c) (ab_nwk_key c) (ab_app_key c) (turn 4 (ab_dev_addr c)) (turn 4 (ab_net_id c)))
              _ _ _ _ _ _ (fun c => RH_ret turn_config (IcAbp c)) r).
    rh. }
  destruct (x =? 3); [rh|]. destruct (x =? 0xD7).
  - apply (RH_bind_same _ (@read_dash7_config EL)). intros c. apply RH_ret'. reflexivity.
  - apply (RH_bind_same _ (@read_id_field EL x)). intros c. apply RH_ret'. reflexivity.
Qed.
Lemma RH_tx i n : RH turn_tx (@read_interface_tx_status EL i n) (@read_interface_tx_status EB i n).
Proof.
  unfold read_interface_tx_status. destruct (i =? 0xD7); [|rh].
  unfold read_dash7_tx_status.
  set (t := fun v => mkDash7TxStatus (tx_channel v) (tx_target_rx_level v) (tx_error v) (turn 4 (tx_lts v)) (tx_addressee v)).
  refine (RH_bind t _ _ _ _ _ _ (fun c => RH_ret turn_tx (TxDash7 c))).
  do 4 (apply RH_bind_same; intros ?). eapply RH_bind; [apply RH_native|]. intros l.
  apply (RH_bind_same _ (@read_addressee EL)). intros a. apply RH_ret'. reflexivity.
Qed.
Lemma RH_file_data : RH turn_file_data (@read_file_data EL) (@read_file_data EB).
Proof.
  unfold read_file_data. do 3 (apply RH_bind_same; intros ?). eapply (RH_bind turn_file).
  - unfold read_file_payload. apply RH_bind_same. intros n r. change (@file_id_try_from EB) with (@file_id_try_from EL).
    destruct (file_id_try_from _); [apply RH_file|reflexivity..].
  - intros f. apply RH_ret'; reflexivity.
Qed.
Lemma RH_action : RH turn_action (@read_action EL) (@read_action EB).
Proof.
  unfold read_action. do 3 (apply RH_bind_same; intros ?). apply RH_assoc. unfold action_readers.
  assert (FD : forall c : file_data -> action, (forall v, turn_action (c v) = c (turn_file_data v)) ->
    RH turn_action (v <- @read_file_data EL ;; ret (c v)) (v <- @read_file_data EB ;; ret (c v))).
  { intros c Hc. eapply RH_bind; [exact RH_file_data|]. intros w. rewrite <- Hc. apply RH_ret. }
  assert (SM : forall T (m : reader T) (c : T -> action), (forall v, turn_action (c v) = c v) ->
    RH turn_action (v <- m ;; ret (c v)) (v <- m ;; ret (c v))).
  { intros T m c Hc. apply RH_bind_same. intros w. rewrite <- (Hc w) at 2. apply RH_ret. }
  assert (TX : RH turn_action (v <- @read_tx_status_op EL ;; ret (ATxStatus v)) (v <- @read_tx_status_op EB ;; ret (ATxStatus v))).
  { set (t := fun v => mkTxStatusOp (txo_opcode v) (txo_itf_id v) (turn_tx (txo_status v))).
    refine (RH_bind t _ _ _ _ _ _ (fun c => RH_ret turn_action (ATxStatus c))).
    unfold read_tx_status_op. do 5 (apply RH_bind_same; intros ?). eapply RH_bind; [apply RH_tx|].
    intros s. apply RH_ret'; reflexivity. }
  assert (FW : RH turn_action (v <- @read_forward EL ;; ret (AForward v)) (v <- @read_forward EB ;; ret (AForward v))).
  { set (t := fun v => mkForward (fw_response v) (fw_opcode v) (turn_config (fw_config v))).
    refine (RH_bind t _ _ _ _ _ _ (fun c => RH_ret turn_action (AForward c))).
    unfold read_forward. do 3 (apply RH_bind_same; intros ?). eapply RH_bind; [apply RH_config|].
    intros s. apply RH_ret'; reflexivity. }
  apply Forall2_app.
  { repeat (apply Forall2_cons; [split; [reflexivity|cbn [snd]; first [apply FD; reflexivity|apply SM; reflexivity]]|]). constructor. }
  apply Forall2_app.
  { change (@is_wizzilab EB) with (@is_wizzilab EL). destruct (@is_wizzilab EL); [|constructor].
    apply Forall2_cons; [split; [reflexivity|exact TX]|constructor]. }
  repeat (apply Forall2_cons; [split; [reflexivity|cbn [snd]; first [apply SM; reflexivity|exact FW
    |exact (SM _ (@read_status_operand EL) AStatus (fun _ => eq_refl))
    |exact (SM _ (@read_indirect_forward EL) AIndirectForward (fun _ => eq_refl))]]|]). constructor.
Qed.
Lemma turn_last acc : last_is_indirect (map turn_action acc) = last_is_indirect acc.
Proof.
  unfold last_is_indirect. rewrite <- map_rev. destruct (rev acc) as [|a l]; [reflexivity|]. destruct a; reflexivity.
Qed.
Lemma RH_actions n : forall fuel acc,
  RH (map turn_action) (@read_actions EL fuel n acc) (@read_actions EB fuel n (map turn_action acc)).
Proof.
  induction fuel as [|fuel IH]; intros acc; cbn [read_actions]; [intros r; reflexivity|].
  apply RH_bind_same. intros []; [|apply RH_ret]. apply RH_bind_same. intros []; [apply RH_ret|].
  rewrite turn_last. destruct (last_is_indirect acc); [apply RH_ret|].
  eapply RH_bind; [apply RH_action|]. intros a. cbn beta. replace (map turn_action acc ++ [turn_action a]) with (map turn_action (acc ++ [a])) by apply map_app.
  apply IH.
Qed.
Lemma RH_command n : RH (map turn_action) (@read_command EL n) (@read_command EB n).
Proof. intros r. exact (RH_actions n _ [] r). Qed.
Lemma RH_bframe : RH turn_bframe (@read_bframe EL) (@read_bframe EB).
Proof. unfold read_bframe. rh. Qed.
Lemma RH_fframe : RH turn_fframe (@read_fframe EL) (@read_fframe EB).
Proof.
  unfold read_fframe. do 5 (apply RH_bind_same; intros ?).
  set (t := fun f => mkNFrame (nf_control f) (nf_hopping f) (nf_access f) (nf_origin f) (turn_tframe (nf_frame f))).
  eapply (RH_bind t).
  - unfold read_nframe. do 4 (apply RH_bind_same; intros ?). eapply (RH_bind turn_tframe).
    + unfold read_tframe. do 8 (apply RH_bind_same; intros ?). eapply RH_bind; [apply RH_command|].
      intros c. apply RH_ret'; reflexivity.
    + intros f. apply RH_ret'; reflexivity.
  - intros f. eapply RH_bind; [apply RH_native|]. intros c. apply RH_ret'; reflexivity.
Qed.
End Read.

Lemma host_exact (E : Env) :
  (forall f, same_bytes (fun E => @write_file E f) E <->
     unwritable (fun E => @write_file E f) E \/ Forall symmetric (file_natives f)) /\
  (forall c, same_bytes (fun E => @write_interface_config E c) E <->
     unwritable (fun E => @write_interface_config E c) E \/ Forall symmetric (config_natives c)) /\
  (forall s, same_bytes (fun E => @write_interface_tx_status E s) E <->
     unwritable (fun E => @write_interface_tx_status E s) E \/ Forall symmetric (tx_natives s)) /\
  (forall a, same_bytes (fun E => @write_action E a) E <->
     unwritable (fun E => @write_action E a) E \/ Forall symmetric (action_natives a)) /\
  (forall c, same_bytes (fun E => @write_command E c) E <->
     unwritable (fun E => @write_command E c) E \/ Forall symmetric (command_natives c)) /\
  (forall f, same_bytes (fun E => @write_bframe E f) E <->
     unwritable (fun E => @write_bframe E f) E \/ Forall symmetric (bframe_natives f)) /\
  (forall f, same_bytes (fun E => @write_fframe E f) E <->
     unwritable (fun E => @write_fframe E f) E \/ Forall symmetric (fframe_natives f)).
Proof.
  repeat lazymatch goal with |- _ /\ _ => split end; intros x;
    [apply (WH_bytes (fun E => @write_file E x)), WH_file
    |apply (WH_bytes (fun E => @write_interface_config E x)), WH_config
    |apply (WH_bytes (fun E => @write_interface_tx_status E x)), WH_tx
    |apply (WH_bytes (fun E => @write_action E x)), WH_action
    |apply (WH_bytes (fun E => @write_command E x)), WH_command
    |apply (WH_bytes (fun E => @write_bframe E x)), WH_bframe
    |apply (WH_bytes (fun E => @write_fframe E x)), WH_fframe].
Qed.
Lemma host_turned_writing (E : Env) :
  (forall f, to_bytes (@write_file (on Big E) f) = to_bytes (@write_file (on Little E) (turn_file f))) /\
  (forall a, @action_to_bytes (on Big E) a = @action_to_bytes (on Little E) (turn_action a)) /\
  (forall c, @command_to_bytes (on Big E) c = @command_to_bytes (on Little E) (map turn_action c)) /\
  (forall f, @bframe_to_bytes (on Big E) f = @bframe_to_bytes (on Little E) (turn_bframe f)) /\
  (forall f, @fframe_to_bytes (on Big E) f = @fframe_to_bytes (on Little E) (turn_fframe f)).
Proof.
  repeat lazymatch goal with |- _ /\ _ => split end; intros x.
  - rewrite turn_write_file. reflexivity.
  - unfold action_to_bytes. rewrite turn_write_action. reflexivity.
  - unfold command_to_bytes. rewrite turn_write_command. reflexivity.
  - unfold bframe_to_bytes. rewrite turn_write_bframe. reflexivity.
  - unfold fframe_to_bytes. rewrite turn_write_fframe. reflexivity.
Qed.
Lemma host_turned_reading (E : Env) r :
  (forall id n, turned turn_file (@read_file (on Little E) id n r) (@read_file (on Big E) id n r)) /\
  turned turn_config (@read_interface_config (on Little E) r) (@read_interface_config (on Big E) r) /\
  turned turn_action (@read_action (on Little E) r) (@read_action (on Big E) r) /\
  (forall n, turned (map turn_action) (@read_command (on Little E) n r) (@read_command (on Big E) n r)) /\
  turned turn_bframe (@read_bframe (on Little E) r) (@read_bframe (on Big E) r) /\
  turned turn_fframe (@read_fframe (on Little E) r) (@read_fframe (on Big E) r).
Proof.
  repeat lazymatch goal with |- _ /\ _ => split end; intros;
    [apply RH_file|apply RH_config|apply RH_action|apply RH_command|apply RH_bframe|apply RH_fframe].
Qed.
Lemma host_refuted (E : Env) :
  ~ (forall a, same_bytes (fun E => @write_action E a) E) /\
  ~ (forall f, same_bytes (fun E => @write_bframe E f) E) /\
  ~ (forall f, same_bytes (fun E => @write_file E f) E) /\
  ~ (forall c, same_bytes (fun E => @write_interface_config E c) E) /\
  ~ (forall s, same_bytes (fun E => @write_interface_tx_status E s) E).
Proof.
  destruct E as [f h w]. repeat lazymatch goal with |- _ /\ _ => split end; intros H.
  - specialize (H (AWriteFileData (mkFileData (mkHeader false false) 4 (mkFileOffset 14 0) (FSecurityKey 1)))).
    destruct f, w; vm_compute in H; discriminate.
  - specialize (H (mkBFrame 0 AtNbId 0 1 0)). destruct f, w; vm_compute in H; discriminate.
  - specialize (H (FSecurityKey 1)). destruct f, w; vm_compute in H; discriminate.
  - specialize (H (IcAbp (mkAbp (mkLorawanConfig false false 0 0) [] [] 1 0))). destruct f, w; vm_compute in H; discriminate.
  - specialize (H (TxDash7 (mkDash7TxStatus (mkChannel (mkChannelHeader Band868 HiRate Pn9) 0) 0 FsNo 1
      (addressee_new false GcAny (NbId (mkVarInt 0 false)) NsNone (mkAccessClass 0 0))))).
    destruct f, w; vm_compute in H; discriminate.
Qed.
