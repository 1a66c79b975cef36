(** Lemmas for C73: reading from the middle of a stream. *)
From Coq Require Import List NArith ZArith Bool Lia ZifyBool ZifyNat ZifyN Arith.
From Verif Require Import Base Deku Utils Types Physical Link Network Session Data Query
  Interface File Operation Action Command Frames Position WellFormed SpecLayout SpecAction SpecDecode SpecFrameDecode SpecPosition
  LBits LReader LTypes LLayout LNice LNiceOps LCommandApi LDecode LDecodeTypes LDecodeOps LDecodeAct LDecodeCmd LDecodeTx LDecodeLoop LFrames LFramesW LDecodeFrame LErr LReencode LActionApi SpecFrameDecode.
Import ListNotations.
Open Scope N_scope.

(** The same state of a stream with [pre] in front of it. *)
Definition shift (pre : list N) (r : rd) : rd := mkRd (pre ++ data r) (length pre + pos r) (left r) (bread r).
Definition same {A} (pre : list N) (x y : res (A * rd)) : Prop :=
  match x with
  | Ok (v, r') => y = Ok (v, shift pre r') /\ started r'
  | Err e => y = Err e
  | Panic => y = Panic
  end.
Definition Sh {A} (m : reader A) : Prop := forall pre r, started r -> same pre (m r) (m (shift pre r)).
Definition ShP {A} (m : reader A) : Prop := forall pre r, (0 < pos r)%nat -> same pre (m r) (m (shift pre r)).

Lemma Sh_P {A} (m : reader A) : Sh m -> ShP m.
Proof. intros H pre r Hr. apply H. left. exact Hr. Qed.
Lemma Sh_ret {A} (v : A) : Sh (ret v).
Proof. intros pre r Hr. split; [reflexivity|exact Hr]. Qed.
Lemma Sh_fail {A} e : Sh (@fail A e).
Proof. intros pre r Hr. reflexivity. Qed.
Lemma Sh_bind {A B} (m : reader A) (f : A -> reader B) : Sh m -> (forall x, Sh (f x)) -> Sh (bind m f).
Proof.
  intros Hm Hf pre r Hr. unfold bind. specialize (Hm pre r Hr). unfold same in Hm. destruct (m r) as [[x r1]| |]; [|rewrite Hm; reflexivity..].
  destruct Hm as [-> Hs]. apply Hf. exact Hs.
Qed.
Lemma skipn_pre {A} (pre d : list A) k : skipn (length pre + k) (pre ++ d) = skipn k d.
Proof. rewrite skipn_app, skipn_all2 by lia. cbn [app]. f_equal. lia. Qed.
Lemma view_shift pre r : view (shift pre r) = view r.
Proof. unfold view, shift. cbn [left pos data]. rewrite skipn_pre. reflexivity. Qed.
Lemma adv_shift pre r n : adv (shift pre r) n = shift pre (adv r n).
Proof.
  unfold adv, shift, need. cbn [left pos data bread]. rewrite skipn_pre. f_equal. lia.
Qed.
Lemma Sh_bits n : Sh (read_bits n).
Proof.
  intros pre r Hr. pose proof (Kd_bits n r Hr) as K. unfold read_bits in *. change (need (shift pre r) n) with (need r n).
  cbn [shift pos data left]. rewrite app_length, skipn_pre.
  replace (Nat.leb (length pre + pos r + need r n) (length pre + length (data r))) with (Nat.leb (pos r + need r n) (length (data r))).
  - destruct (Nat.leb _ _); [|reflexivity]. cbn [same plain] in *. fold (shift pre r). rewrite adv_shift. split; [reflexivity|exact K].
  - destruct (Nat.leb_spec (pos r + need r n) (length (data r))), (Nat.leb_spec (length pre + pos r + need r n) (length pre + length (data r))); try reflexivity; lia.
Qed.
Lemma Sh_uint n : Sh (read_uint n).
Proof. apply Sh_bind; [apply Sh_bits|]. intros. apply Sh_ret. Qed.
Lemma Sh_skip n : Sh (skip_bits n).
Proof. apply Sh_bind; [apply Sh_bits|]. intros. apply Sh_ret. Qed.
Lemma Sh_list {A} n (m : reader A) : Sh m -> Sh (read_list n m).
Proof.
  intros H. induction n as [|n IH]; [apply Sh_ret|]. cbn [read_list]. apply Sh_bind; [exact H|]. intros. apply Sh_bind; [exact IH|].
  intros. apply Sh_ret.
Qed.
Lemma Sh_vec n : Sh (read_vec_u8 n).
Proof.
  intros pre r Hr. unfold read_vec_u8. rewrite view_shift. destruct (N.leb _ _); [|reflexivity]. apply Sh_list; [apply Sh_uint|exact Hr].
Qed.
Lemma Sh_native {E : Env} n : Sh (read_native n).
Proof. apply Sh_bind; [apply Sh_bits|]. intros. apply Sh_ret. Qed.
Lemma Sh_cond {A} c (m : reader A) : Sh m -> Sh (read_cond c m).
Proof. intros H. destruct c; [|apply Sh_ret]. apply Sh_bind; [exact H|]. intros. apply Sh_ret. Qed.
Lemma Sh_enum {A} n (f : N -> option A) : Sh (read_enum n f).
Proof. apply Sh_bind; [apply Sh_uint|]. intros x. destruct (f x); [apply Sh_ret|apply Sh_fail]. Qed.
(** Something is read, so that one byte back is still behind [pre]. *)
Lemma Sh_read {A B} (m : reader A) (f : A -> reader B) : Sh m -> (forall r x r', started r -> m r = Ok (x, r') -> (0 < pos r')%nat) ->
  (forall x, ShP (f x)) -> Sh (bind m f).
Proof.
  intros Hm Hp Hf pre r Hr. unfold bind. specialize (Hm pre r Hr). specialize (Hp r). unfold same in Hm.
  destruct (m r) as [[x r1]| |]; [|rewrite Hm; reflexivity..]. destruct Hm as [-> Hs]. apply Hf. exact (Hp x r1 Hr eq_refl).
Qed.
Lemma uint_pos n r x r' : (1 <= n)%nat -> started r -> read_uint n r = Ok (x, r') -> (0 < pos r')%nat.
Proof.
  intros Hn Hr H. unfold read_uint, bind, read_bits in H. destruct (Nat.leb _ _); [|discriminate]. injection H as _ <-. apply adv_pos; assumption.
Qed.
Lemma Sh_id {A} (f : N -> reader A) : (forall x, ShP (f x)) -> Sh (x <- read_u8 ;; f x).
Proof. intros H. apply Sh_read; [apply Sh_uint| |exact H]. intros r x r' Hr. apply uint_pos; [lia|exact Hr]. Qed.
Lemma ShP_last : ShP seek_last_read8.
Proof.
  intros pre r Hr. unfold seek_last_read8, shift. cbn [pos data bread]. destruct (pos r) as [|p]; [lia|].
  rewrite Nat.add_succ_r. split; [reflexivity|]. right. reflexivity.
Qed.
Lemma ShP_back : ShP seek_back1.
Proof.
  intros pre r Hr. unfold seek_back1, shift. cbn [pos data bread]. destruct (pos r) as [|p]; [lia|].
  rewrite Nat.add_succ_r. split; [reflexivity|]. right. reflexivity.
Qed.
Lemma ShP_bind {A B} (m : reader A) (f : A -> reader B) : ShP m -> (forall x, Sh (f x)) -> ShP (bind m f).
Proof.
  intros Hm Hf pre r Hr. unfold bind. specialize (Hm pre r Hr). unfold same in Hm. destruct (m r) as [[x r1]| |]; [|rewrite Hm; reflexivity..].
  destruct Hm as [-> Hs]. apply Hf. exact Hs.
Qed.
Lemma ShP_unit {E : Env} : ShP read_id_unit.
Proof. unfold read_id_unit. destruct e_rewind; [apply ShP_last|apply Sh_P, Sh_ret]. Qed.
Lemma ShP_field {E : Env} x : ShP (read_id_field x).
Proof. unfold read_id_field. destruct e_rewind; [apply ShP_bind; [apply ShP_last|intros; apply Sh_uint]|apply Sh_P, Sh_ret]. Qed.

Create HintDb sh.
#[export] Hint Resolve Sh_ret Sh_fail Sh_bits Sh_uint Sh_skip Sh_vec Sh_native Sh_enum : sh.
Ltac sh1 :=
  match goal with
  | |- Sh _ => solve [auto with sh nocore]
  | |- Sh (bind _ _) => apply Sh_bind; [|intros ?]
  | |- Sh (read_list _ _) => apply Sh_list
  | |- Sh (read_array _ _) => apply Sh_list
  | |- Sh (read_cond _ _) => apply Sh_cond
  | |- Sh (match ?x with _ => _ end) => destruct x
  | |- Sh ?m => let h := hd_of m in unfold h
  end.
Ltac sh := repeat (sh1; cbv beta zeta).

Lemma Sh_interface_type {E : Env} : Sh read_interface_type.
Proof.
  apply Sh_id. intros x. destruct (assoc x interface_type_tbl); [apply Sh_P, Sh_ret|]. apply ShP_bind; [apply ShP_unit|]. intros. apply Sh_ret.
Qed.
Lemma Sh_interface_config {E : Env} : Sh read_interface_config.
Proof.
  apply Sh_id. intros x. cbn [assoc].
  repeat match goal with |- ShP (match (if ?c then _ else _) with _ => _ end) => destruct c; [apply Sh_P; sh|] end.
  apply ShP_bind; [apply ShP_field|]. intros. apply Sh_ret.
Qed.
Lemma Sh_indirect_interface {E : Env} : Sh read_indirect_interface.
Proof.
  apply Sh_id. intros x. cbn [assoc].
  repeat match goal with |- ShP (match (if ?c then _ else _) with _ => _ end) => destruct c; [apply Sh_P; sh|] end.
  apply ShP_bind; [apply ShP_field|]. intros. apply Sh_ret.
Qed.
Lemma Sh_query : Sh read_query.
Proof.
  apply Sh_bind; [sh|]. intros x. unfold query_readers. cbn [assoc].
  repeat match goal with |- Sh (match (if ?c then _ else _) with _ => _ end) => destruct c; [sh|] end. sh.
Qed.
#[export] Hint Resolve Sh_interface_type Sh_interface_config Sh_indirect_interface Sh_query : sh.
Lemma Sh_file {E : Env} id n : Sh (read_file id n). Proof. sh. Qed.
#[export] Hint Resolve Sh_file : sh.
Lemma Sh_payload {E : Env} o : Sh (read_file_payload o).
Proof.
  apply Sh_bind; [sh|]. intros x pre r Hr. destruct (file_id_try_from (fo_file_id o)); [apply Sh_file; exact Hr|reflexivity..].
Qed.
#[export] Hint Resolve Sh_payload : sh.
Lemma Sh_operand {E : Env} op m : assoc op action_readers = Some m -> Sh m.
Proof.
  unfold action_readers. destruct is_wizzilab; cbn [app assoc];
    repeat match goal with |- (if ?c then _ else _) = _ -> _ => destruct c; [intros H; injection H as <-; sh|] end;
    discriminate.
Qed.
Lemma Sh_action {E : Env} : Sh read_action.
Proof.
  unfold read_action. apply Sh_bind; [apply Sh_skip|intros _]. apply Sh_read; [apply Sh_uint| |].
  - intros r x r' Hr. apply uint_pos; [lia|exact Hr].
  - intros code. apply ShP_bind; [apply ShP_back|]. intros _. destruct (assoc code action_readers) as [m|] eqn:Hm; [exact (Sh_operand code m Hm)|apply Sh_fail].
Qed.
Lemma Sh_end : Sh at_end.
Proof.
  intros pre r Hr. unfold at_end, shift. cbn [left data pos bread]. rewrite nth_error_app2 by lia.
  replace (length pre + pos r - length pre)%nat with (pos r) by lia.
  destruct (left r) as [|x l] eqn:Hl; [|split; [rewrite <- Hl; reflexivity|exact Hr]].
  destruct (nth_error (data r) (pos r)); (split; [unfold shift; cbn [data pos left bread]|]).
  - f_equal. f_equal. f_equal. lia.
  - left. cbn [pos]. lia.
  - rewrite Hl. reflexivity.
  - exact Hr.
Qed.
Lemma Sh_actions {E : Env} f : forall acc, Sh (read_actions f 0 acc).
Proof.
  induction f as [|f IH]; intros acc; [apply Sh_fail|]. cbn [read_actions].
  apply Sh_bind; [apply Sh_ret|]. intros ok. destruct ok; [|apply Sh_ret].
  apply Sh_bind; [apply Sh_end|]. intros []; [apply Sh_ret|]. destruct (last_is_indirect acc); [apply Sh_ret|].
  apply Sh_bind; [apply Sh_action|]. intros a. apply IH.
Qed.
Lemma command_shift {E : Env} pre r : started r -> RWf r -> same pre (read_command 0 r) (read_command 0 (shift pre r)).
Proof.
  intros Hs Hr. pose proof (read_command_safe 0 r Hr) as Hsafe. pose proof (Sh_actions (S (length (data r))) [] pre r Hs) as H.
  unfold read_command in *. cbn [shift data]. rewrite app_length.
  assert (K : read_actions (S (length (data r))) 0 [] (shift pre r) <> Err EFuel).
  { unfold same in H. destruct (read_actions (S (length (data r))) 0 [] r) as [[c r']|e|]; [destruct H as [-> _]; discriminate| |contradiction].
    rewrite H. intros X. injection X as ->. apply Hsafe. reflexivity. }
  pose proof (read_actions_fuel _ (length pre) 0 [] (shift pre r) _ eq_refl K) as F.
  replace (S (length pre + length (data r))) with (S (length (data r)) + length pre)%nat by lia. rewrite F. exact H.
Qed.

(** ** The entry points *)
Lemma started_new d : started (new_reader d).
Proof. right. reflexivity. Qed.
Lemma anywhere_if {A} (m : reader A) : (forall pre r, started r -> RWf r -> same pre (m r) (m (shift pre r))) -> anywhere m.
Proof.
  intros H pre d off. unfold from_stream.
  assert (R : mkRd (pre ++ d) (length pre) [] 0 = shift pre (new_reader d)).
  { unfold shift, new_reader. cbn [data pos left bread]. f_equal. lia. }
  rewrite R. change (mkRd d 0 [] 0) with (new_reader d).
  assert (S : same pre ((if Nat.eqb off 0 then m else skip_bits off ;;; m) (new_reader d))
                       ((if Nat.eqb off 0 then m else skip_bits off ;;; m) (shift pre (new_reader d)))).
  { destruct (Nat.eqb off 0); [apply H; [apply started_new|apply RWf_new]|].
    unfold bind. pose proof (Sh_skip off pre (new_reader d) (started_new d)) as K. unfold same in K.
    destruct (skip_bits off (new_reader d)) as [[[] r1]| |] eqn:E1; [|rewrite K; reflexivity..].
    destruct K as [-> Ks]. apply H; [exact Ks|]. pose proof (Nice_skip0 off (new_reader d) (RWf_new d)) as N. rewrite E1 in N. apply N. }
  unfold same in S. destruct ((if Nat.eqb off 0 then m else skip_bits off ;;; m) (new_reader d)) as [[v r']|e|]; [|rewrite S; reflexivity..].
  destruct S as [-> _]. reflexivity.
Qed.
Lemma Sh_anywhere {A} (m : reader A) : Sh m -> anywhere m.
Proof. intros H. apply anywhere_if. intros pre r Hs _. apply H. exact Hs. Qed.
Ltac anyw := repeat split; apply Sh_anywhere; sh.
Lemma anywhere_action {E : Env} : anywhere read_action.
Proof. apply Sh_anywhere, Sh_action. Qed.
Lemma anywhere_command {E : Env} : anywhere (read_command 0).
Proof. apply anywhere_if. intros. apply command_shift; assumption. Qed.
Lemma anywhere_types {E : Env} :
  anywhere read_length /\ anywhere read_varint /\ anywhere read_file_offset /\
  anywhere read_channel_header /\ anywhere read_channel /\ anywhere read_channel_status /\
  anywhere read_sub_band /\ anywhere read_sub_profile /\ anywhere read_access_profile /\
  anywhere read_addressee /\ anywhere read_qos /\ anywhere read_dash7_status /\
  anywhere read_dash7_tx_status /\ anywhere read_final_status_code /\ anywhere read_file_header.
Proof. anyw. Qed.
Lemma anywhere_operations {E : Env} :
  anywhere read_query /\ anywhere read_dash7_config /\ anywhere read_lorawan_config /\
  anywhere read_interface_config /\ anywhere read_indirect_interface /\
  anywhere read_itf_status_op /\ anywhere read_itf_final_op /\ anywhere read_bframe.
Proof. anyw. Qed.
Lemma anywhere_enums {E : Env} :
  anywhere read_bandwidth /\ anywhere read_channel_band /\ anywhere read_channel_class /\ anywhere read_channel_coding /\
  anywhere read_csma_ca_mode /\ anywhere read_group_condition /\ anywhere read_address_type /\ anywhere read_nls_method /\
  anywhere read_response_mode /\ anywhere read_retry_mode /\ anywhere read_action_condition /\ anywhere read_storage_class /\
  anywhere read_eng_method /\ anywhere read_arith_cmp /\ anywhere read_range_cmp /\ anywhere read_permission_level /\
  anywhere read_status_type /\ anywhere read_chunk_step /\ anywhere read_logic_op.
Proof. anyw. Qed.

(** ** Where the stream is left *)
Lemma from_stream_0 {A} (m : reader A) d p :
  from_stream m d p 0 = rbind (m (at_byte d p 0)) (fun x => Ok (bread (snd x), fst x, pos (snd x))).
Proof. reflexivity. Qed.
Lemma DecA_leaves {A} (m : reader A) D : DecA m D -> leaves m D.
Proof.
  intros H d p Hd Hp. specialize (H (at_byte d p 0) (at_byte_wf d p 0 Hp) eq_refl). unfold DecAt in H.
  rewrite at_byte_view in H by exact Hd. rewrite from_stream_0.
  destruct (D (skipn p d)) as [[v rest]|]; [|destruct H as [e ->]; exists e; reflexivity].
  destruct H as (k & Hk & -> & ->). rewrite at_byte_length in Hk.
  rewrite adv_aligned; [|apply at_byte_wf; exact Hp|reflexivity|rewrite at_byte_length; lia].
  cbn [rbind fst snd bread pos at_byte]. rewrite !skipn_length. f_equal. f_equal; [f_equal; lia|lia].
Qed.
Lemma leaves_types {E : Env} :
  leaves read_length dec_length /\ leaves read_varint dec_varint /\ leaves read_file_offset dec_file_offset /\
  leaves read_channel_header dec_channel_header /\ leaves read_channel dec_channel /\
  leaves read_channel_status dec_channel_status /\ leaves read_sub_band dec_sub_band /\
  leaves read_sub_profile dec_sub_profile /\ leaves read_access_profile dec_access_profile /\
  leaves read_addressee dec_addressee /\ leaves read_qos dec_qos /\
  leaves read_dash7_status dec_dash7_status /\ leaves read_dash7_tx_status dec_dash7_tx /\
  leaves read_final_status_code dec_final /\ leaves read_file_header dec_file_header.
Proof.
  repeat split; apply DecA_leaves, Dec_A;
    [exact Dec_length|exact Dec_varint|exact Dec_file_offset|exact Dec_channel_header|exact Dec_channel|exact Dec_channel_status
    |exact Dec_sub_band|exact Dec_sub_profile|exact Dec_access_profile|exact Dec_addressee|exact Dec_qos|exact Dec_dash7_status
    |exact Dec_dash7_tx|exact Dec_final|exact Dec_file_header].
Qed.
Lemma leaves_operations {E : Env} :
  leaves read_query dec_query /\ leaves read_dash7_config dec_dash7_config /\
  leaves read_lorawan_config dec_lorawan /\ leaves read_interface_config dec_interface_config /\
  leaves read_indirect_interface dec_indirect_interface /\
  leaves read_itf_status_op dec_itf_status /\ leaves read_itf_final_op dec_itf_final /\ leaves read_bframe dec_bframe.
Proof.
  repeat split; apply DecA_leaves;
    [apply Dec_A; exact Dec_query|apply Dec_A; exact Dec_dash7_config|apply Dec_A; exact Dec_lorawan
    |exact DecA_interface_config|exact DecA_indirect_interface|exact DecA_itf_status|apply Dec_A; exact Dec_itf_final|apply Dec_A; exact Dec_bframe].
Qed.

Lemma action_left {E : Env} d p : bytes d -> (p <= length d)%nat ->
  match dec_action (skipn p d) with
  | Some (a, rest) => (length rest < length d - p)%nat /\
      from_stream read_action d p 0 =
        Ok (8 + 8 * (length d - p - length rest) - (if is_tx a then 2 else 0), a, length d - length rest)%nat
  | None => exists e, from_stream read_action d p 0 = Err e
  end.
Proof.
  intros Hd Hp. rewrite from_stream_0. pose proof (entry_action d p 0 false (at_byte d p 0) Hd Hp (entry_plain d p 0)) as H.
  unfold dec_action. destruct (skipn p d) as [|b tl] eqn:Sk; [destruct H as [e ->]; exists e; reflexivity|].
  unfold OpAt in H. rewrite at_byte_view, Sk in H by exact Hd.
  destruct (dec_operand (part 0 6 b) (b :: tl)) as [[a rest]|]; [|destruct H as [e ->]; exists e; reflexivity].
  destruct H as (k & H1 & Hk & Hs & ->). rewrite at_byte_length in Hk.
  destruct (after_act d p (0 + 8) a k ltac:(lia) H1) as (w & n & -> & Lw & Hn). cbn [rbind fst snd bread pos].
  assert (L : length rest = (length d - p - k)%nat) by (rewrite Hs, <- Sk, !skipn_length; lia). rewrite L.
  split; [lia|]. f_equal. f_equal; [f_equal|]; lia.
Qed.

(** The loop without a limit stops at the end, or with a byte in its hands. *)
Lemma loop_halts {E : Env} f : forall acc r c s, read_actions f 0 acc r = Ok (c, s) -> view s = [] \/ left s <> [].
Proof.
  induction f as [|f IH]; intros acc r c s H; [discriminate|]. cbn [read_actions] in H. unfold bind at 1 in H. rewrite valid_0 in H. cbv iota beta in H.
  unfold bind at 1 in H. unfold at_end in H. destruct (left r) as [|x l] eqn:Hl.
  - destruct (nth_error (data r) (pos r)) as [b|] eqn:Hn; cbv iota beta in H.
    + destruct (last_is_indirect acc).
      * injection H as _ <-. right. cbn [left]. pose proof (bits_of_length 8 b) as L. destruct (bits_of 8 b); [discriminate|discriminate].
      * unfold bind in H. destruct (read_action _) as [[a r1]| |]; try discriminate. exact (IH _ _ _ _ H).
    + injection H as _ <-. left. unfold view. rewrite Hl. apply nth_error_None in Hn. rewrite skipn_all2 by exact Hn. reflexivity.
  - cbv iota beta in H. destruct (last_is_indirect acc).
    + injection H as _ <-. right. rewrite Hl. discriminate.
    + unfold bind in H. destruct (read_action _) as [[a r1]| |]; try discriminate. exact (IH _ _ _ _ H).
Qed.
Lemma limited_actions {E : Env} g : forall pos pend l,
  dec_limited g 0 pos (if pend : bool then 2 else 0) l = dec_actions g pend l.
Proof.
  induction g as [|g IH]; intros pos pend l; cbn [dec_limited dec_actions]; change (0 =? 0) with true; cbn [orb]; cbv iota.
  - destruct l; [destruct pend; reflexivity|reflexivity].
  - destruct l as [|b tl]; [destruct pend; reflexivity|].
    replace (part (if pend then 2 else 0) 6 b) with (if pend then part 2 6 b else part 0 6 b) by (destruct pend; reflexivity).
    destruct (dec_operand _ _) as [[a rest]|]; [|reflexivity]. destruct (is_indirect a); [reflexivity|]. rewrite IH. reflexivity.
Qed.
Lemma command_left {E : Env} d p : bytes d -> (p <= length d)%nat ->
  match dec_command (skipn p d) with
  | Some (c, rest) => (length rest <= length d - p)%nat /\
      from_stream (read_command 0) d p 0 =
        Ok (8 * (length d - p - length rest) + 8 * length c - 2 * count_tx c, c,
            length d - length rest + match rest with [] => 0 | _ => 1 end)%nat
  | None => exists e, from_stream (read_command 0) d p 0 = Err e
  end.
Proof.
  intros Hd Hp. rewrite from_stream_0. unfold dec_command, read_command, at_byte. cbn [data]. rewrite skipn_length.
  pose proof (limited_ok d 0 Hd (length d) (S (length d)) (length d - p) p 0%nat [] []
    ltac:(lia) ltac:(lia) ltac:(lia) ltac:(lia) ltac:(cbn [length]; lia) ltac:(left; reflexivity) eq_refl) as R.
  cbn [length] in R. change (N.of_nat 0) with (if false then 2 else 0) in R. rewrite limited_actions in R.
  destruct (dec_actions (length d - p) false (skipn p d)) as [[c rest]|]; [|destruct R as [e ->]; exists e; reflexivity].
  destruct R as (s & k & n & Hr & Hk & R & (Ws & Vs & Bs) & Hn).
  pose proof (loop_halts _ _ _ _ _ R) as Hh.
  pose proof (read_actions_safe (S (length d)) 0 [] (at_byte d p 0) (at_byte_wf d p 0 Hp) ltac:(unfold BP; cbn [at_byte data pos left length]; lia)) as Sf.
  unfold at_byte in Sf. cbn [app data] in *. rewrite R in Sf. destruct Sf as (_ & Ds & _).
  rewrite R. cbn [rbind fst snd]. assert (Lr : length rest = (length d - (p + k))%nat) by (rewrite Hr; apply skipn_length).
  split; [lia|].
  assert (VL : length (view s) = (8 * length rest)%nat) by (rewrite Vs, <- Hr; apply bits_of_bytes_length).
  rewrite view_length in VL by exact Ws. rewrite Ds in VL. destruct Ws as (W1 & W2 & W3). rewrite Ds in W1.
  rewrite Bs. f_equal. f_equal; [f_equal; pose proof (count_tx_le c); lia|].
  destruct rest as [|b tl]; cbn [length] in *; [lia|].
  destruct Hh as [Hh|Hh]; [rewrite Vs, <- Hr, bits_of_bytes_cons in Hh; pose proof (bits_of_length 8 b); destruct (bits_of 8 b); discriminate|].
  assert (left s = [] \/ 1 <= length (left s))%nat as [Z|Z] by (destruct (left s); [left; reflexivity|right; cbn [length]; lia]); [contradiction|]. lia.
Qed.

(** Behind what ends on a byte boundary. *)
Lemma ends_pos d q n s k : data s = d -> (q + k <= length d)%nat -> (1 <= k)%nat -> ends_at d q n s -> pos (adv s (8 * k)) = (q + k)%nat.
Proof.
  intros Ds Hq H1 ((W1 & W2 & W3) & Vs & _). assert (VL : length (view s) = (8 * (length d - q))%nat) by (rewrite Vs, bits_of_bytes_length, skipn_length; reflexivity).
  rewrite view_length in VL by (split; [exact W1|split; assumption]). rewrite Ds in *. unfold adv, need. cbn [pos].
  assert (C : length (left s) = 0%nat \/ length (left s) = 8%nat) by (clear - VL W1 W2 W3 Hq; divlia).
  destruct C as [C|C]; rewrite C in *.
  - replace ((8 * k - 0 + 7) / 8)%nat with k by (clear; divlia). lia.
  - replace ((8 * k - 8 + 7) / 8)%nat with (k - 1)%nat by (clear - H1; divlia). lia.
Qed.
Lemma fframe_left {E : Env} d p : bytes d -> (p <= length d)%nat ->
  match dec_fframe_at (N.of_nat p) (skipn p d) with
  | Some (v, rest) => (length rest <= length d - p)%nat /\
      from_stream read_fframe d p 0 = Ok (frame_bits (length d - p - length rest) v, v, length d - length rest)%nat
  | None => exists e, from_stream read_fframe d p 0 = Err e
  end.
Proof.
  intros Hd Hp. rewrite from_stream_0, read_fframe_parts. unfold dec_fframe_at.
  pose proof (Dec_link (at_byte d p 0) (at_byte_wf d p 0 Hp)) as HL. unfold DecAt in HL. rewrite at_byte_view in HL by exact Hd.
  destruct (dec_link (skipn p d)) as [[[limit link] l]|] eqn:EL; [|destruct HL as [e HL]; exists e; rewrite (bind_err _ _ _ _ HL); reflexivity].
  destruct HL as (k & Hk & Hs & HL). rewrite at_byte_length in Hk. rewrite (bind_ok _ _ _ _ _ HL).
  cbn [fst snd]. clear HL.
  rewrite (adv_aligned (at_byte d p 0)); [|apply at_byte_wf; lia|reflexivity|rewrite at_byte_length; lia].
  cbn [at_byte data pos bread]. rewrite !Nat.add_0_l. change (mkRd d (p + k) [] (8 * k)) with (at_byte d (p + k) (8 * k)).
  rewrite skipn_skipn in Hs. replace (k + p)%nat with (p + k)%nat in Hs by lia.
  pose proof (head_ok (at_byte d (p + k) (8 * k)) (at_byte_wf d (p + k) _ ltac:(lia)) eq_refl) as HH. unfold HeadAt in HH.
  rewrite at_byte_view, <- Hs in HH by exact Hd.
  destruct (dec_headers l) as [[net l1]|] eqn:EH; [|destruct HH as [e HH]; exists e; rewrite (bind_err _ _ _ _ HH); reflexivity].
  destruct HH as (k1 & H1 & Hk1 & Hs1 & HH). rewrite at_byte_length in Hk1. rewrite (bind_ok _ _ _ _ _ HH). clear HH.
  destruct (after_head d (p + k) (8 * k) k1 ltac:(lia) H1) as (w & HA & Lw). rewrite HA. clear HA.
  set (q := (p + k + k1)%nat) in *.
  assert (E1 : l1 = skipn q d) by (rewrite Hs1, Hs, skipn_skipn; f_equal; unfold q; lia).
  assert (LO : (lost <= 1)%nat) by (unfold lost; destruct e_feat; lia).
  pose proof (limited_ok d limit Hd (length d) (S (length d)) (length l1) q (8 * k + 8 * k1 - lost)%nat w []
    ltac:(lia) ltac:(lia) ltac:(rewrite E1, skipn_length; lia) ltac:(unfold q; lia) ltac:(lia) ltac:(right; unfold q; lia) eq_refl) as R.
  assert (EP : N.of_nat p + N.of_nat (length (skipn p d) - length l1) = N.of_nat q) by (rewrite E1, !skipn_length; unfold q; lia).
  assert (EW : (match e_feat with Wizzilab => 1 | _ => 0 end) = N.of_nat (length w)) by (rewrite Lw; unfold lost; destruct e_feat; reflexivity).
  rewrite EP, EW. clear EP EW. rewrite <- E1 in R. cbn [app] in R.
  assert (W0 : RWf (mkRd d q w (8 * k + 8 * k1 - lost))) by (unfold RWf; cbn [data pos left]; unfold q; lia).
  pose proof (read_command_safe limit _ W0) as Sf.
  change (read_actions (S (length d)) limit [] (mkRd d q w (8 * k + 8 * k1 - lost)))
    with (read_command limit (mkRd d q w (8 * k + 8 * k1 - lost))) in R.
  destruct (dec_limited (length l1) limit (N.of_nat q) (N.of_nat (length w)) l1) as [[c l2]|];
    [|destruct R as [e R]; exists e; rewrite (bind_err _ _ _ _ R); reflexivity].
  destruct R as (s & k2 & n' & Hs2 & Hk2 & R & Es & Hn). rewrite (bind_ok _ _ _ _ _ R). rewrite R in Sf. destruct Sf as (_ & Ds & _).
  cbn [data] in Ds. clear R.
  pose proof Es as (Ws & Vs & Bs).
  pose proof (Dec_native 2 s Ws) as HN. unfold DecAt in HN. change (N.of_nat 2) with 2 in HN.
  rewrite Vs, <- Hs2 in HN.
  assert (B2 : bytes l2).
  { rewrite Hs2. rewrite <- (firstn_skipn (q + k2) d) in Hd. apply Forall_app in Hd. apply Hd. }
  rewrite octets_bits in HN by exact B2.
  assert (LL2 : length l2 = (length d - (q + k2))%nat) by (rewrite Hs2; apply skipn_length).
  assert (H2 : forall crc rest, host_num 2 l2 = Some (crc, rest) -> (length rest + 2 = length l2)%nat).
  { intros crc rest X. unfold host_num, andthen, some_bytes, give in X. destruct (2 <=? N.of_nat (length l2)) eqn:L2; [|discriminate].
    apply (f_equal (option_map snd)) in X. cbn [option_map snd] in X. assert (rest = skipn (N.to_nat 2) l2) as -> by congruence.
    rewrite skipn_length. change (N.to_nat 2) with 2%nat. lia. }
  destruct (host_num 2 l2) as [[crc rest]|]; [|destruct HN as [e HN]; exists e; rewrite (bind_err _ _ _ _ HN); reflexivity].
  specialize (H2 crc rest eq_refl).
  destruct HN as (k3 & Hk3 & Hs3 & HN). rewrite (bind_ok _ _ _ _ _ HN). clear HN. rewrite bits_of_bytes_length in Hk3.
  assert (LR : length rest = (length l2 - k3)%nat) by (rewrite Hs3; apply skipn_length).
  cbn [ret rbind fst snd]. rewrite (ends_pos d (q + k2) n' s k3 Ds ltac:(lia) ltac:(lia) Es).
  split; [unfold q in *; lia|]. f_equal. f_equal; [f_equal|].
  - unfold frame_bits. rewrite (dec_link_shape _ _ _ _ EL), (dec_headers_shape _ _ _ EH). fold lost.
    unfold adv. cbn [bread]. rewrite Bs. pose proof (count_tx_le c). unfold q in *. lia.
  - unfold q in *. lia.
Qed.

(** ** Consequences *)
Lemma from_start {A} (m : reader A) d off :
  d_from_reader m d off = rbind (from_stream m d 0 off) (fun x => Ok (fst x)) /\
  u_from_reader m d off = rbind (from_stream m d 0 off) (fun x => Ok (fst x)).
Proof.
  unfold d_from_reader, u_from_reader, from_stream, start. change (mkRd d 0 [] 0) with (new_reader d).
  split; (destruct ((if Nat.eqb off 0 then m else skip_bits off ;;; m) (new_reader d)) as [[v r]| |]; reflexivity).
Qed.
Lemma actions_one_by_one {E : Env} l : forall bs pre, Forall wf_action l -> Forall2 (fun a b => action_to_bytes a = Ok b) l bs -> bytes pre ->
  one_by_one read_action (length l) (pre ++ concat bs) (length pre) = Some l.
Proof.
  induction l as [|a l IH]; intros bs pre Hw HF Hp; inversion HF as [|x y xs ys E1 E2]; subst.
  - cbn [concat one_by_one length]. rewrite app_nil_r, Nat.eqb_refl. reflexivity.
  - apply Forall_cons_iff in Hw as [Hw Hw']. destruct (action_bytes a Hw) as [Ea Ba]. assert (y = enc_action a) as -> by congruence.
    assert (Bs : bytes (concat ys)).
    { clear - Hw' E2. revert ys E2. induction l as [|b l IH]; intros ys E2; inversion E2 as [|x z xs zs F1 F2]; subst; [constructor|].
      apply Forall_cons_iff in Hw' as [Hb Hl]. destruct (action_bytes b Hb) as [Eb Bb]. cbn [concat]. apply Forall_app.
      split; [replace z with (enc_action b) by congruence; exact Bb|apply IH; assumption]. }
    cbn [concat]. set (d := pre ++ enc_action a ++ concat ys).
    assert (Bd : bytes d) by (unfold d; apply Forall_app; split; [exact Hp|apply Forall_app; split; assumption]).
    assert (Ld : length d = (length pre + (length (enc_action a) + length (concat ys)))%nat) by (unfold d; rewrite !app_length; reflexivity).
    pose proof (action_left d (length pre) Bd ltac:(lia)) as A.
    assert (Sk : skipn (length pre) d = enc_action a ++ concat ys).
    { unfold d. rewrite skipn_app, skipn_all, Nat.sub_diag. reflexivity. }
    rewrite Sk, decode_encoded in A by assumption. destruct A as [Lr A].
    cbn [length one_by_one]. destruct (Nat.eqb_spec (length pre) (length d)) as [Z|_]; [lia|]. rewrite A.
    replace (length d - length (concat ys))%nat with (length (pre ++ enc_action a)) by (rewrite app_length; lia).
    unfold d. rewrite app_assoc, IH; [reflexivity|exact Hw'|exact E2|]. apply Forall_app. split; assumption.
Qed.

Lemma limited_over {E : Env} g limit pos pending l : limit <> 0 -> limit <= pos -> dec_limited g limit pos pending l = Some ([], l).
Proof.
  intros H0 H. destruct g; cbn [dec_limited]; destruct (N.eqb_spec limit 0) as [Z|_]; try contradiction; cbn [orb];
    (destruct (N.ltb_spec pos limit); [lia|reflexivity]).
Qed.
Lemma link_length d n f l : dec_link d = Some ((n, f), l) -> forall x c, ff_length (f x c) = n.
Proof. intros H x c. unfold dec_link in H. repeat (apply andthen_some in H as (? & ? & ? & H)). injection H as <- <- <-. reflexivity. Qed.
Lemma frame_late {E : Env} d p n v q : bytes d -> (p <= length d)%nat -> from_stream read_fframe d p 0 = Ok (n, v, q) ->
  ff_length v <> 0 -> ff_length v <= N.of_nat p -> tf_command (nf_frame (ff_frame v)) = [].
Proof.
  intros Hd Hp H H0 HL. pose proof (fframe_left d p Hd Hp) as F.
  destruct (dec_fframe_at (N.of_nat p) (skipn p d)) as [[v' rest]|] eqn:ED; [|destruct F as [e F]; congruence].
  destruct F as [_ F]. assert (v' = v) by congruence. subst v'. unfold dec_fframe_at in ED.
  destruct (dec_link (skipn p d)) as [[[limit link] l]|] eqn:EL; [|discriminate]. destruct (dec_headers l) as [[net l1]|] eqn:EH; [|discriminate].
  destruct (dec_limited _ limit _ _ l1) as [[c l2]|] eqn:EC; [|discriminate]. destruct (host_num 2 l2) as [[crc rest']|]; [|discriminate].
  injection ED as <- <-. rewrite (link_length _ _ _ _ EL) in H0, HL. rewrite (dec_link_shape _ _ _ _ EL), (dec_headers_shape _ _ _ EH).
  rewrite limited_over in EC by (try exact H0; lia). congruence.
Qed.
(** Without a length the place does not matter. *)
Lemma limited_free {E : Env} g : forall pos pos' pending l, dec_limited g 0 pos pending l = dec_limited g 0 pos' pending l.
Proof.
  induction g as [|g IH]; intros pos pos' pending l; cbn [dec_limited]; change (0 =? 0) with true; cbn [orb]; cbv iota; [reflexivity|].
  destruct l as [|b tl]; [reflexivity|]. destruct (dec_operand _ _) as [[a rest]|]; [|reflexivity]. destruct (is_indirect a); [reflexivity|].
  rewrite (IH _ (pos' + N.of_nat (length (b :: tl) - length rest))). reflexivity.
Qed.
Lemma frame_unlimited {E : Env} p d rest : dec_length d = Some (0, rest) -> dec_fframe_at p d = dec_fframe d.
Proof.
  intros H. unfold dec_fframe_at, dec_fframe. destruct (dec_link d) as [[[limit link] l]|] eqn:EL; [|reflexivity].
  assert (limit = 0) as ->.
  { unfold dec_link in EL. repeat (apply andthen_some in EL as (? & ? & ? & EL)). injection EL as <- <- <-. congruence. }
  destruct (dec_headers l) as [[net l1]|]; [|reflexivity]. rewrite (limited_free _ _ (N.of_nat (length d - length l1))). reflexivity.
Qed.
Lemma frame_at_0 {E : Env} d : dec_fframe_at 0 d = dec_fframe d.
Proof. reflexivity. Qed.

Definition late_witness : list N := [9; 1; 66; 16; 10; 0; 6; 7; 0; 0; 0; 0].
Definition late_witness_w : list N := [9; 1; 66; 16; 20; 0; 12; 14; 0; 0; 0; 0].
Lemma frame_refuted {E : Env} : ~ anywhere read_fframe.
Proof.
  intros H. specialize (H [0] (match e_feat with Wizzilab => late_witness_w | _ => late_witness end) 0%nat).
  revert H. destruct E as [[] [] []]; vm_compute; discriminate.
Qed.
Lemma command_refuted {E : Env} : exists d c rest n q, bytes d /\ dec_command d = Some (c, rest) /\
  from_stream (read_command 0) d 0 0 = Ok (n, c, q) /\ q <> (length d - length rest)%nat.
Proof.
  exists [0x33; 0xC0; 0x21].
  destruct E as [[] [] []]; do 4 eexists; (split; [repeat constructor|]); (split; [vm_compute; reflexivity|]); (split; [vm_compute; reflexivity|]);
    vm_compute; discriminate.
Qed.
