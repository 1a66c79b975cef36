(** The entry points with a default context against SpecDefaultCtx.v. *)
From Coq Require Import List NArith ZArith Bool Lia ZifyBool ZifyNat ZifyN Arith.
From Verif Require Import Base Deku Utils Types Physical Link Network Session Data Query
  Interface File Operation Action Command Frames DefaultCtx WellFormed LActionApi LReturn SpecLayout SpecDecode LBits LReader LLayout LNiceOps
  LDecode LDecodeTypes LDecodeOps LDecodeAct LDecodeCmd LDecodeTx LDecodeLoop SpecFrameDecode SpecDefaultCtx LDecodeFrame.
Import ListNotations.
Open Scope N_scope.

(** ** Files and statuses *)
Lemma default_file_reads {E : Env} r : default_file r = Ok (FOther [], r).
Proof.
  unfold default_file, read_file. unfold bind, read_vec_u8.
  change (8 * 0) with 0. destruct (N.leb_spec 0 (N.of_nat (length (view r)))); [reflexivity|lia].
Qed.
Lemma file_default {E : Env} d :
  file_try_from d = (match d with [] => Ok (FOther []) | _ => Err ETooMuchData end)
  /\ file_default_from_bytes d 0 = Ok ((d, 0%nat), FOther []).
Proof.
  unfold file_try_from, file_default_from_bytes. rewrite d_try_from_eq, d_from_bytes_0, !default_file_reads.
  cbn [new_reader bread]. change (0 / 8)%nat with 0%nat. change (Nat.modulo 0 8) with 0%nat. split; [destruct d; reflexivity|reflexivity].
Qed.
Lemma Dec_default_status {E : Env} : Dec default_status
  (let* a := one in let* s := one in give (StatusAction (mkActionStatus a s))).
Proof.
  eapply Dec_ext with (m := v <- read_action_status ;; ret (StatusAction v));
    [eapply Dec_bind; [exact Dec_action_status|intros v; apply Dec_ret]|reflexivity|dsame].
Qed.
Lemma status_default {E : Env} d : bytes d ->
  match d with
  | a :: s :: rest =>
      status_try_from d = (match rest with [] => Ok (StatusAction (mkActionStatus a s)) | _ => Err ETooMuchData end)
      /\ status_from_bytes d 0 = Ok ((rest, 0%nat), StatusAction (mkActionStatus a s))
  | _ => exists e, status_try_from d = Err e /\ status_from_bytes d 0 = Err e
  end.
Proof.
  intros Hd. pose proof (Dec_default_status (new_reader d) (RWf_new d)) as H. unfold DecAt in H. rewrite view_new, octets_bits in H by exact Hd.
  unfold status_try_from, status_from_bytes. rewrite d_try_from_eq, d_from_bytes_0.
  destruct d as [|a [|s rest]].
  1, 2: destruct H as [e ->]; exists e; split; reflexivity.
  destruct H as (k & Hk & Hs & ->). rewrite bits_of_bytes_length in Hk. cbn [length] in Hk.
  assert (k = 2)%nat as ->.
  { apply (f_equal (@length N)) in Hs. rewrite skipn_length in Hs. cbn [length] in Hs. lia. }
  unfold adv. cbn [new_reader bread]. change ((0 + 8 * 2) / 8)%nat with 2%nat. change (Nat.modulo (0 + 8 * 2) 8) with 0%nat.
  split; [destruct rest; reflexivity|reflexivity].
Qed.

(** ** Frames *)
Lemma read_tframe_parts {E : Env} L r :
  read_tframe L r = (h <- (c <- read_tcontrol ;; g_trans c) ;; m <- read_command L ;; ret (h m)) r.
Proof.
  unfold read_tframe, g_trans. rewrite !bind_bind. apply bind_ext. intros c r1.
  do 7 (rewrite !bind_bind; apply bind_ext; intros ? ?). rewrite ret_left. reflexivity.
Qed.
Lemma read_nframe_parts {E : Env} L r :
  read_nframe L r = (h <- g_headers ;; m <- read_command L ;; ret (h m)) r.
Proof.
  unfold read_nframe, read_tframe, g_headers, g_net, g_trans.
  rewrite !bind_bind. apply bind_ext. intros c r6. rewrite !bind_bind. apply bind_ext. intros h r7.
  rewrite !bind_bind. apply bind_ext. intros k r8. rewrite !bind_bind. apply bind_ext. intros o r9.
  rewrite ?ret_left. rewrite !bind_bind. apply bind_ext. intros ? ?.
  do 7 (rewrite !bind_bind; apply bind_ext; intros ? ?).
  rewrite ?ret_left. rewrite !bind_bind. apply bind_ext. intros ? ?. rewrite ?ret_left. reflexivity.
Qed.

Lemma after_7 d k : (k <= length d)%nat -> (1 <= k)%nat ->
  exists x, adv (new_reader d) (8 * k - 1) = mkRd d k [x] (8 * k - 1).
Proof.
  intros Hk H1. assert (L : (8 * k - 1 <= length (view (new_reader d)))%nat) by (rewrite view_new, bits_of_bytes_length; lia).
  pose proof (adv_left_length _ _ (RWf_new d) L) as Ll.
  assert (Nk : need (new_reader d) (8 * k - 1) = k).
  { unfold need, new_reader. cbn [left length]. rewrite Nat.sub_0_r. clear - H1. divlia. }
  rewrite Nk in Ll. cbn [new_reader left length] in Ll.
  destruct (left (adv (new_reader d) (8 * k - 1))) as [|x [|? ?]] eqn:Q; cbn [length] in Ll; try lia.
  exists x. unfold adv in Q |- *. rewrite Nk in *. cbn [new_reader data pos left bread] in *. rewrite Q. f_equal.
Qed.

(** The header of a transport frame. *)
Lemma trans_head d : bytes d ->
  match d with
  | [] => exists e, (c <- read_tcontrol ;; g_trans c) (new_reader d) = Err e
  | x :: _ =>
      match dec_trans (part 1 7 x) (late 7 d) with
      | Some (tr, more) => exists k w, (1 <= k <= length d)%nat /\ (length d - length more = k)%nat
          /\ (c <- read_tcontrol ;; g_trans c) (new_reader d) = Ok (tr, mkRd d k [w] (8 * k - 1))
      | None => exists e, (c <- read_tcontrol ;; g_trans c) (new_reader d) = Err e
      end
  end.
Proof.
  intros Hd. set (r := new_reader d). assert (Hr : RWf r) by apply RWf_new.
  assert (O : octets (view r) = d) by (unfold r; rewrite view_new, octets_bits by exact Hd; reflexivity).
  assert (LV : length (view r) = (8 * length d)%nat) by (unfold r; rewrite view_new; apply bits_of_bytes_length).
  destruct d as [|x tl].
  { exists EIncomplete. apply bind_err. unfold read_tcontrol. apply bind_err. unfold read_bool. apply bind_err.
    apply read_uint_err; [exact Hr|]. rewrite LV. cbn [length]. lia. }
  cbn [length] in LV. rewrite (bind_ok _ _ _ _ _ (read_tcontrol_ok r Hr ltac:(lia))).
  destruct (octets_head _ _ _ O) as (y & tt & VY & LY & Hx & _).
  assert (HC7 : N_of_bits (firstn 7 (view r)) = part 1 7 x).
  { rewrite VY, firstn_short, Hx by lia. apply (octet_control y LY). }
  rewrite HC7. set (r3 := adv r 7). assert (W3 : RWf r3) by (apply RWf_adv; [exact Hr|lia]).
  pose proof (Dec_trans (part 1 7 x) r3 W3) as HT. unfold DecAt in HT.
  assert (V3 : octets (view r3) = late 7 (x :: tl)).
  { unfold r3. rewrite view_adv by (try exact Hr; lia). rewrite octets_late, O by (try lia; rewrite LV; clear; divlia). reflexivity. }
  rewrite V3 in HT. destruct (dec_trans (part 1 7 x) (late 7 (x :: tl))) as [[tr rest']|]; [|exact HT].
  destruct HT as (k' & Hk' & Hs' & HT). unfold r3 in Hk'. rewrite view_adv, skipn_length in Hk' by (try exact Hr; lia).
  unfold r3 in HT. rewrite adv_adv in HT by (try exact Hr; lia). unfold r in HT.
  destruct (after_7 (x :: tl) (S k') ltac:(cbn [length]; lia) ltac:(lia)) as (w & HA).
  replace (7 + 8 * k')%nat with (8 * S k' - 1)%nat in HT by lia. rewrite HA in HT.
  exists (S k'), w. split; [cbn [length]; lia|]. split; [|exact HT].
  rewrite Hs', skipn_length, late_length. cbn [length Nat.pred]. lia.
Qed.

Definition lost_eq {E : Env} : left_over = N.of_nat lost.
Proof. unfold left_over, lost. destruct e_feat; reflexivity. Qed.

(** The command and the count, once the header is read. *)
Lemma body_at {E : Env} {V} (h : command -> V) d p w : bytes d -> (1 <= p <= length d)%nat -> (length w <= 1)%nat ->
  match dec_limited (length (skipn p d)) 0 (N.of_nat p) (N.of_nat (length w)) (skipn p d) with
  | Some (c, rest) => exists s, (m <- read_command 0 ;; ret (h m)) (mkRd d p w (8 * p - length w)) = Ok (h c, s)
      /\ bread s = alone_bits (length d - length rest) (length w) c /\ exists j, (j <= length d)%nat /\ rest = skipn j d
  | None => exists e, (m <- read_command 0 ;; ret (h m)) (mkRd d p w (8 * p - length w)) = Err e
  end.
Proof.
  intros Hd Hp Lw.
  pose proof (limited_ok d 0 Hd (length d) (S (length d)) (length (skipn p d)) p (8 * p - length w)%nat w []
    ltac:(lia) ltac:(lia) ltac:(rewrite skipn_length; lia) ltac:(lia) ltac:(lia) ltac:(right; lia) eq_refl) as R.
  cbn [app] in R.
  change (read_actions (S (length d)) 0 [] (mkRd d p w (8 * p - length w))) with (read_command 0 (mkRd d p w (8 * p - length w))) in R.
  destruct (dec_limited _ 0 (N.of_nat p) _ _) as [[c l2]|]; [|destruct R as [e R]; exists e; apply (bind_err _ _ _ _ R)].
  destruct R as (s & k2 & n' & Hs2 & Hk2 & R & (Ws & Vs & Bs) & Hn). rewrite (bind_ok _ _ _ _ _ R).
  exists s. split; [reflexivity|]. split.
  - unfold alone_bits. rewrite Bs, Hs2, skipn_length. pose proof (count_tx_le c). lia.
  - exists (p + k2)%nat. split; [exact Hk2|exact Hs2].
Qed.

Lemma nframe_at {E : Env} d : bytes d ->
  match dec_nframe d with
  | Some (v, rest) => exists s, read_nframe 0 (new_reader d) = Ok (v, s)
      /\ bread s = alone_bits (length d - length rest) (N.to_nat left_over) (tf_command (nf_frame v))
      /\ exists j, (j <= length d)%nat /\ rest = skipn j d
  | None => exists e, read_nframe 0 (new_reader d) = Err e
  end.
Proof.
  intros Hd. rewrite read_nframe_parts. unfold dec_nframe. rewrite lost_eq, Nat2N.id. change (new_reader d) with (at_byte d 0 0).
  pose proof (head_ok (at_byte d 0 0) (at_byte_wf d 0 _ ltac:(lia)) eq_refl) as HH. unfold HeadAt in HH.
  rewrite at_byte_view, skipn_O in HH by exact Hd.
  destruct (dec_headers d) as [[net l1]|] eqn:EH; [|destruct HH as [e HH]; exists e; apply (bind_err _ _ _ _ HH)].
  destruct HH as (k1 & H1 & Hk1 & Hs1 & HH). rewrite at_byte_length in Hk1. rewrite (bind_ok _ _ _ _ _ HH). clear HH.
  destruct (after_head d 0 0 k1 ltac:(lia) H1) as (w & HA & Lw). rewrite HA. clear HA.
  assert (LO : (lost <= 1)%nat) by (unfold lost; destruct e_feat; lia).
  pose proof (body_at net d k1 w Hd ltac:(lia) ltac:(lia)) as R. rewrite <- Hs1 in R.
  replace (length d - length l1)%nat with k1 by (rewrite Hs1, skipn_length; lia).
  rewrite Lw in R. cbn [Nat.add]. destruct (dec_limited _ 0 _ _ l1) as [[c l2]|]; [|exact R].
  destruct R as (s & R & Bs & Hj). exists s. split; [exact R|]. split; [|exact Hj].
  rewrite (dec_headers_shape _ _ _ EH). exact Bs.
Qed.
Lemma tframe_at {E : Env} d : bytes d ->
  match dec_tframe d with
  | Some (v, rest) => exists s, read_tframe 0 (new_reader d) = Ok (v, s)
      /\ bread s = alone_bits (length d - length rest) 1 (tf_command v)
      /\ exists j, (j <= length d)%nat /\ rest = skipn j d
  | None => exists e, read_tframe 0 (new_reader d) = Err e
  end.
Proof.
  intros Hd. rewrite read_tframe_parts. pose proof (trans_head d Hd) as HH. unfold dec_tframe.
  destruct d as [|x tl]; [destruct HH as [e HH]; exists e; apply (bind_err _ _ _ _ HH)|].
  remember (x :: tl) as d eqn:Ed.
  destruct (dec_trans (part 1 7 x) (late 7 d)) as [[tr more]|] eqn:EH; [|destruct HH as [e HH]; exists e; apply (bind_err _ _ _ _ HH)].
  destruct HH as (k & w & Hk & Hm & HH). rewrite (bind_ok _ _ _ _ _ HH). clear HH. rewrite Hm. cbv zeta.
  pose proof (body_at tr d k [w] Hd ltac:(lia) ltac:(cbn; lia)) as R. cbn [length] in R. change (N.of_nat 1) with 1 in R.
  replace (length d - length (skipn k d))%nat with k by (rewrite skipn_length; lia).
  destruct (dec_limited _ 0 _ _ _) as [[c l2]|]; [|exact R].
  destruct R as (s & R & Bs & Hj). exists s. split; [exact R|]. split; [|exact Hj].
  rewrite (dec_trans_shape _ _ _ _ EH). exact Bs.
Qed.

Lemma decode_nframe {E : Env} d : bytes d ->
  match dec_nframe d with
  | Some (v, rest) =>
      let read := alone_bits (length d - length rest) (N.to_nat left_over) (tf_command (nf_frame v)) in
      (exists n, (n <= length d)%nat /\ rest = skipn n d)
      /\ nframe_from_bytes d 0 =
           (if Nat.leb (Nat.div read 8) (length d) then Ok ((skipn (Nat.div read 8) d, Nat.modulo read 8), v) else Panic)
      /\ nframe_try_from d = (if Nat.eqb (Nat.div read 8) (length d) then Ok v else Err ETooMuchData)
  | None => exists e, nframe_from_bytes d 0 = Err e /\ nframe_try_from d = Err e
  end.
Proof.
  intros Hd. pose proof (nframe_at d Hd) as H. unfold nframe_from_bytes, nframe_try_from, default_nframe. rewrite d_from_bytes_0, d_try_from_eq.
  destruct (dec_nframe d) as [[v rest]|].
  - destruct H as (s & -> & <- & Hj). cbv zeta. split; [exact Hj|]. split; reflexivity.
  - destruct H as [e ->]. exists e. split; reflexivity.
Qed.
Lemma decode_tframe {E : Env} d : bytes d ->
  match dec_tframe d with
  | Some (v, rest) =>
      let read := alone_bits (length d - length rest) 1 (tf_command v) in
      (exists n, (n <= length d)%nat /\ rest = skipn n d)
      /\ tframe_from_bytes d 0 =
           (if Nat.leb (Nat.div read 8) (length d) then Ok ((skipn (Nat.div read 8) d, Nat.modulo read 8), v) else Panic)
      /\ tframe_try_from d = (if Nat.eqb (Nat.div read 8) (length d) then Ok v else Err ETooMuchData)
  | None => exists e, tframe_from_bytes d 0 = Err e /\ tframe_try_from d = Err e
  end.
Proof.
  intros Hd. pose proof (tframe_at d Hd) as H. unfold tframe_from_bytes, tframe_try_from, default_tframe. rewrite d_from_bytes_0, d_try_from_eq.
  destruct (dec_tframe d) as [[v rest]|].
  - destruct H as (s & -> & <- & Hj). cbv zeta. split; [exact Hj|]. split; reflexivity.
  - destruct H as [e ->]. exists e. split; reflexivity.
Qed.
