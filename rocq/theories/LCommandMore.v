(** Commands: re-encoding, what follows an IndirectForward; actions at a bit offset. *)
From Coq Require Import List NArith ZArith Bool Lia ZifyBool ZifyNat ZifyN Arith.
From Verif Require Import Base Deku Utils Types Physical Link Network Session Data Query
  Interface File Operation Action Command WellFormed SpecLayout SpecAction SpecApi SpecOffset LBits LReader LTypes
  LUtf8 LLayout LRound LRoundOps LAction LApi LNumbers LNice LNiceFile LNiceOps LCount LActionApi LReencode
  LCommandApi.
Import ListNotations.
Open Scope N_scope.

(** ** C09 for commands *)
Lemma parses_readable {E : Env} a : enc_action a <> [] -> parses_bytes read_action (enc_action a) a -> readable a.
Proof.
  intros Hn H. split; [exact Hn|]. intros r p t Hr Hs. assert (Hp : (p <= length (data r))%nat) by apply Hr.
  rewrite (read_action_boundary r p Hr).
  destruct (H (firstn p (data r)) t (bread r)) as (n' & E1).
  rewrite <- Hs, firstn_skipn, firstn_length_le in E1 by exact Hp. rewrite E1. f_equal. f_equal.
  destruct (enc_action a) as [|b u] eqn:Ee; [contradiction|].
  pose proof (At_start (data r) p (bread r) Hp) as HA.
  destruct (read_action_counted _ p b (u ++ t) a _ HA Hs E1) as (_ & _ & _ & C).
  unfold BP in C. cbn [bread pos left length] in *. f_equal. lia.
Qed.
Lemma unknown_enc {E : Env} l : enc_action (unknown_status l) = 0x62 :: enc_length (N.of_nat (length l)) ++ l.
Proof. reflexivity. Qed.
Lemma reencodable_readable {E : Env} a : parsed_action a -> reencodable a -> readable a /\ W (write_action a) (enc_action a).
Proof.
  intros [H|[(l & -> & H)|(_ & v & -> & _)]] Hr.
  - split; [apply wf_readable; exact H|apply W_action; exact H].
  - split; [|rewrite unknown_enc; apply unknown_W; exact H].
    destruct Hr as (He & Hc). apply parses_readable; [discriminate|]. rewrite unknown_enc. apply unknown_parses; assumption.
  - contradiction.
Qed.
Lemma is_tx_not_reencodable {E : Env} a : reencodable a -> is_tx_status a = false.
Proof. destruct a; try reflexivity. contradiction. Qed.
Lemma readable_try_from {E : Env} c : Forall readable c -> indirect_last c -> command_try_from (enc_command c) = Ok c.
Proof.
  intros Hw Hi. unfold command_try_from. rewrite u_try_from_eq.
  assert (K : exists r, read_command 0 (new_reader (enc_command c)) = Ok (c, r) /\ bread r = counted c).
  { destruct (destruct_last c) as [->|(pre & z & ->)].
    - exists (new_reader []). split; reflexivity.
    - apply Forall_app in Hw as (Hp & Hz). inversion Hz as [|? ? Hz' _]; subst.
      assert (Hn : Forall (fun a => is_indirect a = false) pre).
      { apply Forall_forall. intros x Hx. apply in_split in Hx as (l1 & l2 & ->).
        destruct (is_indirect x) eqn:Ex; [|reflexivity]. exfalso.
        specialize (Hi l1 x (l2 ++ [z])). rewrite <- app_assoc in Hi. specialize (Hi eq_refl Ex).
        destruct l2; discriminate. }
      destruct (is_indirect z) eqn:Ez.
      + destruct (read_command_indirect pre z [] 0 Hp Hn Hz' Ez) as (r & H & _ & B).
        rewrite app_nil_r in H. exists r. auto.
      + destruct (read_command_plain (pre ++ [z]) 0) as (r & H & _ & B).
        * apply Forall_app. auto.
        * apply Forall_app. auto.
        * exists r. auto. }
  destruct K as (r & -> & ->). destruct (counted_div c) as (-> & _).
  destruct (Nat.leb_spec (length (enc_command c)) (length (enc_command c) + length c)); [reflexivity|lia].
Qed.
Lemma command_reencode {E : Env} d c r : read_command 0 (new_reader d) = Ok (c, r) -> Forall reencodable c ->
  exists l, command_to_bytes c = Ok l /\ bytes l /\ command_try_from l = Ok c.
Proof.
  intros H Hr. pose proof (read_command_shape 0 _ _ _ (new_RWf d) H) as Hs. unfold read_command in H.
  assert (Ht : Forall (fun a => is_tx_status a = false) c).
  { eapply Forall_impl; [|exact Hr]. apply is_tx_not_reencodable. }
  destruct (read_actions_trace _ _ _ 0 _ _ (At_new d) H Ht) as (new & q & Ec & _ & _ & _ & HP & _).
  cbn [app] in Ec. subst new.
  assert (HR : Forall (fun a => readable a /\ W (write_action a) (enc_action a)) c).
  { rewrite Forall_forall in *. intros a Ha. apply reencodable_readable; auto. }
  assert (HW : W (write_command c) (enc_command c)).
  { apply W_list. eapply Forall_impl; [|exact HR]. intros a (_ & G). exact G. }
  exists (enc_command c). split; [apply W_to_bytes; exact HW|]. split; [apply HW|].
  apply readable_try_from; [|exact Hs]. eapply Forall_impl; [|exact HR]. intros a (G & _). exact G.
Qed.

(** ** C16: the rest of the input does not matter *)
Lemma at_end_ext r e : RWf r -> at_end (ext r e) =
  match at_end r with
  | Ok (true, r') => match at_end (ext r e) with x => x end
  | Ok (false, r') => Ok (false, ext r' e)
  | x => x
  end.
Proof.
  intros Hr. unfold at_end, ext. cbn [left data pos]. destruct (left r) as [|x l] eqn:Hl.
  - destruct (nth_error (data r) (pos r)) as [b|] eqn:Hb; [|reflexivity].
    rewrite nth_error_app1 by (apply nth_error_Some; rewrite Hb; discriminate). rewrite Hb. reflexivity.
  - rewrite Hl. reflexivity.
Qed.
Lemma read_actions_ext {E : Env} fuel : forall acc r c r' e, RWf r ->
  read_actions fuel 0 acc r = Ok (c, r') -> last_is_indirect c = true ->
  exists r'', read_actions fuel 0 acc (ext r e) = Ok (c, r'') /\ bread r'' = bread r'.
Proof.
  induction fuel as [|fuel IH]; intros acc r c r' e Hr H Hl; [discriminate|].
  cbn [read_actions] in *. unfold valid_length in *. cbn [N.eqb] in *. unfold bind in *. cbn [ret] in *.
  destruct (at_end_spec r Hr) as (e1 & r1 & E1 & Hr1 & D1 & _ & B1 & _ & T1 & _). rewrite E1 in H.
  destruct e1.
  - injection H as <- <-. destruct (at_end_spec (ext r e) (RWf_ext _ _ Hr)) as (e2 & r2 & E2 & _ & _ & _ & B2 & _).
    rewrite E2. destruct (T1 eq_refl) as (-> & _). destruct e2; [|rewrite Hl]; exists r2; auto.
  - rewrite at_end_ext by exact Hr. rewrite E1. destruct (last_is_indirect acc) eqn:Ha.
    + injection H as <- <-. exists (ext r1 e). auto.
    + pose proof (Nice_action r1 Hr1) as N8. destruct (read_action r1) as [[a r2]| |]; try discriminate.
      destruct N8 as (_ & Hr2 & _ & _ & X). rewrite X. eapply IH; eassumption.
Qed.
Lemma command_ext {E : Env} d c r e : read_command 0 (new_reader d) = Ok (c, r) -> last_is_indirect c = true ->
  exists r', read_command 0 (new_reader (d ++ e)) = Ok (c, r') /\ bread r' = bread r.
Proof.
  intros H Hl. unfold read_command in *. cbn [new_reader data] in *.
  destruct (read_actions_ext _ _ _ _ _ e (new_RWf d) H Hl) as (r' & H' & B).
  exists r'. split; [|exact B]. rewrite app_length. change (S (length d + length e)) with (S (length d) + length e)%nat.
  apply read_actions_fuel; [exact H'|discriminate].
Qed.

(** ** C37 *)
Lemma adv_new_pos d k : (k <= 8 * length d)%nat -> pos (adv (new_reader d) k) = Nat.div (k + 7) 8.
Proof. intros _. unfold adv, need. cbn [pos left new_reader length]. rewrite Nat.sub_0_r. reflexivity. Qed.
Lemma start_short {E : Env} d k : (8 * length d < k + 8)%nat -> start read_action d k = Err EIncomplete.
Proof.
  intros Hk. unfold start. assert (V : length (view (new_reader d)) = (8 * length d)%nat).
  { unfold view, new_reader. cbn [left pos data app]. rewrite skipn_O. apply bits_of_bytes_length. }
  destruct (Nat.eqb_spec k 0) as [->|Hk0].
  - apply read_action_short; [apply new_RWf|lia].
  - unfold bind, skip_bits, bind. destruct (Nat.le_gt_cases k (length (view (new_reader d)))) as [L|L].
    + rewrite read_bits_ok by (apply new_RWf || exact L). cbn [ret]. apply read_action_short.
      * apply RWf_adv; [apply new_RWf|exact L].
      * rewrite view_adv, skipn_length by (apply new_RWf || exact L). lia.
    + rewrite read_bits_err by (apply new_RWf || exact L). reflexivity.
Qed.
Lemma start_at {E : Env} d k : (k + 8 <= 8 * length d)%nat ->
  start read_action d k =
  match assoc (N_of_bits (firstn 6 (skipn (k + 2) (bits_of_bytes d)))) action_readers with
  | Some m => m (mkRd d (Nat.div (k + 7) 8) [] (k + 8))
  | None => Err EInvalidParam
  end.
Proof.
  intros Hk. assert (V : view (new_reader d) = bits_of_bytes d) by reflexivity.
  assert (L : length (view (new_reader d)) = (8 * length d)%nat) by (rewrite V; apply bits_of_bytes_length).
  assert (S1 : start read_action d k = read_action (adv (new_reader d) k)).
  { unfold start. destruct (Nat.eqb_spec k 0) as [->|Hk0].
    - reflexivity.
    - unfold bind, skip_bits, bind. rewrite read_bits_ok by (apply new_RWf || lia). reflexivity. }
  rewrite S1. rewrite read_action_any.
  - rewrite adv_adv by (apply new_RWf || lia). rewrite view_adv by (apply new_RWf || lia).
    rewrite skipn_skipn, V. rewrite adv_new_pos by lia.
    replace (Nat.div (k + 8 + 7) 8 - 1)%nat with (Nat.div (k + 7) 8).
    2: { replace (k + 8 + 7)%nat with (k + 7 + 1 * 8)%nat by lia. rewrite Nat.div_add by lia. lia. }
    unfold adv at 1 2. cbn [data bread new_reader]. reflexivity.
  - apply RWf_adv; [apply new_RWf|lia].
  - rewrite view_adv, skipn_length by (apply new_RWf || lia). lia.
Qed.

Lemma skipn_bits_of_bytes d j : skipn (8 * j) (bits_of_bytes d) = bits_of_bytes (skipn j d).
Proof.
  revert j. induction d as [|b d IH]; intros [|j]; try reflexivity.
  cbn [bits_of_bytes]. rewrite skipn_app, bits_of_length, skipn_all2 by (rewrite bits_of_length; lia).
  replace (8 * S j - 8)%nat with (8 * j)%nat by lia. cbn [app skipn]. apply IH.
Qed.
Lemma boundary_in (d : list N) k : (k + 8 <= 8 * length d)%nat -> (boundary k < length d)%nat.
Proof. intros H. unfold boundary. apply Nat.div_lt_upper_bound; lia. Qed.
Lemma start_unassigned {E : Env} d k : (k + 8 <= 8 * length d)%nat -> ~ In (opcode_at d k) assigned_opcodes ->
  start read_action d k = Err EInvalidParam.
Proof.
  intros Hk Hn. rewrite start_at by exact Hk. fold (opcode_at d k).
  destruct (assoc (opcode_at d k) action_readers) eqn:Ha; [|reflexivity]. exfalso. apply Hn, assigned_reader. eauto.
Qed.
Lemma start_same {E : Env} d k b : (k + 8 <= 8 * length d)%nat -> nth_error d (boundary k) = Some b ->
  opcode_at d k = b mod 64 -> start read_action d k = read_action (mkRd d (boundary k) [] k).
Proof.
  intros Hk Hb He. pose proof (boundary_in d k Hk) as Hi.
  rewrite start_at by exact Hk. fold (opcode_at d k) (boundary k).
  rewrite (read_action_at (mkRd d (boundary k) [] k) (boundary k) b (skipn (S (boundary k)) d)).
  - rewrite He. reflexivity.
  - apply At_start. lia.
  - apply nth_skipn. exact Hb.
Qed.
Lemma start_mixed {E : Env} d k b a r : (k + 8 <= 8 * length d)%nat -> nth_error d (boundary k) = Some b ->
  start read_action d k = Ok (a, r) ->
  opcode_of a = opcode_at d k /\ (is_tx_status a = false -> stored_opcode a = b mod 64) /\
  RWf r /\ data r = d.
Proof.
  intros Hk Hb H. pose proof (boundary_in d k Hk) as Hi. rewrite start_at in H by exact Hk.
  fold (opcode_at d k) (boundary k) in H.
  destruct (assoc (opcode_at d k) action_readers) as [m|] eqn:Ha; [|discriminate].
  destruct (arms _ _ (assoc_In _ _ _ Ha)) as (_ & Hm).
  pose proof (Hm b (mkRd d (boundary k) [] (k + 8)) (proj1 (At_start d (boundary k) (k + 8) ltac:(lia))) eq_refl Hb) as N1.
  unfold NiceR in N1. rewrite H in N1. destruct N1 as ((P1 & P2 & _) & R & D & _). auto.
Qed.
(** At a whole number of bytes. *)
Lemma opcode_at_bytes d j b : nth_error d j = Some b -> opcode_at d (8 * j) = b mod 64.
Proof.
  intros H. unfold opcode_at. rewrite <- skipn_skipn, skipn_bits_of_bytes.
  rewrite (nth_skipn d j b H). cbn [bits_of_bytes].
  change (bits_of 8 b) with ([N.testbit b 7; N.testbit b 6] ++ bits_of 6 b). rewrite <- app_assoc.
  cbn [app skipn]. rewrite firstn_app, firstn_all2 by (rewrite bits_of_length; lia).
  rewrite bits_of_length. cbn [Nat.sub]. rewrite firstn_O, app_nil_r. apply N_of_bits_bits_of.
Qed.
Lemma boundary_bytes j : boundary (8 * j) = j.
Proof. unfold boundary. rewrite Nat.add_comm, (Nat.mul_comm 8), Nat.div_add by lia. reflexivity. Qed.
Lemma start_bytes {E : Env} d j : (j < length d)%nat ->
  start read_action d (8 * j) = read_action (mkRd d j [] (8 * j)).
Proof.
  intros Hj. destruct (nth_error d j) as [b|] eqn:Hb; [|apply nth_error_None in Hb; lia].
  rewrite <- (boundary_bytes j) at 2. apply (start_same d (8 * j) b).
  - lia.
  - rewrite boundary_bytes. exact Hb.
  - apply opcode_at_bytes. exact Hb.
Qed.
Lemma offset_bytes {E : Env} pre a suf : wf_action a ->
  action_from_bytes (pre ++ enc_action a ++ suf) (8 * length pre) =
  match suf with
  | [] => if Nat.leb (length pre) 1 then Ok (([], 0%nat), a) else Panic
  | _ :: t => Ok ((t, 0%nat), a)
  end.
Proof.
  intros Hw. destruct (action_first_byte a Hw) as (t & Ht). set (d := pre ++ enc_action a ++ suf).
  assert (Ld : length d = (length pre + (length (enc_action a) + length suf))%nat) by (unfold d; rewrite !app_length; lia).
  assert (L1 : (1 <= length (enc_action a))%nat) by (rewrite Ht; cbn [length]; lia).
  assert (Hr : exists r, start read_action d (8 * length pre)%nat = Ok (a, r) /\ bread r = (8 * (length pre + length (enc_action a) + 1))%nat).
  { rewrite start_bytes by lia. destruct (action_parses a Hw pre suf (8 * length pre)%nat) as (n' & E1).
    fold d in E1. eexists. split; [exact E1|].
    assert (Hs : skipn (length pre) d = (64 * flag_bits a + opcode_of a) :: t ++ suf).
    { unfold d. rewrite skipn_app, skipn_all, Nat.sub_diag, Ht. reflexivity. }
    assert (HA : At (mkRd d (length pre) [] (8 * length pre)%nat) (length pre)) by (apply At_start; lia).
    destruct (read_action_counted _ _ _ _ _ _ HA Hs E1) as (_ & _ & _ & C).
    unfold BP in C. cbn [bread pos left length] in *. lia. }
  destruct Hr as (r & Hr & Hb). unfold action_from_bytes, u_from_bytes. rewrite Hr. cbn [rbind snd fst].
  unfold pad_rest. rewrite Hb. cbn [fst snd].
  assert (M : Nat.modulo (8 * (length pre + length (enc_action a) + 1)) 8 = 0%nat).
  { rewrite Nat.mul_comm. apply Nat.mod_mul. lia. }
  assert (Q : Nat.div (8 * (length pre + length (enc_action a) + 1)) 8 = (length pre + length (enc_action a) + 1)%nat).
  { rewrite Nat.mul_comm. apply Nat.div_mul. lia. }
  rewrite M, Q. cbn [Nat.eqb].
  destruct suf as [|x suf]; cbn [length] in Ld.
  - destruct (Nat.leb_spec (length pre) 1).
    + destruct (Nat.leb_spec (length d * 8 + 8 * length pre) (8 * (length pre + length (enc_action a) + 1))); [reflexivity|].
      destruct (Nat.leb_spec (length pre + length (enc_action a) + 1) (length d)); [|lia]. lia.
    + destruct (Nat.leb_spec (length d * 8 + 8 * length pre) (8 * (length pre + length (enc_action a) + 1))); [lia|].
      destruct (Nat.leb_spec (length pre + length (enc_action a) + 1) (length d)); [lia|]. reflexivity.
  - assert (Sk : skipn (length pre + length (enc_action a) + 1) d = suf).
    { unfold d. rewrite app_assoc. rewrite skipn_app, app_length.
      rewrite skipn_all2 by (rewrite app_length; lia).
      replace (length pre + length (enc_action a) + 1 - (length pre + length (enc_action a)))%nat with 1%nat by lia.
      reflexivity. }
    destruct (Nat.leb_spec (length d * 8 + 8 * length pre) (8 * (length pre + length (enc_action a) + 1))) as [L|L].
    + assert (suf = []) as -> by (destruct suf; [reflexivity|cbn [length] in Ld; lia]). reflexivity.
    + destruct (Nat.leb_spec (length pre + length (enc_action a) + 1) (length d)); [|lia]. rewrite Sk. reflexivity.
Qed.
(** The property and why it fails. *)
Lemma offset_refuted {E : Env} : ~ (forall d k a rest, wf_action a ->
  skipn k (bits_of_bytes d) = bits_of_bytes (enc_action a) ++ rest ->
  exists rem, action_from_bytes d k = Ok (rem, a)).
Proof.
  intros H. specialize (H [0x0B; 0x40; 0x70] 4%nat (ARequestTag (mkRequestTag true 52 7)) [false; false; false; false]).
  destruct H as (rem & Hr); [split; reflexivity|reflexivity|].
  unfold action_from_bytes, u_from_bytes in Hr. rewrite start_at in Hr by (cbn [length]; lia).
  replace (assoc (N_of_bits (firstn 6 (skipn (4 + 2) (bits_of_bytes [0x0B; 0x40; 0x70])))) action_readers)
    with (Some (v <- read_request_tag ;; ret (ARequestTag v))) in Hr; [discriminate|].
  unfold action_readers. destruct is_wizzilab; reflexivity.
Qed.
