(** Reading one action and a list of actions from a byte boundary. *)
From Coq Require Import List NArith ZArith Bool Lia ZifyBool ZifyNat ZifyN Arith.
From Verif Require Import Base Deku Utils Types Physical Link Network Session Data Query
  Interface File Operation Action Command LBits LReader LTypes LUtf8 WellFormed SpecLayout LLayout
  LRound LRoundOps.
Import ListNotations.
Open Scope N_scope.

(** The arm an opcode selects. *)
Lemma dispatch {E : Env} a : wf_action a ->
  exists m, assoc (action_opcode a) action_readers = Some m /\ RTA (write_action a) m a.
Proof.
  assert (L : forall (m : reader action) v, RT (write_action a) m v -> v = a ->
    assoc (action_opcode a) action_readers = Some m ->
    exists m, assoc (action_opcode a) action_readers = Some m /\ RTA (write_action a) m a).
  { intros m v H -> Hm. exists m. split; [exact Hm|apply RT_A; exact H]. }
  unfold action_readers in *. destruct a; intros H; cbn [wf_action action_opcode write_action] in *;
    try contradiction;
    try (destruct is_wizzilab; eexists; (split; [cbn [assoc app N.eqb Pos.eqb]; reflexivity|]);
    lazymatch goal with
    | |- RTA (write_nop _ _) _ _ => apply RT_A; eapply RT_last; [apply RT_nop; [reflexivity|exact H]|reflexivity]
    | |- RTA (write_read_file_data _ _) _ _ => apply RT_A; eapply RT_last; [apply RT_read_file_data; exact H|reflexivity]
    | |- RTA (write_file_id_op _ _) _ _ => apply RT_A; eapply RT_last; [apply RT_file_id_op; [reflexivity|exact H]|reflexivity]
    | |- RTA (write_file_data _ _) _ _ => apply RT_A; eapply RT_last; [apply RT_file_data; [reflexivity|exact H]|reflexivity]
    | |- RTA (write_file_properties _ _) _ _ => apply RT_A; eapply RT_last; [apply RT_file_properties; [reflexivity|exact H]|reflexivity]
    | |- RTA (write_action_query _ _) _ _ => apply RT_A; eapply RT_last; [apply RT_action_query; [reflexivity|exact H]|reflexivity]
    | |- RTA (write_permission_request _ _) _ _ => apply RT_A; eapply RT_last; [apply RT_permission_request; [reflexivity|apply H|apply H]|reflexivity]
    | |- RTA (write_copy_file _ _) _ _ => apply RT_A; eapply RT_last; [apply RT_copy_file; [reflexivity|apply H|apply H|apply H]|reflexivity]
    | |- RTA (write_status_operand _ _) _ _ => apply RT_A; eapply RT_last; [apply RT_status_operand; [reflexivity|exact H]|reflexivity]
    | |- RTA (write_response_tag _ _) _ _ => apply RT_A; eapply RT_last; [apply RT_response_tag; [reflexivity|apply H|apply H]|reflexivity]
    | |- RTA (write_request_tag _ _) _ _ => apply RT_A; eapply RT_last; [apply RT_request_tag; [reflexivity|apply H|apply H]|reflexivity]
    | |- RTA (write_chunk _ _) _ _ => apply RT_A; eapply RT_last; [apply RT_chunk; [reflexivity|exact H]|reflexivity]
    | |- RTA (write_logic _ _) _ _ => apply RT_A; eapply RT_last; [apply RT_logic; [reflexivity|exact H]|reflexivity]
    | |- RTA (write_forward _ _) _ _ => eapply RTA_last; [apply RTA_forward; [reflexivity|exact H]|reflexivity]
    | |- RTA (write_indirect_forward _ _) _ _ => eapply RTA_last; [apply RTA_indirect_forward; [reflexivity|exact H]|reflexivity]
    end).
Qed.

(** The reader is on the boundary in front of byte [p]; that byte may already be prefetched. *)
Definition At (r : rd) (p : nat) : Prop :=
  RWf r /\ (p <= length (data r))%nat /\ BP r = (8 * p)%nat /\ view r = bits_of_bytes (skipn p (data r)).

Lemma At_start d p b : (p <= length d)%nat -> At (mkRd d p [] b) p.
Proof.
  intros H. unfold At, RWf, BP, view. cbn [data pos left length]. repeat split; try lia.
Qed.
Lemma At_new d : At (new_reader d) 0.
Proof. apply At_start. lia. Qed.

(** What [at_end] does on a byte boundary. *)
Lemma at_end_nil r p : At r p -> skipn p (data r) = [] -> at_end r = Ok (true, r) /\ left r = [] /\ pos r = p.
Proof.
  intros (Hr & Hp & Hb & Hv) Hs. rewrite Hs in Hv. cbn [bits_of_bytes] in Hv.
  unfold view in Hv. apply app_eq_nil in Hv as [Hl Hd]. unfold at_end. rewrite Hl.
  unfold BP in Hb. rewrite Hl in Hb. cbn [length] in Hb.
  assert (pos r = p) as Ep by lia. rewrite Ep.
  assert (length (data r) <= p)%nat. { apply (f_equal (@length N)) in Hs. rewrite skipn_length in Hs. cbn in Hs. lia. }
  rewrite (proj2 (nth_error_None (data r) p)) by assumption. auto.
Qed.

Lemma skipn_cons_nth {A} p (l : list A) b t : skipn p l = b :: t ->
  nth_error l p = Some b /\ skipn (S p) l = t /\ (p < length l)%nat.
Proof.
  revert l. induction p as [|p IH]; intros l H; destruct l as [|x l]; cbn [skipn] in H; try discriminate.
  - injection H as -> ->. repeat split. cbn. lia.
  - apply IH in H as (A1 & A2 & A3). repeat split; [exact A1|exact A2|cbn; lia].
Qed.

Lemma bits8_length b : length (bits_of 8 b) = 8%nat. Proof. apply bits_of_length. Qed.
Opaque bits_of.

Lemma at_end_cons r p b t : At r p -> skipn p (data r) = b :: t ->
  exists r', at_end r = Ok (false, r') /\ r' = mkRd (data r) (S p) (bits_of 8 b) (bread r) /\ At r' p.
Proof.
  intros (Hr & Hp & Hb & Hv) Hs. destruct (skipn_cons_nth _ _ _ _ Hs) as (Hn & Ht & Hlt).
  assert (A : At (mkRd (data r) (S p) (bits_of 8 b) (bread r)) p).
  { unfold At, RWf, BP, view. cbn [data pos left]. rewrite bits8_length. repeat split; try lia.
    rewrite Ht, Hs. reflexivity. }
  destruct r as [d q l n]. cbn [data pos left bread] in *. unfold at_end. cbn [data pos left bread].
  destruct l as [|x l].
  - unfold BP in Hb. cbn [pos left length] in Hb. replace q with p by lia. rewrite Hn.
    eexists. split; [reflexivity|]. split; [reflexivity|exact A].
  - destruct Hr as (R1 & R2 & R3). unfold BP in Hb. cbn [data pos left] in *.
    assert (Hl8 : length (x :: l) = 8%nat /\ q = S p) by (cbn [length] in *; lia). destruct Hl8 as (Hl8 & ->).
    unfold view in Hv. cbn [data pos left] in Hv. rewrite Hs in Hv. cbn [bits_of_bytes] in Hv.
    assert (El : x :: l = bits_of 8 b).
    { apply (f_equal (firstn 8)) in Hv. rewrite <- Hl8 in Hv at 1. rewrite firstn_app, Nat.sub_diag, firstn_all in Hv.
      rewrite <- (bits8_length b) in Hv at 1. rewrite firstn_app, Nat.sub_diag, firstn_all in Hv.
      cbn [firstn] in Hv. rewrite !app_nil_r in Hv. exact Hv. }
    rewrite El. eexists. split; [reflexivity|]. split; [reflexivity|exact A].
Qed.
Transparent bits_of.

(** The first step of reading an action: its opcode; the operand reader then starts over. *)
Lemma read_action_at {E : Env} r p b t : At r p -> skipn p (data r) = b :: t ->
  read_action r = match assoc (b mod 64) action_readers with
                  | Some m => m (mkRd (data r) p [] (bread r + 8))
                  | None => Err EInvalidParam
                  end.
Proof.
  intros (Hr & Hp & Hb & Hv) Hs.
  assert (Hl : (8 <= length (view r))%nat).
  { rewrite Hv, Hs. cbn [bits_of_bytes]. rewrite app_length, bits_of_length. lia. }
  unfold read_action, bind at 1, skip_bits, bind at 1. rewrite read_bits_ok by (assumption || lia).
  unfold ret at 1, bind at 1. unfold read_opcode. rewrite read_uint_ok.
  2: { apply RWf_adv; [assumption|lia]. } 2: { rewrite view_adv, skipn_length by (assumption || lia). lia. }
  rewrite adv_adv by (assumption || lia). cbn [Nat.add].
  rewrite view_adv by (assumption || lia).
  assert (Ec : N_of_bits (firstn 6 (skipn 2 (view r))) = b mod 64).
  { rewrite Hv, Hs. change 64 with (2 ^ N.of_nat 6). rewrite <- N_of_bits_bits_of. reflexivity. }
  rewrite Ec. unfold bind, seek_back1.
  pose proof (need_bounds r 8) as B. destruct Hr as (R1 & R2 & R3). unfold BP in Hb.
  assert (Ep : pos (adv r 8) = S p). { unfold adv. cbn [pos]. lia. }
  rewrite Ep. destruct (assoc (b mod 64) action_readers); reflexivity.
Qed.
Lemma read_action_nil {E : Env} r p : At r p -> skipn p (data r) = [] -> read_action r = Err EIncomplete.
Proof.
  intros (Hr & Hp & Hb & Hv) Hs. unfold read_action, bind at 1, skip_bits, bind.
  rewrite read_bits_err; [reflexivity|assumption|]. rewrite Hv, Hs. cbn. lia.
Qed.

(** First byte of an encoding. *)
Lemma hdr_byte_mod f1 f0 op : op < 64 -> first_byte f1 f0 op mod 64 = op.
Proof.
  intros H. unfold first_byte, pack. cbn [fold_left fst snd].
  change (2 ^ 1) with 2. change (2 ^ 6) with 64. destruct f1, f0; cbn [bit]; lia.
Qed.
Lemma enc_action_first {E : Env} a : wf_action a ->
  exists b t, enc_action a = b :: t /\ b mod 64 = action_opcode a.
Proof.
  destruct a; intros H; cbn [wf_action enc_action action_opcode] in *; try contradiction;
    do 2 eexists; (split; [reflexivity|]);
    unfold hdr_byte; try (apply hdr_byte_mod; reflexivity).
  - destruct (so_type v); reflexivity.
  - destruct (ck_step v); reflexivity.
  - destruct (lg_op v); reflexivity.
Qed.

(** One well-formed action. *)
Lemma read_action_ok {E : Env} a r p t : wf_action a -> At r p -> skipn p (data r) = enc_action a ++ t ->
  read_action r = Ok (a, mkRd (data r) (p + length (enc_action a)) [] (bread r + 8 + 8 * length (enc_action a))).
Proof.
  intros Ha Hr Hs. destruct (enc_action_first a Ha) as (b & u & E1 & E2).
  assert (Hs' : skipn p (data r) = b :: (u ++ t)) by (rewrite Hs, E1; reflexivity).
  rewrite (read_action_at r p _ _ Hr Hs'), E2.
  destruct (dispatch a Ha) as (m & -> & bs & Hw & R).
  destruct (W_action a Ha) as (Hw' & _). rewrite Hw' in Hw. injection Hw as <-.
  destruct Hr as (Hr & Hp & _).
  pose proof (At_start (data r) p (bread r + 8) Hp) as (Hr' & _).
  set (r' := mkRd (data r) p [] (bread r + 8)) in *.
  assert (Hpre : prefix (bits_of_bytes (enc_action a)) (view r')).
  { unfold view, r'. cbn [left pos data app]. rewrite Hs, bits_of_bytes_app. eexists. reflexivity. }
  rewrite R; [|assumption|reflexivity|assumption].
  rewrite bits_of_bytes_length, adv_aligned; [reflexivity|assumption|reflexivity|].
  apply prefix_length in Hpre. rewrite bits_of_bytes_length in Hpre. exact Hpre.
Qed.

(** ** The action loop *)

(** Actions that reading gives back from their encoding. *)
Definition readable {E : Env} (a : action) : Prop :=
  enc_action a <> [] /\ forall r p t, At r p -> skipn p (data r) = enc_action a ++ t ->
  read_action r = Ok (a, mkRd (data r) (p + length (enc_action a)) [] (bread r + 8 + 8 * length (enc_action a))).
Lemma wf_readable {E : Env} a : wf_action a -> readable a.
Proof.
  intros H. split.
  - destruct (enc_action_first a H) as (b & t & -> & _). discriminate.
  - intros r p t. apply read_action_ok. exact H.
Qed.
Lemma wf_all_readable {E : Env} c : Forall wf_action c -> Forall readable c.
Proof. apply Forall_impl, wf_readable. Qed.
Lemma readable_first {E : Env} a : readable a -> exists b t, enc_action a = b :: t.
Proof. intros (H & _). destruct (enc_action a); [contradiction|eauto]. Qed.
Lemma last_is_indirect_snoc acc a : last_is_indirect (acc ++ [a]) = is_indirect a.
Proof. unfold last_is_indirect. rewrite rev_app_distr. cbn. destruct a; reflexivity. Qed.

Lemma skipn_app_eq {A} p (d a t : list A) : (p <= length d)%nat -> skipn p d = a ++ t ->
  skipn (p + length a) d = t /\ (p + length a <= length d)%nat.
Proof.
  intros Hp H. split.
  - rewrite <- skipn_skipn, H, skipn_app, Nat.sub_diag, skipn_all. reflexivity.
  - apply (f_equal (@length A)) in H. rewrite skipn_length, app_length in H. lia.
Qed.

Lemma read_actions_step {E : Env} fuel acc a r p t :
  readable a -> last_is_indirect acc = false -> At r p -> skipn p (data r) = enc_action a ++ t ->
  exists r', read_actions (S fuel) 0 acc r = read_actions fuel 0 (acc ++ [a]) r' /\
    r' = mkRd (data r) (p + length (enc_action a)) [] (bread r + 8 + 8 * length (enc_action a)) /\
    At r' (p + length (enc_action a)) /\ skipn (p + length (enc_action a)) (data r) = t.
Proof.
  intros Ha Hl Hr Hs. destruct (readable_first a Ha) as (b & u & E1).
  assert (Hs' : skipn p (data r) = b :: (u ++ t)) by (rewrite Hs, E1; reflexivity).
  destruct (at_end_cons r p _ _ Hr Hs') as (r1 & Ee & Er & Hr1).
  cbn [read_actions]. unfold valid_length. cbn [N.eqb]. unfold bind at 1, ret at 1. cbv beta iota.
  unfold bind at 1. rewrite Ee. cbv iota. rewrite Hl.
  assert (D : data r1 = data r) by (subst r1; reflexivity).
  assert (B : bread r1 = bread r) by (subst r1; reflexivity).
  unfold bind. rewrite (proj2 Ha r1 p t Hr1) by (rewrite D; exact Hs).
  rewrite D, B. eexists. split; [reflexivity|]. split; [reflexivity|].
  destruct (skipn_app_eq p (data r) (enc_action a) t (proj1 (proj2 Hr)) Hs) as (G1 & G2).
  split; [apply At_start; exact G2|exact G1].
Qed.

(** Bits counted for a command: its bytes, and one more byte per action. *)
Definition counted {E : Env} (c : command) : nat := (8 * length (enc_command c) + 8 * length c)%nat.

(** A list of actions none of which ends the loop. *)
Lemma read_actions_many {E : Env} c : forall fuel acc r p t,
  Forall readable c -> Forall (fun a => is_indirect a = false) c -> last_is_indirect acc = false ->
  At r p -> skipn p (data r) = enc_command c ++ t -> (length c <= fuel)%nat ->
  exists r', read_actions fuel 0 acc r = read_actions (fuel - length c) 0 (acc ++ c) r' /\
    data r' = data r /\ bread r' = (bread r + counted c)%nat /\ last_is_indirect (acc ++ c) = false /\
    At r' (p + length (enc_command c)) /\ skipn (p + length (enc_command c)) (data r) = t.
Proof.
  induction c as [|a c IH]; intros fuel acc r p t Hw Hi Hl Hr Hs Hf.
  - exists r. unfold counted. cbn [enc_command flat_map length Nat.mul]. rewrite app_nil_r, !Nat.add_0_r, Nat.sub_0_r.
    cbn [enc_command flat_map app] in Hs. auto 10.
  - apply Forall_cons_iff in Hw as [Ha Hw]. apply Forall_cons_iff in Hi as [Hi1 Hi].
    cbn [length] in Hf. destruct fuel as [|fuel]; [lia|].
    cbn [enc_command flat_map] in *. rewrite <- app_assoc in Hs.
    destruct (read_actions_step fuel acc a r p _ Ha Hl Hr Hs) as (r1 & E1 & Er & Hr1 & Hs1).
    destruct (IH fuel (acc ++ [a]) r1 (p + length (enc_action a))%nat t) as (r2 & E2 & D2 & B2 & L2 & A2 & S2).
    + assumption.
    + assumption.
    + rewrite last_is_indirect_snoc. assumption.
    + assumption.
    + subst r1. cbn [data]. exact Hs1.
    + lia.
    + exists r2. unfold counted in *. cbn [length enc_command flat_map].
      rewrite <- app_assoc in L2, E2. cbn [app] in L2, E2.
      rewrite app_length, !Nat.add_assoc. fold (enc_command c) in *.
      split; [rewrite E1, E2; reflexivity|].
      split; [rewrite D2; subst r1; reflexivity|].
      split; [rewrite B2; subst r1; cbn [bread]; lia|].
      split; [exact L2|]. split; [exact A2|].
      subst r1. cbn [data] in S2. exact S2.
Qed.

(** The end of the input ends the loop. *)
Lemma read_actions_end {E : Env} fuel acc r p : At r p -> skipn p (data r) = [] ->
  read_actions (S fuel) 0 acc r = Ok (acc, r).
Proof.
  intros Hr Hs. destruct (at_end_nil r p Hr Hs) as (Ee & _).
  cbn [read_actions]. unfold valid_length. cbn [N.eqb]. unfold bind, ret. rewrite Ee. reflexivity.
Qed.

(** An IndirectForward ends it too; one byte may have been prefetched. *)
Lemma read_actions_indirect {E : Env} fuel acc r p : At r p -> last_is_indirect acc = true ->
  exists r', read_actions (S fuel) 0 acc r = Ok (acc, r') /\ data r' = data r /\ bread r' = bread r.
Proof.
  intros Hr Hl. destruct (skipn p (data r)) as [|b t] eqn:Hs.
  - exists r. rewrite (read_actions_end fuel acc r p Hr Hs). auto.
  - destruct (at_end_cons r p _ _ Hr Hs) as (r1 & Ee & -> & _).
    cbn [read_actions]. unfold valid_length. cbn [N.eqb]. unfold bind, ret. rewrite Ee, Hl.
    eexists. split; [reflexivity|]. auto.
Qed.

Lemma enc_command_app {E : Env} a b : enc_command (a ++ b) = enc_command a ++ enc_command b.
Proof. apply flat_map_app. Qed.
Lemma enc_action_len {E : Env} a : readable a -> (1 <= length (enc_action a))%nat.
Proof. intros H. destruct (readable_first a H) as (b & t & ->). cbn. lia. Qed.
Lemma enc_command_len {E : Env} c : Forall readable c -> (length c <= length (enc_command c))%nat.
Proof.
  induction 1 as [|a c H _ IH]; [cbn; lia|]. cbn [enc_command flat_map length]. rewrite app_length.
  pose proof (enc_action_len a H). fold (enc_command c). lia.
Qed.

(** Commands without an IndirectForward, at the end of the input. *)
Lemma read_command_plain {E : Env} c b : Forall readable c -> Forall (fun a => is_indirect a = false) c ->
  exists r', read_command 0 (mkRd (enc_command c) 0 [] b) = Ok (c, r') /\
    data r' = enc_command c /\ bread r' = (b + counted c)%nat.
Proof.
  intros Hw Hi. unfold read_command. cbn [data].
  pose proof (enc_command_len c Hw) as Hc.
  destruct (read_actions_many c (S (length (enc_command c))) [] (mkRd (enc_command c) 0 [] b) 0 [])
    as (r1 & E1 & D1 & B1 & L1 & A1 & S1); auto.
  - apply At_start. lia.
  - cbn [data skipn]. rewrite app_nil_r. reflexivity.
  - cbn [data] in *. rewrite E1.
    replace (S (length (enc_command c)) - length c)%nat with (S (length (enc_command c) - length c)) by lia.
    rewrite (read_actions_end _ _ r1 _ A1) by (rewrite D1; exact S1).
    exists r1. cbn [app] in *. auto.
Qed.

(** Commands up to and including an IndirectForward; [t] is never looked at. *)
Lemma read_command_indirect {E : Env} c a t b : Forall readable c -> Forall (fun a => is_indirect a = false) c ->
  readable a -> is_indirect a = true ->
  exists r', read_command 0 (mkRd (enc_command (c ++ [a]) ++ t) 0 [] b) = Ok (c ++ [a], r') /\
    data r' = enc_command (c ++ [a]) ++ t /\ bread r' = (b + counted (c ++ [a]))%nat.
Proof.
  intros Hw Hi Ha Hia. unfold read_command. cbn [data].
  pose proof (enc_command_len c Hw) as Hc. pose proof (enc_action_len a Ha) as Hla.
  set (D := enc_command (c ++ [a]) ++ t) in *.
  assert (HD : D = enc_command c ++ (enc_action a ++ t)).
  { unfold D. rewrite enc_command_app. cbn [enc_command flat_map]. rewrite app_nil_r, <- app_assoc. reflexivity. }
  assert (HL : (length c + 1 <= length D)%nat) by (rewrite HD, !app_length; lia).
  destruct (read_actions_many c (S (length D)) [] (mkRd D 0 [] b) 0 (enc_action a ++ t))
    as (r1 & E1 & D1 & B1 & L1 & A1 & S1); auto.
  - apply At_start. lia.
  - lia.
  - cbn [data app] in *. rewrite E1.
    replace (S (length D) - length c)%nat with (S (S (length D - length c - 1))) by lia.
    rewrite <- D1 in S1.
    destruct (read_actions_step (S (length D - length c - 1)) c a r1 _ t Ha L1 A1 S1) as (r2 & E2 & Er & A2 & S2).
    rewrite E2.
    destruct (read_actions_indirect (length D - length c - 1) (c ++ [a]) r2 _ A2) as (r3 & E3 & D3 & B3).
    { rewrite last_is_indirect_snoc. exact Hia. }
    exists r3. rewrite E3. split; [reflexivity|]. split.
    + rewrite D3, Er. cbn [data]. exact D1.
    + rewrite B3, Er. cbn [bread]. rewrite B1. unfold counted. rewrite enc_command_app.
      cbn [enc_command flat_map bread]. rewrite !app_length. cbn [length]. lia.
Qed.
