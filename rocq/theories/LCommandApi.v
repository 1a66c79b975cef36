(** The entry points of Command. *)
From Coq Require Import List NArith ZArith Bool Lia ZifyBool ZifyNat ZifyN Arith.
From Verif Require Import Base Deku Utils Types Physical Link Network Session Data Query
  Interface File Operation Action Command WellFormed SpecLayout SpecAction SpecApi LBits LReader LTypes
  LUtf8 LLayout LRound LRoundOps LAction LApi LNumbers LNice LNiceFile LNiceOps LCount LActionApi LReencode.
Import ListNotations.
Open Scope N_scope.

(** ** The loop on arbitrary input *)
Lemma BP_bound r : RWf r -> (BP r <= 8 * length (data r))%nat.
Proof. intros (H1 & H2 & H3). unfold BP. lia. Qed.
Lemma at_end_spec r : RWf r -> exists e r', at_end r = Ok (e, r') /\ RWf r' /\ data r' = data r /\
  BP r' = BP r /\ bread r' = bread r /\ view r' = view r /\ (e = true -> r' = r /\ view r = []) /\
  (e = false -> left r' <> []).
Proof.
  intros Hr. unfold at_end. destruct (left r) as [|x l] eqn:Hl.
  - destruct (nth_error (data r) (pos r)) as [b|] eqn:Hb.
    + assert (Hp : (pos r < length (data r))%nat) by (apply nth_error_Some; rewrite Hb; discriminate).
      do 2 eexists. split; [reflexivity|]. unfold RWf, BP, view. cbn [data pos left bread]. rewrite bits_of_length, Hl.
      cbn [length app]. rewrite (nth_skipn _ _ _ Hb). cbn [bits_of_bytes].
      repeat split; try lia; try discriminate.
    + do 2 eexists. split; [reflexivity|]. split; [exact Hr|]. repeat split; try discriminate.
      unfold view. rewrite Hl. apply nth_error_None in Hb. rewrite skipn_all2 by exact Hb. reflexivity.
  - do 2 eexists. split; [reflexivity|]. split; [exact Hr|]. repeat split; try discriminate. rewrite Hl. discriminate.
Qed.
Lemma read_actions_safe {E : Env} fuel : forall len acc r, RWf r -> (8 * length (data r) < BP r + 8 * fuel)%nat ->
  match read_actions fuel len acc r with
  | Ok (c, r') => RWf r' /\ data r' = data r /\ exists new, c = acc ++ new /\ (BP r + 8 * length new <= BP r')%nat
  | Err e => e <> EFuel
  | Panic => False
  end.
Proof.
  induction fuel as [|fuel IH]; intros len acc r Hr Hf.
  - pose proof (BP_bound r Hr). lia.
  - cbn [read_actions]. unfold bind at 1.
    assert (exists ok r1, valid_length len r = Ok (ok, r1) /\ RWf r1 /\ data r1 = data r /\ (BP r <= BP r1)%nat)
      as (ok & r1 & E1 & Hr1 & D1 & B1).
    { unfold valid_length. destruct (len =? 0).
      - do 2 eexists. split; [reflexivity|]. split; [exact Hr|]. split; [reflexivity|lia].
      - unfold bind, stream_position, ret. do 2 eexists. split; [reflexivity|].
        destruct Hr as (R1 & R2 & R3). unfold RWf, BP. cbn [data pos left length]. repeat split; lia. }
    rewrite E1.
    assert (Done : forall r2, RWf r2 -> data r2 = data r -> (BP r <= BP r2)%nat ->
      RWf r2 /\ data r2 = data r /\ exists new, acc = acc ++ new /\ (BP r + 8 * length new <= BP r2)%nat).
    { intros r2 H2 D2 B2. split; [exact H2|]. split; [exact D2|]. exists []. rewrite app_nil_r.
      split; [reflexivity|]. cbn [length]. lia. }
    destruct ok; [|cbn [ret]; apply Done; assumption].
    destruct (at_end_spec r1 Hr1) as (e & r2 & E2 & Hr2 & D2 & B2 & _). unfold bind at 1. rewrite E2.
    destruct e; [cbn [ret]; apply Done; [exact Hr2|congruence|lia]|].
    destruct (last_is_indirect acc); [cbn [ret]; apply Done; [exact Hr2|congruence|lia]|].
    unfold bind. pose proof (Nice_action r2 Hr2) as N8.
    destruct (read_action r2) as [[a r3]|er|]; [|apply N8|exact N8].
    destruct N8 as (_ & Hr3 & D3 & B3 & _).
    specialize (IH len (acc ++ [a]) r3 Hr3).
    assert (D : data r3 = data r) by congruence. rewrite D in IH. specialize (IH ltac:(lia)).
    destruct (read_actions fuel len (acc ++ [a]) r3) as [[c r4]|er|]; [|exact IH|exact IH].
    destruct IH as (Hr4 & D4 & new & -> & B4). split; [exact Hr4|]. split; [exact D4|].
    exists (a :: new). rewrite <- app_assoc. split; [reflexivity|]. cbn [length]. lia.
Qed.
Lemma read_command_safe {E : Env} len r : RWf r ->
  match read_command len r with
  | Ok (c, r') => RWf r' /\ data r' = data r /\ (BP r + 8 * length c <= BP r')%nat
  | Err e => e <> EFuel
  | Panic => False
  end.
Proof.
  intros Hr. unfold read_command. pose proof (read_actions_safe (S (length (data r))) len [] r Hr ltac:(lia)) as H.
  destruct (read_actions _ _ _ r) as [[c r']|e|]; try exact H.
  destruct H as (H1 & H2 & new & -> & B). auto.
Qed.

(** More passes change nothing. *)
Lemma read_actions_fuel {E : Env} fuel : forall k len acc r x, read_actions fuel len acc r = x ->
  x <> Err EFuel -> read_actions (fuel + k) len acc r = x.
Proof.
  induction fuel as [|fuel IH]; intros k len acc r x H Hx; [cbn [read_actions] in H; unfold fail in H; congruence|].
  cbn [read_actions Nat.add] in *. unfold bind in *.
  destruct (valid_length len r) as [[ok r1]| |]; try exact H. destruct ok; [|exact H].
  destruct (at_end r1) as [[e r2]| |]; try exact H. destruct e; [exact H|].
  destruct (last_is_indirect acc); [exact H|].
  destruct (read_action r2) as [[a r3]| |]; try exact H. apply IH; assumption.
Qed.

Lemma action_no_panic {E : Env} d : action_try_from d <> Panic /\ action_try_from d <> Err EFuel.
Proof.
  unfold action_try_from. rewrite u_try_from_eq. pose proof (Nice_action (new_reader d) (new_RWf d)) as H.
  destruct (read_action (new_reader d)) as [[a r]|e|]; [|split; [discriminate|intros K; injection K as ->; apply H; reflexivity]|contradiction].
  destruct (Nat.leb _ _); split; discriminate.
Qed.
Lemma command_no_panic {E : Env} d :
  match command_try_from d with
  | Ok c => (length c <= length d)%nat
  | Err e => e <> EFuel
  | Panic => False
  end.
Proof.
  unfold command_try_from. rewrite u_try_from_eq. pose proof (read_command_safe 0 (new_reader d) (new_RWf d)) as H.
  destruct (read_command 0 (new_reader d)) as [[c r]|e|]; [|exact H|exact H].
  destruct H as (H1 & H2 & H3). pose proof (BP_bound r H1) as B. rewrite H2 in B. cbn [new_reader data] in B.
  destruct (Nat.leb _ _); [lia|discriminate].
Qed.

(** ** C13: truncation *)
Lemma At_ext r p e : At r p -> At (ext r e) p.
Proof.
  intros (H1 & H2 & H3 & H4). split; [apply RWf_ext; exact H1|]. split; [cbn [ext data]; rewrite app_length; lia|].
  split; [exact H3|]. rewrite view_ext by exact H1. cbn [ext data]. rewrite skipn_app.
  replace (p - length (data r))%nat with 0%nat by lia. cbn [skipn]. rewrite bits_of_bytes_app, H4. reflexivity.
Qed.
Lemma action_prefix {E : Env} a r p e : wf_action a -> At r p -> e <> [] ->
  skipn p (data r) ++ e = enc_action a -> read_action r = Err EIncomplete.
Proof.
  intros Ha Hr He Hs. assert (Hr0 : RWf r) by apply Hr.
  pose proof (At_ext r p e Hr) as Hx. assert (Hp : (p <= length (data r))%nat) by apply Hr.
  assert (G : read_action (ext r e)
    = Ok (a, mkRd (data r ++ e) (p + length (enc_action a)) [] (bread r + 8 + 8 * length (enc_action a)))).
  { rewrite (read_action_ok a (ext r e) p [] Ha Hx); [reflexivity|]. cbn [ext data]. rewrite app_nil_r, <- Hs, skipn_app.
    replace (p - length (data r))%nat with 0%nat by lia. reflexivity. }
  pose proof (Nice_action r Hr0) as N8. destruct (read_action r) as [[v r']|er|].
  - exfalso. destruct N8 as (_ & R' & D' & _ & X). specialize (X e). rewrite X in G. injection G as _ _ Hpos _ _.
    destruct R' as (Q & _). rewrite D' in Q. cbn [ext pos] in Hpos.
    apply (f_equal (@length N)) in Hs. rewrite app_length, skipn_length in Hs.
    destruct e; [contradiction|]. cbn [length] in Hs. lia.
  - destruct N8 as (_ & X). destruct er; try reflexivity; specialize (X ltac:(discriminate) e); rewrite X in G; discriminate.
  - contradiction.
Qed.
Lemma action_truncated {E : Env} a k : wf_action a -> (k < length (enc_action a))%nat ->
  action_try_from (firstn k (enc_action a)) = Err EIncomplete /\
  read_action (new_reader (firstn k (enc_action a))) = Err EIncomplete.
Proof.
  intros Ha Hk.
  assert (G : read_action (new_reader (firstn k (enc_action a))) = Err EIncomplete).
  { apply (action_prefix a _ 0 (skipn k (enc_action a)) Ha).
    - apply At_new.
    - intros H. apply (f_equal (@length N)) in H. rewrite skipn_length in H. cbn [length] in H. lia.
    - cbn [new_reader data skipn]. apply firstn_skipn. }
  split; [|exact G]. unfold action_try_from. rewrite u_try_from_eq, G. reflexivity.
Qed.

(** ** What a parsed command looks like *)
Lemma destruct_last {A} (l : list A) : l = [] \/ exists l' z, l = l' ++ [z].
Proof. destruct l as [|x l]; [left; reflexivity|]. right. destruct (@exists_last _ (x :: l)) as (l' & z & ->); [discriminate|eauto]. Qed.
Lemma indirect_last_snoc acc a : Forall (fun a => is_indirect a = false) acc -> indirect_last (acc ++ [a]).
Proof.
  intros H pre b post He Hb. destruct (destruct_last post) as [->|(post' & z & ->)]; [reflexivity|].
  exfalso. change (b :: post' ++ [z]) with ((b :: post') ++ [z]) in He. rewrite app_assoc in He.
  apply app_inj_tail in He as [-> _]. rewrite Forall_app in H. destruct H as [_ H].
  inversion H. congruence.
Qed.
Lemma read_actions_shape {E : Env} fuel : forall len acc r c r', RWf r ->
  Forall (fun a => is_indirect a = false) acc \/ (exists pre a, acc = pre ++ [a] /\
    Forall (fun a => is_indirect a = false) pre /\ is_indirect a = true) ->
  read_actions fuel len acc r = Ok (c, r') -> indirect_last c.
Proof.
  induction fuel as [|fuel IH]; intros len acc r c r' Hr Ha H; [discriminate|].
  assert (Hacc : indirect_last acc).
  { destruct Ha as [Ha|(pre & a & -> & Ha & _)]; [|apply indirect_last_snoc; exact Ha].
    intros pre a post -> Hi. exfalso. rewrite Forall_app in Ha. destruct Ha as [_ Ha]. inversion Ha. congruence. }
  cbn [read_actions] in H. unfold bind in H.
  assert (exists ok r1, valid_length len r = Ok (ok, r1) /\ RWf r1) as (ok & r1 & E1 & Hr1).
  { unfold valid_length. destruct (len =? 0).
    - do 2 eexists. split; [reflexivity|exact Hr].
    - unfold bind, stream_position, ret. do 2 eexists. split; [reflexivity|].
      destruct Hr as (R1 & R2 & R3). unfold RWf. cbn [data pos left length]. repeat split; lia. }
  rewrite E1 in H. destruct ok; [|injection H as <- _; exact Hacc].
  destruct (at_end_spec r1 Hr1) as (e & r2 & E2 & Hr2 & _). rewrite E2 in H.
  destruct e; [injection H as <- _; exact Hacc|].
  destruct (last_is_indirect acc) eqn:Hl; [injection H as <- _; exact Hacc|].
  pose proof (Nice_action r2 Hr2) as N8.
  destruct (read_action r2) as [[a r3]|er|]; try discriminate.
  destruct N8 as (_ & Hr3 & _).
  assert (Hn : Forall (fun a => is_indirect a = false) acc).
  { destruct Ha as [Ha|(pre & x & -> & _ & Hx)]; [exact Ha|]. rewrite last_is_indirect_snoc in Hl. congruence. }
  eapply IH; [exact Hr3| |exact H].
  destruct (is_indirect a) eqn:Hi; [right; exists acc, a; auto|left]. rewrite Forall_app. auto.
Qed.
Lemma read_command_shape {E : Env} len r c r' : RWf r -> read_command len r = Ok (c, r') -> indirect_last c.
Proof. intros Hr H. eapply read_actions_shape; [exact Hr| |exact H]. left. apply Forall_nil. Qed.

(** Reading from a byte boundary does not depend on a prefetched byte. *)
Lemma read_action_boundary {E : Env} r p : At r p -> read_action r = read_action (mkRd (data r) p [] (bread r)).
Proof.
  intros Hr. assert (Hp : (p <= length (data r))%nat) by apply Hr.
  pose proof (At_start (data r) p (bread r) Hp) as HA.
  destruct (skipn p (data r)) as [|b t] eqn:Hs.
  - rewrite (read_action_nil r p Hr Hs), (read_action_nil _ p HA Hs). reflexivity.
  - rewrite (read_action_at r p b t Hr Hs), (read_action_at _ p b t HA Hs). reflexivity.
Qed.
Lemma At_state r p : At r p -> left r = [] -> r = mkRd (data r) p [] (bread r).
Proof.
  intros (_ & _ & HB & _) Hl. destruct r as [d q l n]. cbn [left] in Hl. subst l. unfold BP in HB.
  cbn [pos left length data bread] in *. f_equal. lia.
Qed.
Lemma read_action_left {E : Env} r p b t a r' : At r p -> skipn p (data r) = b :: t ->
  read_action r = Ok (a, r') -> is_tx_status a = false -> left r' = [].
Proof.
  intros Hr Hs H Ht. pose proof (read_action_parsed r p b t a r' Hr Hs H) as (_ & Hop & _).
  assert (Hpl : (p <= length (data r))%nat) by apply Hr.
  rewrite (read_action_at r p b t Hr Hs) in H.
  destruct (assoc (b mod 64) action_readers) as [m|] eqn:Ha; [|discriminate].
  pose proof (At_start (data r) p (bread r + 8) Hpl) as (RW & _).
  assert (Ho : b mod 64 <> 38) by (rewrite <- Hop; destruct a; cbn in *; discriminate).
  pose proof (arms_moved _ _ _ _ _ (assoc_In _ _ _ Ha) Ho RW eq_refl H) as M.
  exact (moved_left _ _ RW eq_refl M).
Qed.

(** The loop over a byte-aligned stream without TxStatus. *)
Lemma read_actions_trace {E : Env} fuel : forall acc r p c r', At r p ->
  read_actions fuel 0 acc r = Ok (c, r') -> Forall (fun a => is_tx_status a = false) c ->
  exists new q, c = acc ++ new /\ actions_at (data r) p new q /\ (p <= q <= length (data r))%nat /\
    (bread r' = bread r + 8 * length new + 8 * (q - p))%nat /\ Forall parsed_action new /\
    (last_is_indirect c = false -> q = length (data r)).
Proof.
  induction fuel as [|fuel IH]; intros acc r p c r' Hr H Ht; [discriminate|].
  assert (Hp : (p <= length (data r))%nat) by apply Hr.
  cbn [read_actions] in H. unfold valid_length in H. cbn [N.eqb] in H. unfold bind in H. cbn [ret] in H.
  destruct (skipn p (data r)) as [|b t] eqn:Hs.
  - destruct (at_end_nil r p Hr Hs) as (Ee & _). rewrite Ee in H. injection H as <- <-.
    exists [], p. rewrite app_nil_r. split; [reflexivity|]. split; [apply at_nil|]. split; [lia|].
    split; [cbn [length]; lia|]. split; [apply Forall_nil|]. intros _.
    apply (f_equal (@length N)) in Hs. rewrite skipn_length in Hs. cbn [length] in Hs. lia.
  - destruct (at_end_cons r p b t Hr Hs) as (r1 & Ee & Er & Hr1). rewrite Ee in H.
    assert (D1 : data r1 = data r) by (subst r1; reflexivity).
    assert (B1 : bread r1 = bread r) by (subst r1; reflexivity).
    destruct (last_is_indirect acc) eqn:Hl.
    { injection H as <- <-. exists [], p. rewrite app_nil_r. split; [reflexivity|]. split; [apply at_nil|].
      split; [lia|]. split; [cbn [length]; lia|]. split; [apply Forall_nil|]. congruence. }
    destruct (read_action r1) as [[a r2]| |] eqn:Ea; try discriminate.
    assert (Hs1 : skipn p (data r1) = b :: t) by (rewrite D1; exact Hs).
    assert (Hta : is_tx_status a = false).
    { assert (G : exists new, c = (acc ++ [a]) ++ new).
      { assert (RW2 : RWf r2). { pose proof (Nice_action r1 (proj1 Hr1)) as N8. rewrite Ea in N8. apply N8. }
        clear - H RW2. revert RW2 H. generalize (acc ++ [a]). clear acc a. intros acc RW2.
        revert acc r2 RW2. induction fuel as [|f IHf]; intros acc r2 RW2 H; [discriminate|].
        cbn [read_actions] in H. unfold valid_length in H. cbn [N.eqb] in H. unfold bind in H. cbn [ret] in H.
        destruct (at_end_spec r2 RW2) as (e & r3 & E3 & RW3 & _). rewrite E3 in H.
        destruct e; [injection H as <- _; exists []; rewrite app_nil_r; reflexivity|].
        destruct (last_is_indirect acc); [injection H as <- _; exists []; rewrite app_nil_r; reflexivity|].
        pose proof (Nice_action r3 RW3) as N8.
        destruct (read_action r3) as [[a4 r4]| |]; try discriminate.
        destruct (IHf (acc ++ [a4]) r4 ltac:(apply N8) H) as (new & ->). exists ([a4] ++ new). rewrite !app_assoc. reflexivity. }
      destruct G as (new & ->). rewrite !Forall_app in Ht. destruct Ht as [[_ Ht] _]. inversion Ht. assumption. }
    destruct (read_action_moved r1 p b t a r2 Hr1 Hs1 Ea Hta) as (q & Hq & Hr2 & D2 & B2).
    destruct (read_action_parsed r1 p b t a r2 Hr1 Hs1 Ea) as (_ & _ & _ & HP).
    pose proof (read_action_left r1 p b t a r2 Hr1 Hs1 Ea Hta) as L2.
    destruct (IH (acc ++ [a]) r2 q c r' Hr2 H Ht) as (new & q' & -> & HA & Hq' & B' & HF & HL).
    exists (a :: new), q'. rewrite <- app_assoc. split; [reflexivity|].
    rewrite D2, D1 in *. split.
    { rewrite (read_action_boundary r1 p Hr1), (At_state r2 q Hr2 L2), D1, D2 in Ea. eapply at_cons; [exact Ea|exact HA]. }
    split; [lia|]. split; [cbn [length]; lia|]. split; [constructor; assumption|].
    intros G. apply HL. rewrite <- app_assoc. exact G.
Qed.

(** ** C10, C15, C16 *)
Lemma wf_command_cases {E : Env} c : wf_command c ->
  (Forall wf_action c /\ Forall (fun a => is_indirect a = false) c) \/
  exists pre a, c = pre ++ [a] /\ Forall wf_action pre /\ Forall (fun a => is_indirect a = false) pre /\
    wf_action a /\ is_indirect a = true.
Proof.
  intros (Hw & Hi). destruct (destruct_last c) as [->|(pre & z & ->)].
  - left. split; apply Forall_nil.
  - apply Forall_app in Hw as (Hp & Hz). inversion Hz as [|? ? Hz' _]; subst.
    assert (Hn : Forall (fun a => is_indirect a = false) pre).
    { apply Forall_forall. intros x Hx. apply in_split in Hx as (l1 & l2 & ->).
      destruct (is_indirect x) eqn:Ex; [|reflexivity]. exfalso.
      specialize (Hi l1 x (l2 ++ [z])). rewrite <- app_assoc in Hi. specialize (Hi eq_refl Ex).
      destruct l2; discriminate. }
    destruct (is_indirect z) eqn:Ez; [right; exists pre, z; auto|].
    left. rewrite !Forall_app. auto.
Qed.
Lemma counted_div {E : Env} c : Nat.div (counted c) 8 = (length (enc_command c) + length c)%nat /\ Nat.modulo (counted c) 8 = 0%nat.
Proof.
  unfold counted. replace (8 * length (enc_command c) + 8 * length c)%nat with ((length (enc_command c) + length c) * 8)%nat by lia.
  rewrite Nat.div_mul, Nat.mod_mul by lia. auto.
Qed.
Lemma command_bytes {E : Env} c : Forall wf_action c -> command_to_bytes c = Ok (enc_command c) /\ bytes (enc_command c).
Proof. intros H. pose proof (W_command c H) as HW. split; [apply W_to_bytes; exact HW|apply HW]. Qed.
Lemma command_from_bytes_plain {E : Env} c : Forall wf_action c -> Forall (fun a => is_indirect a = false) c ->
  command_from_bytes (enc_command c) 0 = Ok (([], 0%nat), c).
Proof.
  intros Hw Hi. unfold command_from_bytes. rewrite u_from_bytes_0.
  destruct (read_command_plain c 0 (wf_all_readable _ Hw) Hi) as (r & H & _ & B). unfold new_reader. rewrite H, B. cbn [Nat.add].
  destruct (counted_div c) as (-> & ->). rewrite skipn_all2 by lia. reflexivity.
Qed.
Lemma command_from_bytes_indirect {E : Env} pre a t : Forall wf_action pre ->
  Forall (fun a => is_indirect a = false) pre -> wf_action a -> is_indirect a = true ->
  command_from_bytes (enc_command (pre ++ [a]) ++ t) 0 = Ok ((skipn (S (length pre)) t, 0%nat), pre ++ [a]).
Proof.
  intros Hw Hi Ha Hia. unfold command_from_bytes. rewrite u_from_bytes_0.
  destruct (read_command_indirect pre a t 0 (wf_all_readable _ Hw) Hi (wf_readable _ Ha) Hia) as (r & H & _ & B). unfold new_reader. rewrite H, B. cbn [Nat.add].
  destruct (counted_div (pre ++ [a])) as (-> & ->).
  replace (skipn (length (enc_command (pre ++ [a])) + length (pre ++ [a])) (enc_command (pre ++ [a]) ++ t))
    with (skipn (S (length pre)) t); [reflexivity|].
  rewrite (app_length pre [a]). cbn [length]. rewrite skipn_app, (skipn_all2 (enc_command _)) by lia. cbn [app]. f_equal. lia.
Qed.
Lemma command_try_from_plain {E : Env} c : Forall wf_action c -> Forall (fun a => is_indirect a = false) c ->
  command_try_from (enc_command c) = Ok c.
Proof.
  intros Hw Hi. unfold command_try_from, u_try_from. pose proof (command_from_bytes_plain c Hw Hi) as H.
  unfold command_from_bytes in H. rewrite H. reflexivity.
Qed.
Lemma command_try_from_indirect {E : Env} pre a t : Forall wf_action pre ->
  Forall (fun a => is_indirect a = false) pre -> wf_action a -> is_indirect a = true ->
  command_try_from (enc_command (pre ++ [a]) ++ t)
  = if Nat.leb (length t) (S (length pre)) then Ok (pre ++ [a]) else Err ETooMuchData.
Proof.
  intros Hw Hi Ha Hia. unfold command_try_from, u_try_from.
  pose proof (command_from_bytes_indirect pre a t Hw Hi Ha Hia) as H. unfold command_from_bytes in H. rewrite H.
  cbn [rbind fst snd]. destruct (Nat.leb_spec (length t) (S (length pre))) as [L|L].
  - rewrite skipn_all2 by exact L. reflexivity.
  - destruct (skipn (S (length pre)) t) eqn:Sk; [|reflexivity].
    apply (f_equal (@length N)) in Sk. rewrite skipn_length in Sk. cbn [length] in Sk. lia.
Qed.
Lemma command_round_trip {E : Env} c : wf_command c ->
  exists l, command_to_bytes c = Ok l /\ bytes l /\ command_try_from l = Ok c.
Proof.
  intros H. exists (enc_command c). destruct (command_bytes c (proj1 H)) as (H1 & H2).
  split; [exact H1|]. split; [exact H2|].
  destruct (wf_command_cases c H) as [(Hw & Hi)|(pre & a & -> & Hw & Hi & Ha & Hia)].
  - apply command_try_from_plain; assumption.
  - pose proof (command_try_from_indirect pre a [] Hw Hi Ha Hia) as T. rewrite app_nil_r in T. exact T.
Qed.

(** Every accepted input. *)
Lemma command_remainder {E : Env} d c r : read_command 0 (new_reader d) = Ok (c, r) ->
  Forall (fun a => is_tx_status a = false) c ->
  exists q, actions_at d 0 c q /\ (q <= length d)%nat /\ (last_is_indirect c = false -> q = length d) /\
    command_from_bytes d 0 = Ok ((skipn (q + length c) d, 0%nat), c).
Proof.
  intros H Ht. unfold command_from_bytes. rewrite u_from_bytes_0, H. unfold read_command in H.
  destruct (read_actions_trace _ _ _ 0 _ _ (At_new d) H Ht) as (new & q & Ec & HA & Hq & B & _ & HL).
  cbn [app new_reader data bread Nat.add] in *. subst new. exists q. split; [exact HA|]. split; [lia|]. split; [exact HL|].
  rewrite B. replace (8 * length c + 8 * (q - 0))%nat with ((q + length c) * 8)%nat by lia.
  rewrite Nat.div_mul, Nat.mod_mul by lia. reflexivity.
Qed.
Lemma action_remainder {E : Env} d a r : read_action (new_reader d) = Ok (a, r) ->
  action_from_bytes d 0 = Ok ((skipn (S (Nat.div (BP r) 8)) d, Nat.modulo (BP r) 8), a).
Proof.
  intros H. unfold action_from_bytes. rewrite u_from_bytes_0, H. destruct d as [|b t].
  { rewrite (read_action_nil _ 0 (At_new []) eq_refl) in H. discriminate. }
  destruct (read_action_counted _ 0 b t a r (At_new (b :: t)) eq_refl H) as (_ & _ & _ & C).
  cbn [new_reader bread] in C. assert (B : bread r = (BP r + 1 * 8)%nat) by lia. rewrite B.
  rewrite Nat.div_add, Nat.mod_add by lia.
  replace (Nat.div (BP r) 8 + 1)%nat with (S (Nat.div (BP r) 8)) by lia. reflexivity.
Qed.
Lemma action_remainder_aligned {E : Env} d a r : read_action (new_reader d) = Ok (a, r) -> is_tx_status a = false ->
  left r = [] /\ (1 <= pos r <= length d)%nat /\ action_from_bytes d 0 = Ok ((skipn (S (pos r)) d, 0%nat), a).
Proof.
  intros H Ht. rewrite (action_remainder d a r H). destruct d as [|b t].
  { rewrite (read_action_nil _ 0 (At_new []) eq_refl) in H. discriminate. }
  pose proof (read_action_left _ 0 b t a r (At_new (b :: t)) eq_refl H Ht) as L.
  destruct (read_action_counted _ 0 b t a r (At_new (b :: t)) eq_refl H) as (W & D & C & _).
  destruct W as (W & _). rewrite D in W. unfold BP in *. rewrite L in *. cbn [length new_reader data] in *.
  rewrite Nat.sub_0_r in *. split; [reflexivity|]. split; [lia|].
  rewrite (Nat.mul_comm 8), Nat.div_mul, Nat.mod_mul by lia. reflexivity.
Qed.

(** ** C13: prefixes of commands *)
Lemma enc_firstn {E : Env} c j : (j <= length c)%nat -> enc_command c = enc_command (firstn j c) ++ enc_command (skipn j c).
Proof. intros _. rewrite <- enc_command_app, firstn_skipn. reflexivity. Qed.
Lemma split_at {E : Env} c : forall k, Forall wf_action c -> (k < length (enc_command c))%nat ->
  exists pre a post m, c = pre ++ a :: post /\ k = (length (enc_command pre) + m)%nat /\ (m < length (enc_action a))%nat.
Proof.
  induction c as [|a c IH]; intros k Hw Hk; [cbn in Hk; lia|].
  inversion Hw as [|? ? Ha Hc]; subst. cbn [enc_command flat_map] in Hk. rewrite app_length in Hk. fold (enc_command c) in Hk.
  destruct (Nat.lt_ge_cases k (length (enc_action a))) as [L|L].
  - exists [], a, c, k. auto.
  - destruct (IH (k - length (enc_action a))%nat Hc ltac:(lia)) as (pre & b & post & m & -> & E1 & E2).
    exists (a :: pre), b, post, m. split; [reflexivity|]. split; [|exact E2].
    cbn [enc_command flat_map]. rewrite app_length. fold (enc_command pre). lia.
Qed.
Lemma command_truncated {E : Env} c k : wf_command c -> (k < length (enc_command c))%nat ->
  (forall j, (j <= length c)%nat -> k <> length (enc_command (firstn j c))) ->
  command_try_from (firstn k (enc_command c)) = Err EIncomplete.
Proof.
  intros (Hw & Hi) Hk Hn.
  destruct (split_at c k Hw Hk) as (pre & a & post & m & -> & Ek & Hm).
  apply Forall_app in Hw as (Hp & Hw). inversion Hw as [|? ? Ha Hpost]; subst.
  assert (Hm0 : (0 < m)%nat).
  { specialize (Hn (length pre)). rewrite app_length in Hn. specialize (Hn ltac:(lia)).
    rewrite firstn_app, Nat.sub_diag, firstn_all in Hn. cbn [firstn] in Hn. rewrite app_nil_r in Hn. lia. }
  assert (Hni : Forall (fun a => is_indirect a = false) pre).
  { apply Forall_forall. intros x Hx. apply in_split in Hx as (l1 & l2 & ->).
    destruct (is_indirect x) eqn:Ex; [|reflexivity]. exfalso.
    specialize (Hi l1 x (l2 ++ a :: post)). rewrite <- app_assoc in Hi. specialize (Hi eq_refl Ex). destruct l2; discriminate. }
  assert (Ed : firstn (length (enc_command pre) + m) (enc_command (pre ++ a :: post))
    = enc_command pre ++ firstn m (enc_action a)).
  { rewrite enc_command_app, firstn_app_2. cbn [enc_command flat_map]. rewrite firstn_app.
    replace (m - length (enc_action a))%nat with 0%nat by lia. rewrite firstn_O, app_nil_r. reflexivity. }
  rewrite Ed. set (d := enc_command pre ++ firstn m (enc_action a)).
  unfold command_try_from. rewrite u_try_from_eq. unfold read_command.
  pose proof (enc_command_len pre (wf_all_readable _ Hp)) as Hlp.
  assert (Hfm : length (firstn m (enc_action a)) = m) by (apply firstn_length_le; lia).
  assert (Hld : length d = (length (enc_command pre) + m)%nat) by (unfold d; rewrite app_length, Hfm; reflexivity).
  destruct (read_actions_many pre (S (length d)) [] (new_reader d) 0 (firstn m (enc_action a)))
    as (r1 & E1 & D1 & _ & L1 & A1 & S1); auto using wf_all_readable.
  - apply At_new.
  - lia.
  - cbn [new_reader data] in *. rewrite E1. cbn [app] in *.
    replace (S (length d) - length pre)%nat with (S (length d - length pre)) by lia.
    cbn [read_actions]. unfold valid_length. cbn [N.eqb]. unfold bind. cbn [ret].
    destruct (firstn m (enc_action a)) as [|b t] eqn:Ef; [cbn in Hfm; lia|].
    destruct (at_end_cons r1 _ b t A1) as (r2 & Ee & Er & A2); [rewrite D1; exact S1|].
    rewrite Ee, L1. assert (D2 : data r2 = d) by (subst r2; exact D1).
    rewrite (action_prefix a r2 _ (skipn m (enc_action a)) Ha A2); [reflexivity| |].
    + intros H. apply (f_equal (@length N)) in H. rewrite skipn_length in H. cbn [length] in H. lia.
    + rewrite D2, S1, <- Ef. apply firstn_skipn.
Qed.
Lemma wf_command_firstn {E : Env} c j : wf_command c -> wf_command (firstn j c).
Proof.
  intros (Hw & Hi). rewrite <- (firstn_skipn j c) in Hw. apply Forall_app in Hw as (Hw & _). split; [exact Hw|].
  intros pre a post He Ha. specialize (Hi pre a (post ++ skipn j c)).
  rewrite app_comm_cons, app_assoc, <- He, firstn_skipn in Hi. specialize (Hi eq_refl Ha).
  apply app_eq_nil in Hi. apply Hi.
Qed.
Lemma command_cut {E : Env} c j : wf_command c -> (j <= length c)%nat ->
  firstn (length (enc_command (firstn j c))) (enc_command c) = enc_command (firstn j c) /\
  command_try_from (enc_command (firstn j c)) = Ok (firstn j c).
Proof.
  intros Hc Hj. split.
  - rewrite (enc_firstn c j Hj), firstn_app, Nat.sub_diag, firstn_all, firstn_O, app_nil_r. reflexivity.
  - destruct (command_round_trip _ (wf_command_firstn c j Hc)) as (l & H1 & _ & H2).
    destruct (command_bytes _ (proj1 (wf_command_firstn c j Hc))) as (H3 & _).
    rewrite H1 in H3. injection H3 as <-. exact H2.
Qed.

(** ** C42 *)
Lemma action_prefix_free {E : Env} a b s : wf_action a -> wf_action b -> enc_action a ++ s = enc_action b -> a = b /\ s = [].
Proof.
  intros Ha Hb H. pose proof (action_new a s Ha) as H1. rewrite H in H1.
  pose proof (action_new b [] Hb) as H2. rewrite app_nil_r in H2. rewrite H2 in H1. injection H1 as H1 H3 _.
  split; [congruence|]. apply (f_equal (@length N)) in H. rewrite app_length in H.
  destruct s; [reflexivity|]. cbn [length] in H. lia.
Qed.
Lemma command_injective {E : Env} a b l : wf_command a -> wf_command b ->
  command_to_bytes a = Ok l -> command_to_bytes b = Ok l -> a = b.
Proof.
  intros Ha Hb H1 H2. destruct (command_round_trip a Ha) as (la & A1 & _ & A2).
  destruct (command_round_trip b Hb) as (lb & B1 & _ & B2). congruence.
Qed.
