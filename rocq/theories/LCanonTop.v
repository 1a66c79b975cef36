(** Canonical input: the entry points. *)
From Coq Require Import List NArith ZArith Bool Lia ZifyBool ZifyNat ZifyN Arith.
From Verif Require Import Base Deku Utils Types Physical Link Network Session Data Query
  Interface File Operation Action Command WellFormed SpecLayout SpecAction SpecDecode SpecCanonical LBits LReader
  LLayout LRound LRoundOps LAction LNumbers LNiceOps LActionApi LReencode LCommandMore LExact LDecode LDecodeLoop
  LCanon LCanonTypes LCanonOps LCanonAct.
Import ListNotations.
Open Scope N_scope.

Lemma op_small b : b < 256 -> part 0 6 b < 64.
Proof. intros _. unfold part. apply N.mod_lt. discriminate. Qed.
Lemma operand_tx {E : Env} op l a rest : dec_operand op l = Some (a, rest) -> op < 64 -> is_tx a = (op =? 38).
Proof.
  intros H Ho. assert (I : In op (map N.of_nat (seq 0 64))).
  { apply in_map_iff. exists (N.to_nat op). split; [lia|]. apply in_seq. lia. }
  cbn in I. clear Ho. repeat destruct I as [<-|I]; try contradiction; try discriminate H;
    cbn [dec_operand N.eqb Pos.eqb] in *;
    unfold dec_nop, dec_file_id_op, dec_file_data, dec_file_properties, dec_action_query, andthen, give, reject in H;
    repeat match type of H with
    | context [match ?e with _ => _ end] =>
        lazymatch e with context [match _ with _ => _ end] => fail | _ => destruct e as [] end; try discriminate H
    | context [match ?e with _ => _ end] =>
        lazymatch e with context [match _ with _ => _ end] => fail | _ => destruct e as [[? ?]|] end; try discriminate H
    end; try (injection H as <- _; reflexivity).
Qed.
Lemma canon_action {E : Env} d : bytes d ->
  match dec_action d with
  | Some (a, rest) => is_tx a = true /\ strict_action d = None \/
      is_tx a = false /\ Ends d (enc_action a) rest /\
      (strict_action d = Some (a, rest) /\ d = enc_action a ++ rest \/ strict_action d = None /\ d <> enc_action a ++ rest)
  | None => strict_action d = None
  end.
Proof.
  intros Hd. destruct d as [|b l]; [reflexivity|]. unfold dec_action, strict_action.
  pose proof Hd as Hb. apply Forall_cons_iff in Hb as [Hb _]. pose proof (op_small b Hb) as Ho.
  destruct (N.eq_dec (part 0 6 b) 38) as [Q|Q].
  - rewrite Q. destruct (dec_operand 38 (b :: l)) as [[a rest]|] eqn:D; [|reflexivity]. left.
    split; [|reflexivity]. exact (operand_tx 38 _ _ _ D ltac:(reflexivity)).
  - pose proof (F_operand (part 0 6 b) Ho Q b l Hd eq_refl) as F.
    destruct (dec_operand (part 0 6 b) (b :: l)) as [[a rest]|] eqn:D; [|exact F]. right.
    split; [rewrite (operand_tx _ _ _ _ D Ho); apply N.eqb_neq; exact Q|exact F].
Qed.
Lemma dec_parsed {E : Env} d a rest : bytes d -> dec_action d = Some (a, rest) -> parsed_action a /\ bytes rest.
Proof.
  intros Hd H. pose proof (decode_action d Hd) as D. rewrite H in D. destruct D as (k & _ & _ & -> & D).
  split; [exact (reads_parsed _ _ _ D)|]. rewrite <- (firstn_skipn k d) in Hd. apply Forall_app in Hd. apply Hd.
Qed.
Lemma parsed_W {E : Env} a : parsed_action a -> is_tx a = false -> W (write_action a) (enc_action a).
Proof.
  intros [H|[(l & -> & H)|(_ & v & -> & _)]] Ht; [apply W_action; exact H| |discriminate].
  rewrite unknown_enc. apply unknown_W. exact H.
Qed.
Lemma tx_not_read {E : Env} v d rest : action_to_bytes (ATxStatus v) = Ok d -> dec_action d = Some (ATxStatus v, rest) -> False.
Proof.
  intros H1 H2. destruct (tx_first_byte v d H1) as (t & ->). unfold dec_action in H2.
  change (part 0 6 64) with 0 in H2. apply operand_tx in H2; [discriminate|reflexivity].
Qed.
Lemma is_tx_inv a : is_tx a = true -> exists v, a = ATxStatus v.
Proof. destruct a; try discriminate. eauto. Qed.

Lemma canonical_action {E : Env} d a : bytes d ->
  (action_try_from d = Ok a /\ action_to_bytes a = Ok d <-> strict_action d = Some (a, [])).
Proof.
  intros Hd. pose proof (decode_action_try_from d Hd) as T. pose proof (canon_action d Hd) as C.
  destruct (dec_action d) as [[a' rest]|] eqn:D.
  2:{ rewrite C. split; [|discriminate]. intros [H _]. destruct T as [e T]. congruence. }
  destruct (dec_parsed d a' rest Hd D) as [P B]. split.
  - intros [H1 H2]. assert (a' = a) by (destruct (Nat.leb _ _); congruence). subst a'.
    destruct C as [(C & _)|(Ct & Ce & C)].
    + destruct (is_tx_inv a C) as (v & ->). destruct (tx_not_read v d rest H2 D).
    + pose proof (W_to_bytes _ _ (parsed_W a P Ct)) as W1. unfold action_to_bytes in H2. rewrite W1 in H2.
      injection H2 as H2. destruct (Ce [] ltac:(rewrite app_nil_r; symmetry; exact H2)) as [G|(_ & G)]; [|cbn in G; lia].
      subst rest. destruct C as [(C & _)|(_ & C)]; [exact C|]. rewrite app_nil_r in C. congruence.
  - intros H. destruct C as [(_ & C)|(Ct & Ce & [(C & Cd)|(C & _)])]; try congruence.
    assert (a' = a /\ rest = []) as [-> ->] by (split; congruence). rewrite Ct in T. cbn [length Nat.leb] in T.
    split; [exact T|]. rewrite app_nil_r in Cd. rewrite Cd. apply W_to_bytes, parsed_W; assumption.
Qed.

(** ** Commands *)
Lemma command_cons {E : Env} a c : W (write_action a) (enc_action a) ->
  command_to_bytes (a :: c) = match command_to_bytes c with Ok l => Ok (enc_action a ++ l) | Err e => Err e | Panic => Panic end.
Proof.
  intros (Hw & Hb). unfold command_to_bytes, to_bytes, write_command. cbn [write_list]. rewrite Hw.
  destruct (write_list write_action c) as [x| |]; [|reflexivity|reflexivity]. cbn [wseq rbind].
  rewrite bytes_of_bits_of_bytes_app by exact Hb. reflexivity.
Qed.
Lemma command_tx {E : Env} v c d : command_to_bytes (ATxStatus v :: c) = Ok d -> exists t, d = 0x40 :: t.
Proof.
  unfold command_to_bytes, to_bytes, write_command. cbn [write_list]. cbn [write_action]. unfold write_tx_status_op. intros H.
  unfold wseq at 1 2 3, write_uint at 1, write_pad in H. cbn [rbind] in H.
  destruct (write_opcode (action_opcode (ATxStatus v)) +++ write_u8 (txo_itf_id v)
            +++ write_length_prefixed (write_interface_tx_status (txo_status v))) as [x| |]; try discriminate.
  cbn [rbind] in H. destruct (write_list write_action c) as [y| |]; try discriminate. cbn [rbind] in H.
  injection H as <-. rewrite <- ?app_assoc. eexists. apply (bytes_of_bits_8 0x40). reflexivity.
Qed.
Definition plain_or_rewind {E : Env} (c : list action) : Prop :=
  e_rewind = true \/ Forall (fun a => forall l, a <> unknown_status l) c.
Lemma strict_of_dec {E : Env} k : forall d c rest, bytes d -> plain_or_rewind c -> dec_actions k false d = Some (c, rest) ->
  command_to_bytes c = Ok d -> strict_actions k d = Some c.
Proof.
  induction k as [|k IH]; intros d c rest Hd Hc H Hw.
  - destruct d; [|discriminate]. cbn in H. injection H as <- _. reflexivity.
  - destruct d as [|b l]; [cbn in H; injection H as <- _; reflexivity|].
    cbn [dec_actions] in H. change (dec_operand (part 0 6 b) (b :: l)) with (dec_action (b :: l)) in H.
    pose proof (canon_action (b :: l) Hd) as C. cbn [strict_actions].
    destruct (dec_action (b :: l)) as [[a rest1]|] eqn:D; [|discriminate].
    destruct (dec_parsed _ a rest1 Hd D) as [P B].
    assert (exists c', c = a :: c' /\ (is_indirect a = true /\ c' = [] \/ is_indirect a = false /\
        exists r', dec_actions k (is_tx a) rest1 = Some (c', r'))) as (c' & -> & Hc').
    { destruct (is_indirect a) eqn:Ei.
      - injection H as <- _. exists []. split; [reflexivity|]. left. split; reflexivity.
      - destruct (dec_actions k (is_tx a) rest1) as [[c' r']|]; [|discriminate]. injection H as <- _. exists c'.
        split; [reflexivity|]. right. split; [reflexivity|]. exists r'. reflexivity. }
    clear H. destruct C as [(Ct & _)|(Ct & Ce & C)].
    + destruct (is_tx_inv a Ct) as (v & ->). destruct (command_tx v c' _ Hw) as (t & Ht). injection Ht as -> ->.
      unfold dec_action in D. change (part 0 6 64) with 0 in D. apply operand_tx in D; [discriminate|reflexivity].
    + rewrite (command_cons a c' (parsed_W a P Ct)) in Hw. rewrite Ct in Hc'.
      destruct (command_to_bytes c') as [d'| |] eqn:Hw'; try discriminate. injection Hw as Hw.
      assert (d' = rest1) as ->.
      { destruct (Ce d' ltac:(symmetry; exact Hw)) as [G|(G & _)]; [exact G|].
        destruct Hc as [Hc|Hc]; [congruence|]. apply Forall_cons_iff in Hc as [Hc _].
        destruct P as [Pw|[(p & -> & _)|(_ & v & -> & _)]]; [|contradiction (Hc p); reflexivity|discriminate].
        assert (Bd : bytes d'). { rewrite <- Hw in Hd. apply Forall_app in Hd. apply Hd. }
        pose proof (decode_encoded a d' Pw Bd) as R. rewrite Hw, D in R. congruence. }
      destruct C as [(-> & _)|(_ & C)]; [|congruence].
      destruct rest1 as [|b1 l1].
      * destruct Hc' as [(_ & ->)|(_ & r' & H)]; [reflexivity|]. destruct k; cbn in H; injection H as <- _; reflexivity.
      * destruct Hc' as [(Ei & ->)|(Ei & r' & H)]; [discriminate Hw'|]. rewrite Ei.
        assert (Hcc : plain_or_rewind c').
        { destruct Hc as [Hc|Hc]; [left; exact Hc|right]. apply Forall_cons_iff in Hc. apply Hc. }
        rewrite (IH _ c' r' B Hcc H Hw'). reflexivity.
Qed.
Lemma dec_of_strict {E : Env} k : forall d c, bytes d -> strict_actions k d = Some c ->
  dec_actions k false d = Some (c, []) /\ command_to_bytes c = Ok d /\ count_tx c = 0%nat.
Proof.
  induction k as [|k IH]; intros d c Hd H.
  - destruct d; [|discriminate]. cbn in H. injection H as <-. repeat split.
  - destruct d as [|b l]; [cbn in H; injection H as <-; repeat split|].
    cbn [strict_actions] in H. cbn [dec_actions]. change (dec_operand (part 0 6 b) (b :: l)) with (dec_action (b :: l)).
    pose proof (canon_action (b :: l) Hd) as C. destruct (dec_action (b :: l)) as [[a rest1]|] eqn:D.
    2:{ rewrite C in H. discriminate. }
    destruct (dec_parsed _ a rest1 Hd D) as [P B].
    destruct C as [(_ & C)|(Ct & Ce & [(C & Cd)|(C & _)])]; rewrite C in H; try discriminate.
    rewrite Ct. unfold count_tx. destruct rest1 as [|b1 l1].
    + injection H as <-. rewrite (command_cons a [] (parsed_W a P Ct)). cbn [filter]. rewrite Ct, Cd.
      destruct (is_indirect a); [repeat split|]. destruct k; repeat split.
    + destruct (is_indirect a); [discriminate|]. destruct (strict_actions k (b1 :: l1)) as [c'|] eqn:S1; [|discriminate].
      injection H as <-. destruct (IH _ c' B S1) as (-> & Hw & Hn). split; [reflexivity|].
      rewrite (command_cons a c' (parsed_W a P Ct)), Hw, <- Cd. split; [reflexivity|]. cbn [filter]. rewrite Ct. exact Hn.
Qed.
Lemma canonical_command {E : Env} d c : bytes d -> plain_or_rewind c ->
  (command_try_from d = Ok c /\ command_to_bytes c = Ok d <-> strict_command d = Some c).
Proof.
  intros Hd Hc. pose proof (decode_command_try_from d Hd) as T. split.
  - intros [H1 H2]. destruct (dec_command d) as [[c' rest]|] eqn:D; [|destruct T as [e T]; congruence].
    assert (c' = c) by (destruct (Nat.leb _ _); congruence). subst c'.
    exact (strict_of_dec (length d) d c rest Hd Hc D H2).
  - intros H. destruct (dec_of_strict (length d) d c Hd H) as (D & H2 & Hn). split; [|exact H2].
    unfold dec_command in T. rewrite D in T. rewrite Hn in T. exact T.
Qed.

(** ** Rigid kinds *)
Ltac opened H := unfold dec_file_data, dec_file_properties, dec_action_query, dec_tx, andthen, give, reject in H;
  repeat match type of H with
    | context [match ?e with _ => _ end] =>
        lazymatch e with context [match _ with _ => _ end] => fail | _ => destruct e as [] end; try discriminate H
    | context [match ?e with _ => _ end] =>
        lazymatch e with context [match _ with _ => _ end] => fail | _ => destruct e as [[? ?]|] end; try discriminate H
    end.
Lemma status_rigid {E : Env} k l x r : dec_status k l = Some (StatusAction x, r) -> strict_status k l = Some (StatusAction x, r).
Proof.
  unfold strict_status. destruct (N.eqb_spec k 1) as [->|K1].
  { intros H. change (dec_status 1) with (let* s := dec_itf_status in give (StatusInterface s)) in H.
    unfold andthen, give in H. destruct (dec_itf_status l) as [[? ?]|]; discriminate H. }
  destruct (N.eqb_spec k 2) as [->|K2]; [|exact (fun H => H)].
  unfold dec_status. cbn [N.eqb Pos.eqb]. intros H. destruct e_feat; try discriminate H. unfold andthen, give in H.
  destruct (dec_itf_final l) as [[? ?]|]; discriminate H.
Qed.
Lemma rigid_strict {E : Env} op l a rest : op < 64 -> dec_operand op l = Some (a, rest) -> rigid a ->
  strict_operand op l = Some (a, rest).
Proof.
  intros Ho H R. assert (I : In op (map N.of_nat (seq 0 64))).
  { apply in_map_iff. exists (N.to_nat op). split; [lia|]. apply in_seq. lia. }
  cbn in I. clear Ho. repeat destruct I as [<-|I]; try contradiction; try exact H; cbn [dec_operand] in H.
  all: try (exfalso; opened H; injection H as <- _; exact R).
  cbn [strict_operand]. unfold andthen, one, give in *. destruct l as [|b l]; [discriminate|].
  destruct (named _ _ _ l) as [[t l1]|]; [|discriminate].
  destruct (dec_status (part 6 2 b) l1) as [[s l2]|] eqn:D; [|discriminate]. injection H as <- <-.
  cbn [rigid so_status] in R. destruct s as [x|x|x]; try contradiction. rewrite (status_rigid _ _ _ _ D). reflexivity.
Qed.
Lemma rigid_canonical {E : Env} d a : bytes d -> action_try_from d = Ok a -> rigid a ->
  exists l s, action_to_bytes a = Ok l /\ d = l ++ s /\ (length s <= 1)%nat.
Proof.
  intros Hd H R. pose proof (decode_action_try_from d Hd) as T. pose proof (canon_action d Hd) as C.
  destruct (dec_action d) as [[a' rest]|] eqn:D; [|destruct T as [e T]; congruence].
  assert (a' = a /\ (length rest <= 1)%nat) as [-> L].
  { destruct (Nat.leb_spec (length rest) (if is_tx a' then 0 else 1)); [|congruence].
    split; [congruence|]. destruct (is_tx a'); lia. }
  destruct (dec_parsed d a rest Hd D) as [P B].
  assert (S1 : strict_action d = Some (a, rest)).
  { destruct d as [|b l]; [discriminate|]. apply Forall_cons_iff in Hd as [Hb _]. apply rigid_strict; [apply op_small; exact Hb|exact D|exact R]. }
  destruct C as [(_ & C)|(Ct & _ & [(_ & C)|(C & _)])]; try congruence.
  exists (enc_action a), rest. split; [apply W_to_bytes, parsed_W; assumption|]. split; assumption.
Qed.
Lemma canonical_refuted {E : Env} : ~ (forall d a, bytes d -> action_try_from d = Ok a -> action_to_bytes a = Ok d).
Proof.
  intros H. assert (B : bytes [0xF4; 7]) by (repeat constructor). pose proof (decode_action_try_from [0xF4; 7] B) as T.
  change (dec_action [0xF4; 7]) with (Some (ARequestTag (mkRequestTag true 52 7), @nil N)) in T.
  cbn [is_tx length Nat.leb] in T. pose proof (H _ _ B T) as G. pose proof (proj1 (canonical_action _ _ B) (conj T G)) as S1.
  discriminate S1.
Qed.
