(** Different values that are written as the same bytes. *)
From Coq Require Import List NArith ZArith Bool Lia ZifyBool ZifyNat ZifyN Arith.
From Verif Require Import Base Deku Utils Types Physical Link Network Session Data Query
  Interface File Operation Action Command WellFormed SpecLayout SpecAction SpecDecode SpecTwins LBits LReader
  LLayout LRound LRoundOps LAction LNumbers LNiceOps LActionApi LReencode LCommandMore LExact LDecode LDecodeLoop
  LCommandApi LCanon LCanonOps LCanonTop LFail LFlags LTypes.
Import ListNotations.
Open Scope N_scope.

Lemma parseable_parsed {E : Env} a : parseable a -> parsed_action a.
Proof.
  intros (d & rest & Hd & H). pose proof (decode_action_from_bytes d Hd) as D.
  destruct (dec_action d) as [[a' r]|] eqn:Q; [|destruct D as [e D]; congruence].
  assert (a' = a) as -> by congruence. exact (proj1 (dec_parsed d a r Hd Q)).
Qed.

(** A status of an unknown interface in front of something looks like a well-formed action. *)
Definition behind {E : Env} (l : list N) (s : list N) (b : action) (t : list N) : Prop :=
  b = host_status /\ l = [] /\ s = 0 :: t \/
  b = serial_status /\ l = [0] /\ s = t \/
  (23 * 2 ^ 24 <= N.of_nat (length l) /\ N.of_nat (length l) < 24 * 2 ^ 24) /\ (length (enc_action b) <= 40)%nat.
Lemma status_62 {E : Env} b u : wf_action b -> enc_action b = 0x62 :: u ->
  exists s, b = interface_action (iso_type s) (iso_status s) /\ wf_itf_status_op s.
Proof.
  intros Hb He. destruct (enc_action_first b Hb) as (x & y & Q & M). rewrite He in Q.
  assert (x = 0x62) as -> by congruence. change (0x62 mod 64) with 34 in M. clear Q.
  destruct b; try discriminate M. clear M. destruct v as [ty op st]. destruct Hb as [Ho Hb]. cbn [so_type so_status so_opcode] in *.
  subst op. destruct ty; cbn [enc_action so_type so_status] in He.
  - exfalso. assert (pack [(2, code_status_type StAction); (6, 34)] = 0x62) by congruence. discriminate.
  - destruct st as [| [t s] |]; try contradiction. exists (mkItfStatusOp t s). split; [reflexivity|exact Hb].
  - exfalso. assert (pack [(2, code_status_type StInterfaceFinal); (6, 34)] = 0x62) by congruence. discriminate.
Qed.
Lemma dash7_short {E : Env} s : wf_dash7_status s -> (length (enc_dash7_status s) <= 30)%nat.
Proof.
  intros H. assert (A : wf_addressee (ds_addressee s)) by apply H.
  pose proof (enc_addressee_short _ A) as L. unfold enc_dash7_status. rewrite !app_length, enc_channel_size.
  unfold enc_varint. cbn [length]. lia.
Qed.
Lemma unknown_wf {E : Env} l s b t : wf_payload l -> wf_action b ->
  0x62 :: enc_length (N.of_nat (length l)) ++ l ++ s = enc_action b ++ t -> behind l s b t.
Proof.
  intros (_ & Hl) Hb H. destruct (enc_action_first b Hb) as (x & u & Q & _).
  assert (x = 0x62) as -> by (rewrite Q in H; cbn [app] in H; congruence).
  destruct (status_62 b u Hb Q) as ([ty st] & -> & Hs). cbn [iso_type iso_status] in *. clear Q u.
  pose proof (dec_enc_length (N.of_nat (length l)) (l ++ s) Hl) as D.
  assert (H' : enc_length (N.of_nat (length l)) ++ l ++ s = code_itf_type ty ++ enc_prefixed (enc_interface_status st) ++ t).
  { rewrite (app_assoc (code_itf_type ty)). exact (f_equal (@tl N) H). }
  clear H. unfold wf_itf_status_op in Hs. cbn [iso_type iso_status] in Hs.
  destruct ty; destruct st as [| |d|p]; try contradiction.
  - left. rewrite H' in D. change (code_itf_type ItHost ++ enc_prefixed (enc_interface_status IsHost) ++ t) with (0 :: 0 :: t) in D.
    assert (D0 : dec_length (0 :: 0 :: t) = Some (0, 0 :: t)) by reflexivity. rewrite D0 in D.
    assert (length l = 0%nat) as L by (assert (0 = N.of_nat (length l)) by congruence; lia).
    destruct l; [|discriminate]. split; [reflexivity|]. split; [reflexivity|]. cbn [app] in D. congruence.
  - right. left. rewrite H' in D. change (code_itf_type ItSerial ++ enc_prefixed (enc_interface_status IsSerial) ++ t) with (1 :: 0 :: t) in D.
    assert (D0 : dec_length (1 :: 0 :: t) = Some (1, 0 :: t)) by reflexivity. rewrite D0 in D.
    assert (length l = 1%nat) as L by (assert (1 = N.of_nat (length l)) by congruence; lia).
    destruct l as [|x [|? ?]]; try discriminate. split; [reflexivity|]. cbn [app] in D. split; congruence.
  - right. right. split.
    + destruct (enc_length_first _ Hl) as (x & u & Q & _ & C). rewrite Q in H'. cbn [app code_itf_type] in H'.
      assert (x = 0xD7) as -> by congruence.
      assert (G : ~ ~ clashes (N.of_nat (length l))). { intros G. apply C in G. discriminate. }
      unfold clashes in G. change (2 ^ 24) with 16777216 in *.
      destruct (N.ltb_spec (N.of_nat (length l)) 4) as [K|K]; [|split; lia].
      exfalso. revert Q. unfold enc_length. change (2 ^ 6) with 64. destruct (N.ltb_spec (N.of_nat (length l)) 64); [|lia]. intros Q.
      assert (N.of_nat (length l) = 0xD7) by congruence. lia.
    + unfold interface_action. cbn [enc_action enc_status so_type so_status iso_type iso_status code_itf_type enc_interface_status app length].
      unfold enc_prefixed. rewrite app_length. pose proof (dash7_short d Hs).
      pose proof (LFail.enc_length_size (N.of_nat (length (enc_dash7_status d)))) as L.
      assert (SpecFail.length_size (N.of_nat (length (enc_dash7_status d))) <= 4)%nat.
      { unfold SpecFail.length_size. repeat destruct (_ <? _); lia. }
      lia.
Qed.

(** Where the id byte is put back, it is the first byte of the length. *)
Lemma operand_status {E : Env} op l v rest : dec_operand op l = Some (AStatus v, rest) -> op < 64 -> op = 34.
Proof.
  intros H Ho. assert (I : In op (map N.of_nat (seq 0 64))).
  { apply in_map_iff. exists (N.to_nat op). split; [lia|]. apply in_seq. lia. }
  cbn in I. clear Ho. repeat destruct I as [<-|I]; try contradiction; try discriminate H; try reflexivity; exfalso;
    cbn [dec_operand N.eqb Pos.eqb] in *;
    unfold dec_nop, dec_file_id_op, dec_file_data, dec_file_properties, dec_action_query, andthen, give, reject in H;
    repeat match type of H with
    | context [match ?e with _ => _ end] =>
        lazymatch e with context [match _ with _ => _ end] => fail | _ => destruct e as [] end; try discriminate H
    | context [match ?e with _ => _ end] =>
        lazymatch e with context [match _ with _ => _ end] => fail | _ => destruct e as [[? ?]|] end; try discriminate H
    end; discriminate H.
Qed.
Lemma dec_length_d7 b t n r : b < 256 -> bytes t -> dec_length (b :: t) = Some (n, r) -> 23 * 2 ^ 24 <= n -> n < 24 * 2 ^ 24 -> b = 0xD7.
Proof.
  intros Hb Ht H L U. change (2 ^ 24) with 16777216 in *. rewrite dec_length_cons in H. unfold some_bytes in H.
  destruct (N.leb_spec (b / 64) (N.of_nat (length t))) as [K|K]; [|discriminate].
  assert (Q : b mod 64 * 256 ^ (b / 64) + N_of_be (firstn (N.to_nat (b / 64)) t) = n) by congruence. clear H.
  assert (B : N_of_be (firstn (N.to_nat (b / 64)) t) < 256 ^ (b / 64)).
  { assert (F : bytes (firstn (N.to_nat (b / 64)) t)) by (rewrite <- (firstn_skipn (N.to_nat (b / 64)) t) in Ht; apply Forall_app in Ht; apply Ht).
    pose proof (N_of_be_lt _ F) as G. rewrite firstn_length_le in G by lia. rewrite N2Nat.id in G. exact G. }
  set (x := N_of_be _) in *. clearbody x. assert (D : b = 64 * (b / 64) + b mod 64) by (apply N.div_mod; discriminate).
  assert (M : b mod 64 < 64) by (apply N.mod_lt; discriminate).
  assert (K4 : b / 64 < 4) by (apply N.div_lt_upper_bound; lia).
  set (k := b / 64) in *. set (m := b mod 64) in *. clearbody k m.
  assert (C : k = 0 \/ k = 1 \/ k = 2 \/ k = 3) by lia.
  destruct C as [->|[->|[->| ->]]]; [change (256 ^ 0) with 1 in *|change (256 ^ 1) with 256 in *|change (256 ^ 2) with 65536 in *|change (256 ^ 3) with 16777216 in *]; lia.
Qed.
Lemma unknown_range {E : Env} l : e_rewind = true -> parseable (unknown_status l) ->
  ~ (23 * 2 ^ 24 <= N.of_nat (length l) /\ N.of_nat (length l) < 24 * 2 ^ 24).
Proof.
  intros He (d & rest & Hd & H) [L U]. pose proof (decode_action_from_bytes d Hd) as D.
  destruct (dec_action d) as [[a r]|] eqn:Q; [|destruct D as [e D]; congruence].
  assert (a = unknown_status l) as -> by congruence. clear D H.
  destruct d as [|b t]; [discriminate|]. apply Forall_cons_iff in Hd as [Hb Ht]. unfold dec_action in Q.
  assert (O : part 0 6 b = 34) by (eapply operand_status; [exact Q|apply op_small; exact Hb]). rewrite O in Q.
  cbn [dec_operand] in Q. unfold andthen at 1 in Q. cbn [one] in Q.
  unfold andthen at 1 in Q. destruct (named _ _ _ t) as [[ty t1]|] eqn:Nm; [|discriminate].
  assert (t1 = t) as -> by (unfold named, give, reject in Nm; destruct (find _ _); congruence).
  unfold andthen at 1 in Q. destruct (dec_status (part 6 2 b) t) as [[st r2]|] eqn:S; [|discriminate].
  assert (st = StatusInterface (mkItfStatusOp ItUnknown (IsOther l))) as -> by (unfold give in Q; unfold unknown_status in Q; congruence).
  clear Q Nm. unfold dec_status in S.
  destruct (part 6 2 b =? 0). { unfold andthen, give in S. destruct (one t) as [[? ?]|]; [|discriminate]. destruct (one _) as [[? ?]|]; discriminate. }
  destruct (part 6 2 b =? 1).
  2:{ destruct (part 6 2 b =? 2); [|discriminate]. destruct e_feat; try discriminate. unfold andthen at 1, give in S.
      destruct (dec_itf_final t) as [[? ?]|]; discriminate. }
  unfold andthen at 1 in S. destruct (dec_itf_status t) as [[s r3]|] eqn:I; [|discriminate].
  assert (s = mkItfStatusOp ItUnknown (IsOther l)) as -> by (unfold give in S; congruence). clear S.
  unfold dec_itf_status in I. destruct t as [|i t]; [discriminate|]. apply Forall_cons_iff in Ht as [Hi Ht].
  unfold andthen at 1 in I. cbn [one] in I. rewrite He in I.
  destruct (i =? 0). { unfold andthen, give in I. destruct (dec_length t) as [[? ?]|]; discriminate. }
  destruct (i =? 1). { unfold andthen, give in I. destruct (dec_length t) as [[? ?]|]; discriminate. }
  destruct (N.eqb_spec i 0xD7) as [|Ni].
  { unfold andthen, give in I. destruct (dec_length t) as [[? ?]|]; [|discriminate]. destruct (dec_dash7_status _) as [[? ?]|]; discriminate. }
  destruct ((i =? 2) || (i =? 3)); [discriminate|].
  unfold andthen at 1 in I. destruct (dec_length (i :: t)) as [[n t2]|] eqn:DL; [|discriminate].
  unfold andthen at 1, some_bytes in I. destruct (N.leb_spec n (N.of_nat (length t2))) as [G|G]; [|discriminate].
  assert (l = firstn (N.to_nat n) t2) as -> by (unfold give in I; congruence).
  rewrite firstn_length_le in L, U by lia. rewrite N2Nat.id in L, U. exact (Ni (dec_length_d7 i t n t2 Hi Ht DL L U)).
Qed.

(** ** Two actions in front of something *)
Definition plain {E : Env} (a : action) : Prop := parsed_action a /\ is_tx a = false.
Lemma two_heads {E : Env} a b s t : plain a -> plain b -> bytes s -> bytes t -> enc_action a ++ s = enc_action b ++ t ->
  a = b /\ s = t \/ (exists l, a = unknown_status l /\ behind l s b t) \/ (exists l, b = unknown_status l /\ behind l t a s).
Proof.
  intros [Pa Ta] [Pb Tb] Hs Ht H.
  destruct Pa as [Pa|[(l & -> & Pl)|(_ & v & -> & _)]]; [| |discriminate];
  destruct Pb as [Pb|[(m & -> & Pm)|(_ & v & -> & _)]]; try discriminate.
  - left. pose proof (decode_encoded a s Pa Hs) as D1. pose proof (decode_encoded b t Pb Ht) as D2. rewrite H in D1.
    split; congruence.
  - right. right. exists m. split; [reflexivity|]. apply unknown_wf; [exact Pm|exact Pa|].
    rewrite app_assoc. symmetry. exact H.
  - right. left. exists l. split; [reflexivity|]. apply unknown_wf; [exact Pl|exact Pb|].
    rewrite app_assoc. exact H.
  - left. rewrite !unknown_enc in H. cbn [app] in H. rewrite <- !app_assoc in H. destruct Pl as [_ Pl], Pm as [_ Pm].
    assert (H' : enc_length (N.of_nat (length l)) ++ l ++ s = enc_length (N.of_nat (length m)) ++ m ++ t) by congruence.
    pose proof (dec_enc_length _ (l ++ s) Pl) as D1. pose proof (dec_enc_length _ (m ++ t) Pm) as D2. rewrite H' in D1.
    assert (length l = length m) as L by (assert (N.of_nat (length l) = N.of_nat (length m)) by congruence; lia).
    assert (R : l ++ s = m ++ t) by congruence.
    assert (l = m). { apply (f_equal (firstn (length l))) in R. rewrite firstn_app, Nat.sub_diag, firstn_all, firstn_O, app_nil_r in R.
      rewrite L, firstn_app, Nat.sub_diag, firstn_all, firstn_O, app_nil_r in R. exact R. }
    subst m. split; [reflexivity|]. exact (app_inv_head _ _ _ R).
Qed.

(** ** Commands *)
Lemma plain_bytes {E : Env} a : plain a -> bytes (enc_action a).
Proof. intros [H T]. exact (proj2 (parsed_W a H T)). Qed.
Lemma command_plain_bytes {E : Env} c : Forall plain c -> bytes (enc_command c).
Proof.
  induction 1 as [|a c H _ IH]; [constructor|]. cbn. apply Forall_app. split; [apply plain_bytes; exact H|exact IH].
Qed.
Lemma command_plain {E : Env} c : Forall plain c -> command_to_bytes c = Ok (enc_command c).
Proof.
  induction 1 as [|a c [H T] _ IH]; [reflexivity|]. rewrite (command_cons a c (parsed_W a H T)), IH. reflexivity.
Qed.
Lemma host_ahead {E : Env} c t : Forall plain c -> bytes t -> enc_command c = 0 :: t ->
  exists c', c = plain_nop :: c' /\ enc_command c' = t.
Proof.
  intros H Ht Q. destruct c as [|a c]; [discriminate|]. apply Forall_cons_iff in H as [Ha Hc]. cbn [enc_command flat_map] in Q.
  fold (enc_command c) in Q. exists c.
  destruct (two_heads a plain_nop (enc_command c) t) as [[-> ->]|[(l & -> & _)|(l & G & _)]]; auto.
  - split; [left; repeat split; cbn; lia|reflexivity].
  - apply command_plain_bytes. exact Hc.
  - rewrite unknown_enc in Q. discriminate.
  - discriminate.
Qed.
Definition handy (a : action) : Prop := forall l, a = unknown_status l ->
  ~ (23 * 2 ^ 24 <= N.of_nat (length l) /\ N.of_nat (length l) < 24 * 2 ^ 24).
Lemma twins_sound {E : Env} n : forall c d, (length c + length d <= n)%nat -> Forall plain c -> Forall plain d ->
  Forall handy c -> Forall handy d -> enc_command c = enc_command d -> twins c d.
Proof.
  induction n as [|n IH]; intros c d Hn Hc Hd Gc Gd H.
  { destruct c, d; cbn [length] in Hn; try lia. constructor. }
  destruct c as [|a c]; [destruct d as [|b d]|destruct d as [|b d]].
  - constructor.
  - exfalso. apply Forall_cons_iff in Hd as [[_ Tb] _]. destruct (enc_action_cons b Tb) as (x & u & Q).
    cbn [enc_command flat_map] in H. rewrite Q in H. discriminate.
  - exfalso. apply Forall_cons_iff in Hc as [[_ Ta] _]. destruct (enc_action_cons a Ta) as (x & u & Q).
    cbn [enc_command flat_map] in H. rewrite Q in H. discriminate.
  - apply Forall_cons_iff in Gc as [Ga Gc]. apply Forall_cons_iff in Gd as [Gb Gd].
    apply Forall_cons_iff in Hc as [Ha Hc]. apply Forall_cons_iff in Hd as [Hb Hd].
    cbn [enc_command flat_map length] in *. fold (enc_command c) in *. fold (enc_command d) in *.
    pose proof (command_plain_bytes c Hc) as Bc. pose proof (command_plain_bytes d Hd) as Bd.
    destruct (two_heads a b _ _ Ha Hb Bc Bd H) as [[-> Q]|[(l & -> & Q)|(l & -> & Q)]].
    + apply twins_same, IH; auto; lia.
    + destruct Q as [(-> & -> & Q)|[(-> & -> & Q)|(Q & _)]].
      * destruct (host_ahead c _ Hc Bd Q) as (c' & -> & Q'). apply twins_host. apply Forall_cons_iff in Hc as [_ Hc].
        apply Forall_cons_iff in Gc as [_ Gc]. cbn [length] in Hn. apply IH; auto; lia.
      * apply twins_serial. apply IH; auto; lia.
      * destruct (Ga l eq_refl Q).
    + destruct Q as [(-> & -> & Q)|[(-> & -> & Q)|(Q & _)]].
      * destruct (host_ahead d _ Hd Bc Q) as (d' & -> & Q'). apply twins_host_back. apply Forall_cons_iff in Hd as [_ Hd].
        apply Forall_cons_iff in Gd as [_ Gd]. cbn [length] in Hn. apply IH; auto; lia.
      * apply twins_serial_back. apply IH; auto; lia.
      * destruct (Gb l eq_refl Q).
Qed.
Lemma twins_same_bytes {E : Env} c d : twins c d -> enc_command c = enc_command d.
Proof.
  induction 1; cbn [enc_command flat_map] in *;
    repeat match goal with |- context [flat_map enc_action ?x] => fold (enc_command x) in * end; rewrite ?IHtwins; reflexivity.
Qed.
Lemma plain_all {E : Env} c : Forall parseable c -> Forall (fun a => is_tx_status a = false) c -> Forall plain c.
Proof.
  intros H T. rewrite Forall_forall in *. intros a I. split; [apply parseable_parsed, H, I|]. specialize (T a I).
  destruct a; try reflexivity. discriminate.
Qed.
Lemma all_handy {E : Env} c : Forall parseable c -> e_rewind = true \/ N.of_nat (length (enc_command c)) < 23 * 2 ^ 24 -> Forall handy c.
Proof.
  intros H B. rewrite Forall_forall in *. intros a I l -> [L U]. destruct B as [B|B].
  - exact (unknown_range l B (H _ I) (conj L U)).
  - apply in_split in I as (x & y & ->). unfold enc_command in B. rewrite flat_map_app in B. cbn [flat_map] in B.
    rewrite unknown_enc, !app_length in B. cbn [length app] in B. rewrite !app_length in B. lia.
Qed.
Theorem twins_command {E : Env} c d l : Forall parseable c -> Forall parseable d ->
  Forall (fun a => is_tx_status a = false) c -> Forall (fun a => is_tx_status a = false) d ->
  command_to_bytes c = Ok l -> e_rewind = true \/ N.of_nat (length l) < 23 * 2 ^ 24 ->
  (command_to_bytes d = Ok l <-> twins c d).
Proof.
  intros Hc Hd Tc Td H B. pose proof (plain_all c Hc Tc) as Pc. pose proof (plain_all d Hd Td) as Pd.
  rewrite (command_plain c Pc) in H. assert (l = enc_command c) as -> by congruence. clear H. rewrite (command_plain d Pd). split.
  - intros H. apply (twins_sound (length c + length d)); auto; [apply (all_handy c Hc B)|apply (all_handy d Hd)|congruence].
    assert (enc_command d = enc_command c) as -> by congruence. exact B.
  - intros H. rewrite (twins_same_bytes c d H). reflexivity.
Qed.
(** Without statuses of unknown interfaces nothing is lost. *)
Theorem known_command {E : Env} c d l : Forall parseable c -> Forall parseable d ->
  Forall (fun a => is_tx_status a = false /\ forall p, a <> unknown_status p) c ->
  Forall (fun a => is_tx_status a = false /\ forall p, a <> unknown_status p) d ->
  command_to_bytes c = Ok l -> command_to_bytes d = Ok l -> c = d.
Proof.
  intros Hc Hd Tc Td H1 H2.
  assert (Pc : Forall plain c) by (apply plain_all; [exact Hc|eapply Forall_impl; [|exact Tc]; intros a [? _]; assumption]).
  assert (Pd : Forall plain d) by (apply plain_all; [exact Hd|eapply Forall_impl; [|exact Td]; intros a [? _]; assumption]).
  rewrite (command_plain c Pc) in H1. rewrite (command_plain d Pd) in H2. assert (H : enc_command c = enc_command d) by congruence.
  clear H1 H2 l Hc Hd. revert d Td Pd H. induction c as [|a c IH]; intros [|b d] Td Pd H; try reflexivity.
  - exfalso. apply Forall_cons_iff in Pd as [[_ Tb] _]. destruct (enc_action_cons b Tb) as (x & u & Q).
    cbn [enc_command flat_map] in H. rewrite Q in H. discriminate.
  - exfalso. apply Forall_cons_iff in Pc as [[_ Tb] _]. destruct (enc_action_cons a Tb) as (x & u & Q).
    cbn [enc_command flat_map] in H. rewrite Q in H. discriminate.
  - apply Forall_cons_iff in Pc as [Pa Pc]. apply Forall_cons_iff in Pd as [Pb Pd].
    apply Forall_cons_iff in Tc as [[_ Ua] Tc]. apply Forall_cons_iff in Td as [[_ Ub] Td].
    destruct (two_heads a b _ _ Pa Pb (command_plain_bytes c Pc) (command_plain_bytes d Pd) H) as [[-> Q]|[(p & G & _)|(p & G & _)]].
    + f_equal. apply IH; auto.
    + destruct (Ua p G).
    + destruct (Ub p G).
Qed.

(** ** Single actions *)
Lemma pad_six x : forall k, length x = (8 * k + 6)%nat -> bytes_of_bits x = bytes_of_bits (x ++ [false; false]).
Proof.
  induction x as [x Hx|y x Hy IH] using octet_ind; intros k L.
  - assert (k = 0)%nat by lia. subst k. do 6 (destruct x as [|? x]; [discriminate|]). destruct x; [|discriminate]. reflexivity.
  - rewrite app_length in L. rewrite <- app_assoc, !bytes_of_bits_cons8 by exact Hy. f_equal. apply (IH (k - 1)%nat). lia.
Qed.
Lemma six_inj x y k m : length x = (8 * k + 6)%nat -> length y = (8 * m + 6)%nat -> bytes_of_bits x = bytes_of_bits y -> x = y.
Proof.
  intros Hx Hy H. rewrite (pad_six x k Hx), (pad_six y m Hy) in H.
  assert (Lx : length (x ++ [false; false]) = (8 * (k + 1))%nat) by (rewrite app_length; cbn [length]; lia).
  assert (Ly : length (y ++ [false; false]) = (8 * (m + 1))%nat) by (rewrite app_length; cbn [length]; lia).
  apply (f_equal bits_of_bytes) in H. rewrite (bits_of_bytes_of_bits _ _ Lx), (bits_of_bytes_of_bits _ _ Ly) in H.
  exact (app_inv_tail _ _ _ H).
Qed.
Definition tx_body {E : Env} (v : tx_status_op) : list N := txo_itf_id v :: enc_prefixed (enc_tx_payload (txo_status v)).
Lemma tx_body_bytes {E : Env} v : parsed_tx_status v -> bytes (tx_body v).
Proof.
  intros H. destruct (tx_payload_W v H) as (H1 & H2). destruct (W_prefixed _ _ H1 H2) as (_ & H3).
  constructor; [apply H|exact H3].
Qed.
Lemma tx_to_bytes {E : Env} v : parsed_tx_status v ->
  action_to_bytes (ATxStatus v) = Ok (0x40 :: bytes_of_bits (bits_of 6 38 ++ bits_of_bytes (tx_body v))).
Proof.
  intros H. unfold action_to_bytes, to_bytes. rewrite tx_written by exact H. cbn [rbind bits_of_bytes].
  rewrite <- !app_assoc. rewrite bytes_of_bits_8 by reflexivity. reflexivity.
Qed.
Lemma tx_dash7_inj {E : Env} s t : wf_tx_status s -> wf_tx_status t -> enc_dash7_tx_status s = enc_dash7_tx_status t -> s = t.
Proof.
  intros Hs Ht H. destruct (W_dash7_tx_status s Hs) as [Ws _]. destruct (W_dash7_tx_status t Ht) as [Wt _]. rewrite <- H in Wt.
  destruct (RT_dash7_tx_status s Hs) as (x & X1 & X2). destruct (RT_dash7_tx_status t Ht) as (y & Y1 & Y2).
  assert (x = bits_of_bytes (enc_dash7_tx_status s)) as -> by congruence.
  assert (y = bits_of_bytes (enc_dash7_tx_status s)) as -> by congruence.
  set (r := new_reader (enc_dash7_tx_status s)).
  assert (P : prefix (bits_of_bytes (enc_dash7_tx_status s)) (view r)) by (exists []; rewrite app_nil_r; apply view_new).
  pose proof (X2 r (RWf_new _) P) as A. pose proof (Y2 r (RWf_new _) P) as B. congruence.
Qed.
Lemma tx_inj {E : Env} v w : parsed_tx_status v -> parsed_tx_status w ->
  action_to_bytes (ATxStatus v) = action_to_bytes (ATxStatus w) -> txo_itf_id v = txo_itf_id w /\ txo_status v = txo_status w.
Proof.
  intros Hv Hw H. rewrite !tx_to_bytes in H by assumption.
  assert (H' : bytes_of_bits (bits_of 6 38 ++ bits_of_bytes (tx_body v)) = bytes_of_bits (bits_of 6 38 ++ bits_of_bytes (tx_body w))) by congruence.
  assert (L : forall z, length (bits_of 6 38 ++ bits_of_bytes (tx_body z)) = (8 * length (tx_body z) + 6)%nat).
  { intros z. rewrite app_length, bits_of_length, bits_of_bytes_length. lia. }
  apply (six_inj _ _ _ _ (L v) (L w)) in H'. apply app_inv_head in H'.
  apply bits_of_bytes_inj in H'; [|apply tx_body_bytes; assumption|apply tx_body_bytes; assumption]. clear H L.
  unfold tx_body, enc_prefixed in H'. split; [congruence|].
  assert (I : txo_itf_id v = txo_itf_id w) by congruence.
  destruct (tx_payload_W v Hv) as (_ & V2). destruct (tx_payload_W w Hw) as (_ & W2).
  pose proof (dec_enc_length _ (enc_tx_payload (txo_status v)) V2) as D1.
  pose proof (dec_enc_length _ (enc_tx_payload (txo_status w)) W2) as D2.
  assert (Q : enc_tx_payload (txo_status v) = enc_tx_payload (txo_status w)).
  { assert (H : enc_length (N.of_nat (length (enc_tx_payload (txo_status v)))) ++ enc_tx_payload (txo_status v)
              = enc_length (N.of_nat (length (enc_tx_payload (txo_status w)))) ++ enc_tx_payload (txo_status w)) by congruence.
    rewrite H in D1. congruence. }
  destruct Hv as (_ & _ & Hv), Hw as (_ & _ & Hw). destruct (txo_status v) as [s|l], (txo_status w) as [t|m]; cbn [enc_tx_payload] in Q.
  - f_equal. apply tx_dash7_inj; [apply Hv|apply Hw|exact Q].
  - destruct Hv as [Hv _], Hw as [Hw _]. congruence.
  - destruct Hv as [Hv _], Hw as [Hw _]. congruence.
  - congruence.
Qed.
Lemma tx_alone {E : Env} v b : parsed_tx_status v -> plain b -> action_to_bytes (ATxStatus v) <> action_to_bytes b.
Proof.
  intros Hv [Pb Tb] H. pose proof (W_to_bytes _ _ (parsed_W b Pb Tb)) as Hb. unfold action_to_bytes at 2 in H. rewrite Hb in H.
  rewrite tx_to_bytes in H by exact Hv.
  assert (Q : enc_action b = 0x40 :: bytes_of_bits (bits_of 6 38 ++ bits_of_bytes (tx_body v))) by congruence. clear H Hb.
  destruct Pb as [Pb|[(l & -> & _)|(_ & w & -> & _)]]; [|rewrite unknown_enc in Q; discriminate|discriminate].
  assert (D : dec_action (enc_action b ++ []) = Some (b, [])) by (apply decode_encoded; [exact Pb|constructor]).
  rewrite app_nil_r, Q in D. unfold dec_action in D. change (part 0 6 0x40) with 0 in D.
  assert (D' : dec_operand 0 (0x40 :: bytes_of_bits (bits_of 6 38 ++ bits_of_bytes (tx_body v)))
    = Some (ANop (mkNop (mkHeader false true) 0), bytes_of_bits (bits_of 6 38 ++ bits_of_bytes (tx_body v)))) by reflexivity.
  rewrite D' in D. assert (Z : bytes_of_bits (bits_of 6 38 ++ bits_of_bytes (tx_body v)) = []) by congruence.
  rewrite (pad_six _ (length (tx_body v))) in Z.
  2:{ rewrite app_length, bits_of_length, bits_of_bytes_length. lia. }
  assert (Y : length (bytes_of_bits ((bits_of 6 38 ++ bits_of_bytes (tx_body v)) ++ [false; false])) = S (length (tx_body v))).
  { apply bytes_of_bits_length. rewrite !app_length, bits_of_length, bits_of_bytes_length. cbn [length]. lia. }
  rewrite Z in Y. discriminate.
Qed.
Theorem twins_action {E : Env} a b : parseable a -> parseable b ->
  (action_to_bytes a = action_to_bytes b <-> a = b \/ twin_statuses a b \/ twin_statuses b a \/ twin_tx a b).
Proof.
  intros Ha Hb. apply parseable_parsed in Ha, Hb. split.
  - intros H. destruct (is_tx a) eqn:Ta, (is_tx b) eqn:Tb.
    + destruct (is_tx_inv a Ta) as (v & ->), (is_tx_inv b Tb) as (w & ->).
      destruct Ha as [Ha|[(l & Ha & _)|(_ & v' & Ha & Pv)]]; [destruct Ha|discriminate|].
      destruct Hb as [Hb|[(l & Hb & _)|(_ & w' & Hb & Pw)]]; [destruct Hb|discriminate|].
      injection Ha as <-. injection Hb as <-. destruct (tx_inj v w Pv Pw H) as [Q1 Q2]. right. right. right.
      exists (txo_opcode w), v. split; [reflexivity|]. rewrite Q1, Q2. destruct w; reflexivity.
    + exfalso. destruct (is_tx_inv a Ta) as (v & ->).
      destruct Ha as [Ha|[(l & Ha & _)|(_ & v' & Ha & Pv)]]; [destruct Ha|discriminate|]. injection Ha as <-.
      exact (tx_alone v b Pv (conj Hb Tb) H).
    + exfalso. destruct (is_tx_inv b Tb) as (w & ->).
      destruct Hb as [Hb|[(l & Hb & _)|(_ & w' & Hb & Pw)]]; [destruct Hb|discriminate|]. injection Hb as <-.
      exact (tx_alone w a Pw (conj Ha Ta) (eq_sym H)).
    + unfold action_to_bytes in H. rewrite (W_to_bytes _ _ (parsed_W a Ha Ta)), (W_to_bytes _ _ (parsed_W b Hb Tb)) in H.
      assert (Q : enc_action a ++ [] = enc_action b ++ []) by (rewrite !app_nil_r; congruence).
      destruct (two_heads a b [] [] (conj Ha Ta) (conj Hb Tb) (Forall_nil _) (Forall_nil _) Q) as [[-> _]|[(l & -> & G)|(l & -> & G)]].
      * left. reflexivity.
      * destruct G as [(_ & _ & G)|[(-> & -> & _)|(G & L)]]; [discriminate|right; left; split; reflexivity|].
        exfalso. apply (f_equal (@length N)) in Q. rewrite !app_nil_r, unknown_enc in Q. cbn [length] in Q. rewrite app_length in Q.
        destruct G as [G _]. change (23 * 2 ^ 24) with 385875968 in G. lia.
      * destruct G as [(_ & _ & G)|[(-> & -> & _)|(G & L)]]; [discriminate|right; right; left; split; reflexivity|].
        exfalso. apply (f_equal (@length N)) in Q. rewrite !app_nil_r, unknown_enc in Q. cbn [length] in Q. rewrite app_length in Q.
        destruct G as [G _]. change (23 * 2 ^ 24) with 385875968 in G. lia.
  - intros [->|[(-> & ->)|[(-> & ->)|(o & v & -> & ->)]]]; try reflexivity.
Qed.

(** Both can be parsed. *)
Lemma twins_refuted {E : Env} : exists a b, parseable a /\ parseable b /\ a <> b /\ action_to_bytes a = action_to_bytes b.
Proof.
  exists (unknown_status [0]), serial_status. repeat split; try discriminate.
  - exists [0x62; 0x40; 1; 0], ([], 0%nat). split; [repeat constructor|].
    destruct E as [[] [] []]; vm_compute; reflexivity.
  - exists [0x62; 1; 0], ([], 0%nat). split; [repeat constructor|]. destruct E as [[] [] []]; vm_compute; reflexivity.
Qed.
Lemma twins_command_refuted {E : Env} : exists c d l, Forall parseable c /\ Forall parseable d /\
  length c <> length d /\ command_to_bytes c = Ok l /\ command_to_bytes d = Ok l.
Proof.
  exists [unknown_status []; plain_nop], [host_status], [0x62; 0; 0]. split; [|split; [|split; [discriminate|split; reflexivity]]].
  - constructor; [|constructor; [|constructor]].
    + exists [0x62; 0x40; 0], ([], 0%nat). split; [repeat constructor|]. destruct E as [[] [] []]; vm_compute; reflexivity.
    + exists [0], ([], 0%nat). split; [repeat constructor|]. destruct E as [[] [] []]; vm_compute; reflexivity.
  - constructor; [|constructor].
    exists [0x62; 0; 0], ([], 0%nat). split; [repeat constructor|]. destruct E as [[] [] []]; vm_compute; reflexivity.
Qed.

(** Where the id byte is not put back, long statuses of unknown interfaces can be taken for that of
    the DASH7 interface with other actions behind it. *)
Lemma parseable_wf {E : Env} a : wf_action a -> parseable a.
Proof.
  intros H. destruct (action_bytes a H) as [_ B]. exists (enc_action a), ([], 0%nat). split; [exact B|].
  pose proof (decode_action_from_bytes _ B) as D. pose proof (decode_encoded a [] H (Forall_nil _)) as Q. rewrite app_nil_r in Q.
  rewrite Q in D. destruct a; try exact D. contradiction.
Qed.
Lemma parseable_unknown {E : Env} l : e_rewind = false -> wf_payload l -> parseable (unknown_status l).
Proof.
  intros He [Hl Hn]. set (t := enc_length (N.of_nat (length l)) ++ l).
  assert (Ht : bytes t) by (apply Forall_app; split; [apply enc_length_bytes; exact Hn|exact Hl]).
  assert (B : bytes (0x62 :: 0x40 :: t)) by (constructor; [reflexivity|constructor; [reflexivity|exact Ht]]).
  exists (0x62 :: 0x40 :: t), ([], 0%nat). split; [exact B|]. pose proof (decode_action_from_bytes _ B) as D.
  assert (Q : dec_action (0x62 :: 0x40 :: t) = Some (unknown_status l, [])).
  { unfold dec_action. change (part 0 6 0x62) with 34. cbn [dec_operand]. unfold andthen at 1. cbn [one].
    change (part 6 2 0x62) with 1. change (part 0 6 0x62) with 34. unfold andthen at 1. cbn [named find code_status_type N.eqb Pos.eqb give].
    unfold give at 1. unfold andthen at 1, dec_status. cbn [N.eqb Pos.eqb]. unfold andthen at 1, dec_itf_status. unfold andthen at 1. cbn [one N.eqb Pos.eqb orb].
    rewrite He. unfold andthen at 1. unfold t. rewrite dec_enc_length by exact Hn. unfold andthen, some_bytes. rewrite N.leb_refl.
    rewrite Nat2N.id, firstn_all, skipn_all. reflexivity. }
  rewrite Q in D. exact D.
Qed.
Definition long_dash7 : dash7_interface_status :=
  mkDash7Status (mkChannel (mkChannelHeader Band868 LoRate Pn9) 0) 0 0 0 false false false false 0 0 (mkVarInt 0 false)
    (mkAddressee GcAny AtNoId false NlsNone (mkAccessClass 0 0) NoId NsNone).
Lemma repeat_nops {E : Env} m : enc_command (repeat plain_nop m) = repeat 0 m.
Proof. induction m as [|m IH]; [reflexivity|]. cbn [repeat enc_command flat_map]. fold (enc_command (repeat plain_nop m)). rewrite IH. reflexivity. Qed.
Theorem long_twins {E : Env} : e_rewind = false -> exists c d l, Forall parseable c /\ Forall parseable d /\
  Forall (fun a => is_tx_status a = false) c /\ Forall (fun a => is_tx_status a = false) d /\
  command_to_bytes c = Ok l /\ command_to_bytes d = Ok l /\ ~ twins c d.
Proof.
  intros He. set (b := interface_action ItDash7 (IsDash7 long_dash7)).
  assert (Wb : wf_action b).
  { destruct E as [[] [] []]; (split; [reflexivity|]); cbn [so_type so_status wf_itf_status_op iso_type iso_status b];
      repeat split; try reflexivity; try (exists 0, 0; repeat split; reflexivity); right; split; reflexivity. }
  assert (Q : exists body, enc_action b = 0x62 :: 0xD7 :: 12 :: 0x30 :: 0 :: body /\ bytes body /\ length body = 10%nat).
  { destruct E as [[] [] []]; eexists; (split; [reflexivity|]); (split; [repeat constructor|reflexivity]). }
  destruct Q as (body & Q & Bb & Lb). set (k := 0x170C3000). assert (Hk : exists m, k = 10 + N.of_nat m).
  { exists (N.to_nat (k - 10)). rewrite N2Nat.id. reflexivity. }
  destruct Hk as (m & Hm). set (l := body ++ repeat 0 m).
  assert (Ll : N.of_nat (length l) = k) by (unfold l; rewrite app_length, repeat_length, Lb, Hm; lia).
  assert (Pl : wf_payload l).
  { split; [|unfold wf_length; rewrite Ll; reflexivity]. apply Forall_app. split; [exact Bb|]. apply Forall_forall. intros x I.
    apply repeat_spec in I. subst x. reflexivity. }
  assert (Pc : Forall parseable [unknown_status l]) by (constructor; [apply parseable_unknown; assumption|constructor]).
  assert (Pd : Forall parseable (b :: repeat plain_nop m)).
  { constructor; [apply parseable_wf; exact Wb|]. apply Forall_forall. intros x I. apply repeat_spec in I. subst x.
    apply parseable_wf. repeat split; cbn; lia. }
  assert (Tc : Forall (fun a => is_tx_status a = false) [unknown_status l]) by (constructor; [reflexivity|constructor]).
  assert (Td : Forall (fun a => is_tx_status a = false) (b :: repeat plain_nop m)).
  { constructor; [reflexivity|]. apply Forall_forall. intros x I. apply repeat_spec in I. subst x. reflexivity. }
  exists [unknown_status l], (b :: repeat plain_nop m), (0x62 :: enc_length k ++ l).
  repeat (split; [assumption|]). split; [|split].
  - rewrite (command_plain _ (plain_all _ Pc Tc)). cbn [enc_command flat_map]. rewrite unknown_enc, Ll, app_nil_r. reflexivity.
  - rewrite (command_plain _ (plain_all _ Pd Td)). cbn [enc_command flat_map]. fold (enc_command (repeat plain_nop m)).
    rewrite repeat_nops, Q. unfold l. change (enc_length k) with [0xD7; 12; 0x30; 0]. cbn [app]. reflexivity.
  - intros H. inversion H.
Qed.
