(** Different commands that are written as the same bytes, transmission statuses included. *)
From Coq Require Import List NArith ZArith Bool Lia ZifyBool ZifyNat ZifyN Arith.
From Verif Require Import Base Deku Utils Types Physical Link Network Session Data Query
  Interface File Operation Action Command WellFormed SpecLayout SpecAction SpecDecode SpecTwins LBits LReader
  LLayout LRound LRoundOps LAction LNumbers LNiceOps LActionApi LReencode LCommandMore LExact LDecode LDecodeLoop
  LCommandApi LCanon LCanonOps LCanonTop LFlags LTwins.
From Verif Require LFramesW.
Import ListNotations.
Open Scope N_scope.

(** The bits of an action. *)
Definition abits {E : Env} (a : action) : list bool :=
  match a with
  | ATxStatus v => bits_of_bytes [0x40] ++ bits_of 6 38 ++ bits_of_bytes (tx_body v)
  | _ => bits_of_bytes (enc_action a)
  end.
Definition cbits {E : Env} (c : command) : list bool := flat_map abits c.
Definition is_tx_parsed {E : Env} (a : action) : Prop := exists v, a = ATxStatus v /\ parsed_tx_status v.
Lemma parsed_cases {E : Env} a : parsed_action a -> plain a \/ is_tx_parsed a.
Proof.
  intros H. destruct (is_tx a) eqn:T; [|left; split; assumption]. right.
  destruct (is_tx_inv a T) as (v & ->). destruct H as [H|[(l & H & _)|(_ & w & H & P)]]; [destruct H|discriminate|].
  exists w. split; assumption.
Qed.
Lemma plain_abits {E : Env} a : plain a -> abits a = bits_of_bytes (enc_action a).
Proof. intros [_ T]. destruct a; try reflexivity. discriminate. Qed.
Lemma written {E : Env} a : parsed_action a -> write_action a = Ok (abits a).
Proof.
  intros H. destruct (parsed_cases a H) as [P|(v & -> & P)].
  - rewrite (plain_abits a P). exact (proj1 (parsed_W a (proj1 P) (proj2 P))).
  - rewrite tx_written by exact P. reflexivity.
Qed.
Lemma command_written {E : Env} c : Forall parsed_action c -> command_to_bytes c = Ok (bytes_of_bits (cbits c)).
Proof.
  intros H. unfold command_to_bytes, to_bytes, write_command.
  assert (Q : write_list write_action c = Ok (cbits c)).
  { induction H as [|a c Ha _ IH]; [reflexivity|]. cbn [write_list]. rewrite (written a Ha), IH. reflexivity. }
  rewrite Q. reflexivity.
Qed.

(** Bits are filled up with zeros. *)
Lemma filled x : exists k n, (k < 8)%nat /\ length (x ++ repeat false k) = (8 * n)%nat /\ bytes_of_bits x = bytes_of_bits (x ++ repeat false k).
Proof.
  induction x as [x Hx|y x Hy IH] using octet_ind.
  - destruct x as [|b x]. { exists 0%nat, 0%nat. repeat split; lia. }
    exists (8 - length (b :: x))%nat, 1%nat. split; [cbn [length]; lia|]. split.
    { rewrite app_length, repeat_length. cbn [length] in *. lia. }
    do 7 (destruct x as [|? x]; [reflexivity|]). cbn [length] in Hx. lia.
  - destruct IH as (k & n & Hk & L & Q). exists k, (S n). split; [exact Hk|]. split.
    + rewrite <- app_assoc, app_length, L, Hy. lia.
    + rewrite <- app_assoc, !bytes_of_bits_cons8 by exact Hy. rewrite Q. reflexivity.
Qed.
Lemma same_filled x y : bytes_of_bits x = bytes_of_bits y ->
  exists k m, (k < 8)%nat /\ (m < 8)%nat /\ x ++ repeat false k = y ++ repeat false m.
Proof.
  intros H. destruct (filled x) as (k & n & Hk & L & Q). destruct (filled y) as (m & o & Hm & L' & Q').
  exists k, m. split; [exact Hk|]. split; [exact Hm|]. rewrite Q, Q' in H. apply (f_equal bits_of_bytes) in H.
  rewrite (bits_of_bytes_of_bits _ _ L), (bits_of_bytes_of_bits _ _ L') in H. exact H.
Qed.
(** Any bits, with zeros behind them, are bytes. *)
Lemma whole (x : list bool) : exists k s, bytes s /\ x ++ repeat false k = bits_of_bytes s.
Proof.
  destruct (filled x) as (k & n & _ & L & _). exists k, (bytes_of_bits (x ++ repeat false k)). split; [apply bytes_of_bits_bytes|].
  symmetry. exact (bits_of_bytes_of_bits _ _ L).
Qed.
Lemma whole_two (p q : list N) x y : bits_of_bytes p ++ x = bits_of_bytes q ++ y ->
  exists z s t, bytes s /\ bytes t /\ x ++ z = bits_of_bytes s /\ y ++ z = bits_of_bytes t.
Proof.
  intros H. destruct (whole x) as (k & s & Hs & Qs). exists (repeat false k), s, (bytes_of_bits (y ++ repeat false k)).
  split; [exact Hs|]. split; [apply bytes_of_bits_bytes|]. split; [exact Qs|]. symmetry.
  assert (L : (8 * length p + length x = 8 * length q + length y)%nat).
  { apply (f_equal (@length bool)) in H. rewrite !app_length, !bits_of_bytes_length in H. lia. }
  assert (Ls : (length x + k = 8 * length s)%nat).
  { apply (f_equal (@length bool)) in Qs. rewrite app_length, repeat_length, bits_of_bytes_length in Qs. lia. }
  apply (bits_of_bytes_of_bits _ (length p + length s - length q)). rewrite app_length, repeat_length. lia.
Qed.

Definition behind_bits (l : list N) (s : list bool) (b : action) (t : list bool) : Prop :=
  b = host_status /\ l = [] /\ s = repeat false 8 ++ t \/
  b = serial_status /\ l = [0] /\ s = t \/
  (23 * 2 ^ 24 <= N.of_nat (length l) /\ N.of_nat (length l) < 24 * 2 ^ 24).
Lemma behind_of {E : Env} l s b t x y z : bytes s -> bytes t -> x ++ z = bits_of_bytes s -> y ++ z = bits_of_bytes t ->
  behind l s b t -> behind_bits l x b y.
Proof.
  intros Bs Bt Qx Qy [(-> & -> & H)|[(-> & -> & H)|(H & _)]].
  - left. split; [reflexivity|]. split; [reflexivity|]. apply (app_inv_tail z). rewrite <- app_assoc, Qx, Qy, H. reflexivity.
  - right. left. split; [reflexivity|]. split; [reflexivity|]. apply (app_inv_tail z). congruence.
  - right. right. exact H.
Qed.
Lemma two_heads_bits {E : Env} a b x y : plain a -> plain b -> abits a ++ x = abits b ++ y ->
  a = b /\ x = y \/ (exists l, a = unknown_status l /\ behind_bits l x b y) \/ (exists l, b = unknown_status l /\ behind_bits l y a x).
Proof.
  intros Ha Hb H. rewrite (plain_abits a Ha), (plain_abits b Hb) in H.
  destruct (whole_two _ _ _ _ H) as (z & s & t & Bs & Bt & Qx & Qy).
  assert (Q : enc_action a ++ s = enc_action b ++ t).
  { apply bits_of_bytes_inj; [apply Forall_app; split; [apply plain_bytes; exact Ha|exact Bs]|apply Forall_app; split; [apply plain_bytes; exact Hb|exact Bt]|].
    rewrite !bits_of_bytes_app, <- Qx, <- Qy, !app_assoc, H. reflexivity. }
  destruct (two_heads a b s t Ha Hb Bs Bt Q) as [[-> ->]|[(l & -> & G)|(l & -> & G)]].
  - left. split; [reflexivity|]. apply (app_inv_tail z). congruence.
  - right. left. exists l. split; [reflexivity|]. exact (behind_of l s b t x y z Bs Bt Qx Qy G).
  - right. right. exists l. split; [reflexivity|]. exact (behind_of l t a s y x z Bt Bs Qy Qx G).
Qed.
Lemma tx_heads {E : Env} v w x y : parsed_tx_status v -> parsed_tx_status w ->
  abits (ATxStatus v) ++ x = abits (ATxStatus w) ++ y -> txo_itf_id v = txo_itf_id w /\ txo_status v = txo_status w /\ x = y.
Proof.
  intros Hv Hw H. cbn [abits] in H. rewrite <- !app_assoc in H. apply app_inv_head, app_inv_head in H.
  destruct (whole_two _ _ _ _ H) as (z & s & t & Bs & Bt & Qx & Qy).
  assert (Q : tx_body v ++ s = tx_body w ++ t).
  { apply bits_of_bytes_inj; [apply Forall_app; split; [apply tx_body_bytes; exact Hv|exact Bs]|apply Forall_app; split; [apply tx_body_bytes; exact Hw|exact Bt]|].
    rewrite !bits_of_bytes_app, <- Qx, <- Qy, !app_assoc, H. reflexivity. }
  unfold tx_body, enc_prefixed in Q. cbn [app] in Q. rewrite <- !app_assoc in Q.
  assert (I : txo_itf_id v = txo_itf_id w) by congruence.
  destruct (tx_payload_W v Hv) as (_ & V2). destruct (tx_payload_W w Hw) as (_ & W2).
  pose proof (dec_enc_length _ (enc_tx_payload (txo_status v) ++ s) V2) as D1.
  pose proof (dec_enc_length _ (enc_tx_payload (txo_status w) ++ t) W2) as D2.
  set (pv := enc_tx_payload (txo_status v)) in *. set (pw := enc_tx_payload (txo_status w)) in *.
  assert (Q' : enc_length (N.of_nat (length pv)) ++ pv ++ s = enc_length (N.of_nat (length pw)) ++ pw ++ t) by congruence.
  rewrite Q' in D1. assert (R : pv ++ s = pw ++ t) by congruence.
  assert (L : length pv = length pw) by (assert (N.of_nat (length pv) = N.of_nat (length pw)) by congruence; lia).
  apply LFramesW.app_eq_len in R as (R & St); [|exact L].
  assert (TT : action_to_bytes (ATxStatus v) = action_to_bytes (ATxStatus w)).
  { rewrite !tx_to_bytes by assumption. unfold tx_body. fold pv pw. rewrite I, R. reflexivity. }
  destruct (tx_inj v w Hv Hw TT) as [_ S]. split; [exact I|]. split; [exact S|]. apply (app_inv_tail z). congruence.
Qed.

(** A transmission status begins like a Nop, and no action begins like the rest of it. *)
Definition nop40 : action := ANop (mkNop (mkHeader false true) 0).
Lemma nop40_plain {E : Env} : plain nop40.
Proof. split; [left; repeat split; cbn; lia|reflexivity]. Qed.
Lemma plain_head {E : Env} a : plain a -> exists x u, enc_action a = x :: u /\ x < 256 /\ abits a = bits_of 8 x ++ bits_of_bytes u.
Proof.
  intros P. destruct (enc_action_cons a (proj2 P)) as (x & u & Q). exists x, u. split; [exact Q|].
  pose proof (plain_bytes a P) as B. rewrite Q in B. split; [inversion B; assumption|]. rewrite (plain_abits a P), Q. apply bits_of_bytes_cons.
Qed.
Lemma tx_nop {E : Env} v b x y : plain b -> abits (ATxStatus v) ++ x = abits b ++ y ->
  y = bits_of 6 38 ++ bits_of_bytes (tx_body v) ++ x.
Proof.
  intros Hb H. assert (Q : abits nop40 ++ (bits_of 6 38 ++ bits_of_bytes (tx_body v) ++ x) = abits b ++ y).
  { rewrite <- H. cbn [abits]. rewrite <- !app_assoc. reflexivity. }
  destruct (two_heads_bits nop40 b _ _ nop40_plain Hb Q) as [[_ G]|[(l & G & _)|(l & -> & _)]]; [congruence|discriminate|].
  exfalso. rewrite (plain_abits _ Hb), unknown_enc in Q. discriminate.
Qed.
Lemma unassigned {E : Env} a x u : plain a -> enc_action a = x :: u -> x < 256 -> forall i j : bool,
  bits_of 8 x = [true; false; false; true; true; false; i; j] -> False.
Proof.
  intros [Pa Ta] Q Hx i j H. apply (f_equal N_of_bits) in H. rewrite N_of_bits_bits_of_small in H by exact Hx.
  destruct Pa as [Pa|[(l & -> & _)|(_ & w & -> & _)]]; [|rewrite unknown_enc in Q|discriminate].
  - assert (D : dec_action (enc_action a ++ []) = Some (a, [])) by (apply decode_encoded; [exact Pa|constructor]).
    rewrite app_nil_r, Q in D. unfold dec_action in D. destruct i, j; vm_compute in H; subst x; discriminate.
  - assert (x = 0x62) as -> by congruence. destruct i, j; discriminate.
Qed.
Lemma not_behind {E : Env} c p v x : Forall parsed_action c -> (length p < length x + 8)%nat ->
  cbits c ++ p = bits_of 6 38 ++ bits_of_bytes (tx_body v) ++ x -> False.
Proof.
  intros Hc Hp H. destruct c as [|a c].
  - apply (f_equal (@length bool)) in H. cbn [cbits flat_map app] in H. unfold tx_body in H.
    rewrite !app_length, bits_of_length, bits_of_bytes_length in H. cbn [length] in H. lia.
  - apply Forall_cons_iff in Hc as [Ha _]. cbn [cbits flat_map] in H. destruct (parsed_cases a Ha) as [P|(w & -> & _)].
    + destruct (plain_head a P) as (y & u & Q & By & QB). rewrite QB in H. unfold tx_body in H.
      rewrite bits_of_bytes_cons, <- !app_assoc in H.
      destruct (bits_of 8 (txo_itf_id v)) as [|i [|j t]] eqn:T; [apply (f_equal (@length bool)) in T; rewrite bits_of_length in T; discriminate T..|].
      change (bits_of 6 38) with [true; false; false; true; true; false] in H.
      apply (unassigned a y u P Q By i j).
      apply (f_equal (firstn 8)) in H. rewrite firstn_app, bits_of_length, Nat.sub_diag, firstn_O, app_nil_r in H.
      rewrite firstn_all2 in H by (rewrite bits_of_length; lia). exact H.
    + discriminate.
Qed.
Lemma parsed_long {E : Env} a : parsed_action a -> (8 <= length (abits a))%nat.
Proof.
  intros H. destruct (parsed_cases a H) as [P|(v & -> & _)].
  - destruct (plain_head a P) as (x & u & _ & _ & ->). rewrite app_length, bits_of_length. lia.
  - cbn [abits]. rewrite app_length. cbn [bits_of_bytes flat_map]. rewrite app_length, bits_of_length. lia.
Qed.
Lemma zero_ahead {E : Env} c p y : Forall parsed_action c -> (length p < length y + 8)%nat -> cbits c ++ p = repeat false 8 ++ y ->
  exists c', c = plain_nop :: c' /\ cbits c' ++ p = y.
Proof.
  intros H Hk Q. destruct c as [|a c].
  { apply (f_equal (@length bool)) in Q. cbn [cbits flat_map app] in Q. rewrite app_length, repeat_length in Q. lia. }
  apply Forall_cons_iff in H as [Ha Hc]. exists c. cbn [cbits flat_map] in Q. fold (cbits c) in Q. rewrite <- app_assoc in Q.
  destruct (parsed_cases a Ha) as [P|(v & -> & _)]; [|discriminate].
  assert (Pn : plain plain_nop) by (split; [left; repeat split; cbn; lia|reflexivity]).
  change (repeat false 8) with (abits plain_nop) in Q.
  destruct (two_heads_bits a plain_nop _ _ P Pn Q) as [[-> G]|[(l & -> & _)|(l & G & _)]]; [auto| |discriminate].
  exfalso. rewrite (plain_abits _ P), unknown_enc in Q. discriminate.
Qed.
(** With something behind both commands that is less than a byte longer behind one than behind the other. *)
Lemma twins_bits {E : Env} n : forall c d p q, (length c + length d <= n)%nat -> (length p < length q + 8)%nat -> (length q < length p + 8)%nat ->
  Forall parsed_action c -> Forall parsed_action d -> Forall handy c -> Forall handy d ->
  cbits c ++ p = cbits d ++ q -> twins c d /\ p = q.
Proof.
  induction n as [|n IH]; intros c d p q Hn Hk Hm Hc Hd Gc Gd H.
  { destruct c, d; cbn [length] in Hn; try lia. split; [constructor|exact H]. }
  destruct c as [|a c]; [destruct d as [|b d]|destruct d as [|b d]].
  - split; [constructor|exact H].
  - exfalso. apply Forall_cons_iff in Hd as [Hb _]. pose proof (parsed_long b Hb). apply (f_equal (@length bool)) in H.
    cbn [cbits flat_map app] in H. rewrite !app_length in H. lia.
  - exfalso. apply Forall_cons_iff in Hc as [Ha _]. pose proof (parsed_long a Ha). apply (f_equal (@length bool)) in H.
    cbn [cbits flat_map app] in H. rewrite !app_length in H. lia.
  - apply Forall_cons_iff in Gc as [Ga Gc]. apply Forall_cons_iff in Gd as [Gb Gd].
    apply Forall_cons_iff in Hc as [Ha Hc]. apply Forall_cons_iff in Hd as [Hb Hd].
    cbn [cbits flat_map length] in *. fold (cbits c) in *. fold (cbits d) in *. rewrite <- !app_assoc in H.
    destruct (parsed_cases a Ha) as [Pa|(v & -> & Pv)], (parsed_cases b Hb) as [Pb|(w & -> & Pw)].
    + destruct (two_heads_bits a b _ _ Pa Pb H) as [[-> Q]|[(l & -> & Q)|(l & -> & Q)]].
      * destruct (IH c d p q) as [T G]; auto; [lia|]. split; [apply twins_same; exact T|exact G].
      * destruct Q as [(-> & -> & Q)|[(-> & -> & Q)|Q]].
        -- destruct (zero_ahead c p (cbits d ++ q) Hc ltac:(rewrite app_length; lia) Q) as (c' & -> & Q'). apply Forall_cons_iff in Hc as [_ Hc].
           apply Forall_cons_iff in Gc as [_ Gc]. cbn [length] in Hn. destruct (IH c' d p q) as [T G]; auto; [lia|].
           split; [apply twins_host; exact T|exact G].
        -- destruct (IH c d p q) as [T G]; auto; [lia|]. split; [apply twins_serial; exact T|exact G].
        -- destruct (Ga l eq_refl Q).
      * destruct Q as [(-> & -> & Q)|[(-> & -> & Q)|Q]].
        -- destruct (zero_ahead d q (cbits c ++ p) Hd ltac:(rewrite app_length; lia) Q) as (d' & -> & Q'). apply Forall_cons_iff in Hd as [_ Hd].
           apply Forall_cons_iff in Gd as [_ Gd]. cbn [length] in Hn. destruct (IH c d' p q) as [T G]; auto; [lia|].
           split; [apply twins_host_back; exact T|exact G].
        -- destruct (IH c d p q) as [T G]; auto; [lia|]. split; [apply twins_serial_back; exact T|exact G].
        -- destruct (Gb l eq_refl Q).
    + exfalso. apply (not_behind c p w (cbits d ++ q) Hc); [rewrite app_length; lia|]. exact (tx_nop w a _ _ Pa (eq_sym H)).
    + exfalso. apply (not_behind d q v (cbits c ++ p) Hd); [rewrite app_length; lia|]. exact (tx_nop v b _ _ Pb H).
    + destruct (tx_heads v w _ _ Pv Pw H) as (Q1 & Q2 & Q).
      assert (w = mkTxStatusOp (txo_opcode w) (txo_itf_id v) (txo_status v)) as -> by (rewrite Q1, Q2; destruct w; reflexivity).
      destruct (IH c d p q) as [T G]; auto; [lia|]. split; [apply twins_tx; exact T|exact G].
Qed.
Lemma twins_cbits {E : Env} c d : twins c d -> cbits c = cbits d.
Proof.
  induction 1; unfold cbits in *; cbn [flat_map]; rewrite ?IHtwins; reflexivity.
Qed.
Lemma whole_handy {E : Env} c : Forall parseable c -> e_rewind = true \/ N.of_nat (length (bytes_of_bits (cbits c))) < 23 * 2 ^ 24 -> Forall handy c.
Proof.
  intros H B. rewrite Forall_forall in *. intros a I l -> [L U]. destruct B as [B|B].
  - exact (unknown_range l B (H _ I) (conj L U)).
  - destruct (filled (cbits c)) as (k & n & _ & Ln & Q). rewrite Q, (bytes_of_bits_length _ n Ln) in B.
    apply in_split in I as (x & y & ->). unfold cbits in Ln. rewrite flat_map_app in Ln. cbn [flat_map] in Ln.
    assert (A : abits (unknown_status l) = bits_of_bytes (enc_action (unknown_status l))) by reflexivity.
    rewrite A, unknown_enc, !app_length, bits_of_bytes_length in Ln. cbn [length] in Ln. rewrite app_length in Ln. lia.
Qed.
Theorem twins_commands {E : Env} c d l : Forall parseable c -> Forall parseable d ->
  command_to_bytes c = Ok l -> e_rewind = true \/ N.of_nat (length l) < 23 * 2 ^ 24 ->
  (command_to_bytes d = Ok l <-> twins c d).
Proof.
  intros Hc Hd H B.
  assert (Pc : Forall parsed_action c) by (eapply Forall_impl; [|exact Hc]; apply parseable_parsed).
  assert (Pd : Forall parsed_action d) by (eapply Forall_impl; [|exact Hd]; apply parseable_parsed).
  rewrite (command_written c Pc) in H. assert (l = bytes_of_bits (cbits c)) as -> by congruence. clear H. rewrite (command_written d Pd). split.
  - intros H. assert (Q : bytes_of_bits (cbits c) = bytes_of_bits (cbits d)) by congruence.
    destruct (same_filled _ _ Q) as (k & m & Hk & Hm & Q').
    apply (twins_bits (length c + length d) c d (repeat false k) (repeat false m)); rewrite ?repeat_length; auto; try lia; [apply whole_handy; assumption|].
    apply whole_handy; [exact Hd|]. rewrite <- Q. exact B.
  - intros H. rewrite (twins_cbits c d H). reflexivity.
Qed.
