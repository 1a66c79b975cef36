(** Lemmas for C89: parsing a command and writing it, again and again. *)
From Coq Require Import List NArith ZArith Bool Lia ZifyBool ZifyNat ZifyN Arith.
From Verif Require Import Base Deku Utils Types Physical Link Network Session Data Query
  Interface File Operation Action Command Position WellFormed SpecLayout SpecApi SpecAction SpecFail SpecJoin SpecGrow SpecRounds SpecDecode
  LExact LBits LReader LActionApi LWrite LDecodeLoop LDecode LFail LCommandMore LCanon LJoin LGrow LBounds.
Import ListNotations.
Open Scope N_scope.

Lemma clashes_or n : clashes n \/ ~ clashes n.
Proof. unfold clashes. change (23 * 2 ^ 24) with 385875968. change (24 * 2 ^ 24) with 402653184. lia. Qed.
Lemma reencodable_or {E : Env} c : Forall reencodable c \/ Exists (fun a => ~ reencodable a) c.
Proof.
  induction c as [|a c IH]; [left; constructor|].
  assert (H : reencodable a \/ ~ reencodable a).
  { unfold reencodable. destruct a as [| | | | | | | | | | | | | | | | | | |s| | | | | | | |]; try tauto. destruct s as [t o [| [[] [| | |l]] |]]; try tauto.
    destruct (bool_dec e_rewind true) as [R|R]; [|right; tauto]. destruct (clashes_or (N.of_nat (length l))); tauto. }
  destruct H as [H|H]; [|right; left; exact H]. destruct IH as [IH|IH]; [left; constructor; assumption|right; right; exact IH].
Qed.

(** Only numbers of one byte, and the id of DASH7 in front of three, are the lengths that clash. *)
Lemma clash_shorter i l n m : bytes (i :: l) -> dec_length (i :: l) = Some (n, m) -> clashes n -> 4 <= i -> i <> 0xD7 ->
  (S (length_size n) + length m <= length (i :: l))%nat.
Proof.
  intros H G C I4 I7. destruct (length_takes _ _ _ _ G) as (T1 & T2).
  assert (I : 64 <= i). { destruct (N.lt_ge_cases i 64) as [L|L]; [|exact L]. specialize (T2 L). unfold clashes in C. change (23 * 2 ^ 24) with 385875968 in C. lia. }
  assert (K1 : 1 <= i / 64) by (apply N.div_le_lower_bound; lia).
  destruct C as [C|[C1 C2]].
  - replace (length_size n) with 1%nat by (unfold length_size; change (2 ^ 6) with 64; destruct (N.ltb_spec n 64); [reflexivity|lia]). lia.
  - exfalso. rewrite dec_length_cons in G. inversion H as [|? ? Hb Hl]; subst. unfold byte in Hb.
    destruct (some_bytes (i / 64) l) as [[t r]|] eqn:Q; [|discriminate]. injection G as <- _.
    apply take_some in Q as (Q1 & Q2 & Q3 & Q4); [|exact Hl]. pose proof (N_of_be_lt t Q2) as B. rewrite Q3, N2Nat.id in B.
    assert (Km : i / 64 < 4) by (apply N.div_lt_upper_bound; lia). assert (M : i mod 64 < 64) by (apply N.mod_lt; lia).
    pose proof (N.div_mod i 64 ltac:(lia)) as DM.
    change (23 * 2 ^ 24) with 385875968 in C1. change (24 * 2 ^ 24) with 402653184 in C2.
    assert (i / 64 = 1 \/ i / 64 = 2 \/ i / 64 = 3) as [X|[X|X]] by lia; rewrite X in *;
      change (256 ^ 1) with 256 in *; change (256 ^ 2) with 65536 in *; change (256 ^ 3) with 16777216 in *; lia.
Qed.

(** A status that is not put back as it was loses a byte. *)
Lemma itf_strict {E : Env} l p rest : bytes l -> dec_itf_status l = Some (mkItfStatusOp ItUnknown (IsOther p), rest) ->
  ~ (e_rewind = true /\ ~ clashes (N.of_nat (length p))) ->
  (S (prefixed_size (length p)) + length rest <= length l)%nat.
Proof.
  unfold dec_itf_status. intros H G N0. apply then_inv in G as (i & l1 & Q & G).
  destruct (min_one _ _ _ H Q) as (B1 & L1). cbv beta in L1. unfold prefixed_size.
  destruct l as [|i' l']; [discriminate|]. injection Q as -> ->.
  destruct (i =? 0) eqn:E0; [exfalso; repeat apply then_inv in G as (? & ? & _ & G); discriminate|].
  destruct (i =? 1) eqn:E1; [exfalso; repeat apply then_inv in G as (? & ? & _ & G); discriminate|].
  destruct (i =? 0xD7) eqn:E7; [exfalso; repeat apply then_inv in G as (? & ? & _ & G); discriminate|].
  destruct ((i =? 2) || (i =? 3)) eqn:E2; [discriminate|].
  destruct e_rewind.
  - assert (C : clashes (N.of_nat (length p))) by (destruct (clashes_or (N.of_nat (length p))) as [K|K]; [exact K|exfalso; apply N0; split; [reflexivity|exact K]]).
    apply then_inv in G as (n & m1 & K1 & G). apply then_inv in G as (q & m2 & K2 & G). 
    assert (q = p /\ m2 = rest) as [-> ->] by (unfold give in G; split; congruence).
    destruct (take_length _ _ _ H K1) as (C1 & C2 & C3). apply take_some in K2 as (D1 & D2 & D3 & D4); [|exact C1].
    rewrite (size_same _ n D3 C3). replace (N.of_nat (length p)) with n in C by lia.
    pose proof (clash_shorter i l1 n m1 H K1 C ltac:(lia) ltac:(lia)). lia.
  - apply then_inv in G as (n & m1 & K1 & G). apply then_inv in G as (q & m2 & K2 & G). 
    assert (q = p /\ m2 = rest) as [-> ->] by (unfold give in G; split; congruence).
    destruct (take_length _ _ _ B1 K1) as (C1 & C2 & C3). apply take_some in K2 as (D1 & D2 & D3 & D4); [|exact C1].
    rewrite (size_same _ n D3 C3). lia.
Qed.

Lemma operand_strict {E : Env} op l a rest : bytes l -> dec_operand op l = Some (a, rest) -> ~ reencodable a -> is_tx_status a = false ->
  (S (size_of a) + length rest <= length l)%nat.
Proof.
  intros H G R T.
  assert (Sh : exists t o p, a = AStatus (mkStatusOperand t o (StatusInterface (mkItfStatusOp ItUnknown (IsOther p)))) /\
    ~ (e_rewind = true /\ ~ clashes (N.of_nat (length p)))).
  { unfold reencodable in R. destruct a as [| | | | | | | | | | | | | | | | | | |s| | | | | | | |]; try (exfalso; apply R; exact I); try discriminate T.
    destruct s as [t o [| [[] [| | |p]] |]]; try (exfalso; apply R; exact I). exists t, o, p. split; [reflexivity|exact R]. }
  destruct Sh as (t & o & p & -> & C). clear R T.
  unfold dec_operand in G.
  repeat match type of G with (match ?x with _ => _ end) _ = _ => is_var x; destruct x end; try discriminate G.
  all: try (destruct e_feat; try discriminate G).
  all: unfold dec_nop, dec_file_id_op, dec_file_properties, dec_action_query, dec_file_data in G.
  all: repeat match type of G with andthen _ _ _ = _ => apply then_inv in G as (? & ? & ? & G) end.
  all: repeat match type of G with (if ?c then _ else _) _ = _ => destruct c end; try discriminate G.
  all: repeat match type of G with andthen _ _ _ = _ => apply then_inv in G as (? & ? & ? & G) end; try discriminate G.
  all: match goal with Q : dec_status _ ?m = Some (?st, ?m') |- _ =>
    assert (st = StatusInterface (mkItfStatusOp ItUnknown (IsOther p)) /\ m' = rest) as [-> ->] by (unfold give in G; split; congruence) end.
  all: match goal with Q0 : one _ = Some _, Q1 : named _ _ _ _ = Some _ |- _ =>
    destruct (min_one _ _ _ H Q0) as (B0 & L0); destruct (min_named _ _ _ _ _ _ B0 Q1) as (B1 & L1); cbv beta in L0, L1 end.
  all: match goal with Q : dec_status _ _ = Some _ |- _ => rename Q into Q2 end.
  all: assert (Q3 : exists m', bytes m' /\ length m' = length x2 /\ dec_itf_status m' = Some (mkItfStatusOp ItUnknown (IsOther p), rest)).
  1,3,5: unfold dec_status in Q2; destruct (part 6 2 x =? 0); [repeat (apply then_inv in Q2 as (? & ? & _ & Q2)); discriminate Q2|];
    destruct (part 6 2 x =? 1); [apply then_inv in Q2 as (s & m & Q2 & Q4); assert (s = mkItfStatusOp ItUnknown (IsOther p) /\ m = rest) as [-> ->] by (unfold give in Q4; split; congruence); exists x2; auto|];
    destruct (part 6 2 x =? 2); [destruct e_feat; try discriminate Q2; apply then_inv in Q2 as (? & ? & _ & Q2); discriminate Q2|discriminate Q2].
  all: destruct Q3 as (m' & M1 & M2 & M3); pose proof (itf_strict _ _ _ M1 M3 C) as S;
    unfold size_of, status_size; cbn [so_status iso_type iso_status itf_type_size itf_status_size]; lia.
Qed.
Lemma no_swells c : Forall (fun a => swells a = false) c -> filter swells c = [].
Proof. induction 1 as [|x c K _ IH]; [reflexivity|]. cbn [filter]. rewrite K. exact IH. Qed.
Definition lost {E : Env} (a : action) : Prop := ~ reencodable a /\ is_tx_status a = false.
Lemma actions_strict {E : Env} f : forall p l c rest, bytes l -> dec_actions f p l = Some (c, rest) -> Forall (fun a => swells a = false) c ->
  Exists lost c -> (S (total c) + length rest <= length l)%nat.
Proof.
  induction f as [|f IH]; intros p l c rest H G F X; cbn [dec_actions] in G.
  - destruct l; [|discriminate]. destruct p; [discriminate|]. injection G as <- <-. inversion X.
  - destruct l as [|b l]; [destruct p; [discriminate|]; injection G as <- <-; inversion X|].
    destruct (dec_operand _ _) as [[a r]|] eqn:D; [|discriminate].
    destruct (operand_size _ _ _ _ H D) as (D1 & D2). pose proof (operand_strict _ _ _ _ H D) as D3.
    destruct (is_indirect a) eqn:I.
    + assert (c = [a] /\ r = rest) as [-> ->] by (split; congruence). inversion X as [? ? [X1 T]|? ? X1]; subst; [|inversion X1].
      specialize (D3 X1 T). unfold total. cbn [map list_sum fold_right]. rewrite T in *. lia.
    + destruct (dec_actions f (is_tx a) r) as [[c' r']|] eqn:G'; [|discriminate]. assert (c = a :: c' /\ r' = rest) as [-> ->] by (split; congruence).
      inversion F as [|? ? F1 F3]; subst.
      pose proof (actions_size _ _ _ _ _ D1 G') as A. rewrite (no_swells _ F3) in A. cbn [length] in A. rewrite F1 in D2.
      unfold total in *. cbn [map list_sum fold_right]. fold (list_sum (map (fun a => size_of a + (if is_tx_status a then 1 else 0))%nat c')).
      inversion X as [? ? [X1 T]|? ? X1]; subst; [specialize (D3 X1 T); rewrite T in *; cbn [length] in *; lia|].
      specialize (IH _ _ _ _ D1 G' F3 X1). cbn [length] in *. lia.
Qed.

(** ** Rounds *)
Lemma try_from_read {E : Env} d c : command_try_from d = Ok c -> exists r, read_command 0 (new_reader d) = Ok (c, r).
Proof.
  unfold command_try_from. rewrite u_try_from_eq. destruct (read_command 0 (new_reader d)) as [[x r]|e|]; try discriminate.
  intros H. exists r. destruct (Nat.leb (length d) (bread r / 8)) in H; congruence.
Qed.
Lemma settled_once {E : Env} d c l : command_try_from d = Ok c -> Forall reencodable c -> command_to_bytes c = Ok l -> settled l.
Proof.
  intros H F W. destruct (try_from_read d c H) as (r & R). destruct (command_reencode d c r R F) as (l' & W' & _ & T).
  assert (l' = l) as -> by congruence. unfold settled, again. rewrite T. cbn [rbind]. rewrite W. reflexivity.
Qed.
Lemma again_inv {E : Env} d l : again d = Some l -> exists c, command_try_from d = Ok c /\ command_to_bytes c = Ok l.
Proof.
  unfold again. destruct (command_try_from d) as [c| |]; try discriminate. cbn [rbind]. destruct (command_to_bytes c) as [x| |] eqn:W; try discriminate.
  intros H. exists c. split; [reflexivity|congruence].
Qed.
Lemma written_bytes {E : Env} c l : command_to_bytes c = Ok l -> bytes l.
Proof.
  intros H. destruct (command_fails_iff c) as [H1 H2]. destruct (Exists_dec unwritable c unwritable_dec) as [Q|Q]; [rewrite (H1 Q) in H; discriminate|].
  destruct (H2 Q) as (l' & H' & B). congruence.
Qed.
(** ** Actions up to the first that does not come back *)
Lemma before_open {E : Env} c1 : forall pend d a c2 r, acts pend d = Some (c1 ++ a :: c2, r) -> is_open c1 = true.
Proof.
  induction c1 as [|x c1 IH]; intros pend d a c2 r H; [reflexivity|].
  destruct d as [|b l]; [unfold acts in H; rewrite actions_nil in H; destruct pend; discriminate|].
  rewrite acts_step in H. destruct (dec_operand (next pend b) (b :: l)) as [[a' rest]|]; [|discriminate]. cbn [app] in H.
  destruct (is_indirect a') eqn:Ei; [assert (K : [a'] = x :: c1 ++ a :: c2) by congruence; destruct c1; discriminate|].
  destruct (acts (is_tx a') rest) as [[c r']|] eqn:EA; [|discriminate].
  assert (a' = x /\ c = c1 ++ a :: c2 /\ r' = r) as (-> & -> & ->) by (repeat split; congruence).
  cbn [is_open forallb]. rewrite Ei. exact (IH _ _ _ _ _ EA).
Qed.
Lemma first_lost {E : Env} c : Forall reencodable c \/ exists c1 a c2, c = c1 ++ a :: c2 /\ Forall reencodable c1 /\ ~ reencodable a.
Proof.
  induction c as [|x c IH]; [left; constructor|]. destruct (reencodable_or [x]) as [R|R].
  - inversion R as [|? ? R1 _]; subst. destruct IH as [IH|(c1 & a & c2 & -> & F & N0)]; [left; constructor; assumption|].
    right. exists (x :: c1), a, c2. split; [reflexivity|]. split; [constructor; assumption|exact N0].
  - right. exists [], x, c. split; [reflexivity|]. split; [constructor|]. inversion R as [? ? R1|? ? R1]; subst; [exact R1|inversion R1].
Qed.
Definition stable {E : Env} (P : list N) : Prop :=
  exists c, bytes P /\ command_try_from P = Ok c /\ open_ended c /\ Forall reencodable c /\ command_to_bytes c = Ok P.
Lemma stable_app {E : Env} x y : stable x -> stable y -> stable (x ++ y).
Proof.
  intros (c & B & P & O & T & W) (c' & B' & P' & O' & T' & W'). exists (c ++ c').
  split; [apply Forall_app; auto|]. split; [exact (join_try _ _ _ _ B B' P O P')|]. split; [apply open_app; auto|]. split; [apply Forall_app; auto|].
  rewrite (command_app c c'), W by (eapply Forall_impl; [|exact T]; apply is_tx_not_reencodable). cbn [rbind]. rewrite W'. reflexivity.
Qed.
Lemma stable_settled {E : Env} x : stable x -> settled x.
Proof. intros (c & _ & P & _ & _ & W). unfold settled, again. rewrite P. cbn [rbind]. rewrite W. reflexivity. Qed.
Lemma stable_nop {E : Env} : stable [0x40].
Proof.
  exists [ANop (mkNop (mkHeader false true) 0)]. split; [constructor; [reflexivity|constructor]|].
  split; [destruct E as [[] [] []]; reflexivity|]. split; [constructor; [exact I|constructor]|]. split; [constructor; [exact I|constructor]|].
  destruct E as [[] [] []]; reflexivity.
Qed.
Lemma rounds_settle {E : Env} n : forall P d, (length d <= n)%nat -> stable P -> bytes d ->
  (forall k l c, rounds k (P ++ d) = Some l -> command_try_from l = Ok c -> Forall (fun a => swells a = false) c) ->
  exists k, (k <= length d)%nat /\ (rounds k (P ++ d) = None \/ exists l, rounds k (P ++ d) = Some l /\ settled l).
Proof.
  induction n as [|n IH]; intros P d Hn HP Hd F.
  { destruct d; [|cbn in Hn; lia]. exists 0%nat. split; [lia|]. right. exists P. rewrite app_nil_r. split; [reflexivity|exact (stable_settled _ HP)]. }
  destruct d as [|b d0]; [exact (IH P [] ltac:(cbn; lia) HP Hd F)|]. set (d := b :: d0) in *. assert (Ld : (1 <= length d)%nat) by (cbn; lia). clearbody d.
  destruct (again (P ++ d)) as [l|] eqn:A.
  2:{ exists 1%nat. split; [lia|]. left. cbn [rounds]. rewrite A. reflexivity. }
  destruct (again_inv _ _ A) as (cc & PC & W). pose proof (F 0%nat _ _ eq_refl PC) as Fc.
  assert (Fn : forall k l0 c, rounds k l = Some l0 -> command_try_from l0 = Ok c -> Forall (fun a => swells a = false) c).
  { intros k l0 c Q. apply (F (S k)). cbn [rounds]. rewrite A. exact Q. }
  assert (Go : forall P' d', l = P' ++ d' -> stable P' -> bytes d' -> (length d' < length d)%nat ->
    exists k, (k <= length d)%nat /\ (rounds k (P ++ d) = None \/ exists l, rounds k (P ++ d) = Some l /\ settled l)).
  { intros P' d' El HP' Hd' L. destruct (IH P' d' ltac:(lia) HP' Hd') as (k & K1 & K2).
    - rewrite <- El. exact Fn.
    - exists (S k). split; [lia|]. cbn [rounds]. rewrite A, El. exact K2. }
  destruct (first_lost cc) as [R|RX].
  { exists 1%nat. split; [lia|]. right. exists l. split; [cbn [rounds]; rewrite A; reflexivity|exact (settled_once _ _ _ PC R W)]. }
  assert (HP' := HP). destruct HP' as (cp & BP & PP & OP & RP & WP).
  assert (TP : Forall (fun a => is_tx_status a = false) cp) by (eapply Forall_impl; [|exact RP]; apply is_tx_not_reencodable).
  assert (B : bytes (P ++ d)) by (apply Forall_app; auto).
  apply (try_from_ok _ _ B) in PC as (rest & PC & Lr). apply (try_from_ok _ _ BP) in PP as (r0 & PP & _).
  destruct (acts_join_open _ _ _ d PP OP) as (-> & J). rewrite J in PC. clear J.
  destruct (acts false d) as [[c r]|] eqn:D; [|discriminate]. assert (cc = cp ++ c /\ r = rest) as [-> ->] by (split; congruence). clear PC.
  rewrite (command_app cp c TP), WP in W. cbn [rbind] in W. destruct (command_to_bytes c) as [w| |] eqn:Wc; try discriminate.
  assert (l = P ++ w) as -> by (cbn [rbind] in W; congruence). clear W.
  assert (Bw : bytes w) by exact (command_bytes_ok _ _ Wc).
  apply Forall_app in Fc as [_ Fc].
  pose proof (command_total _ _ Wc) as Tw. pose proof (actions_size _ _ _ _ _ Hd D) as Td. rewrite (no_swells _ Fc) in Td. cbn [length] in Td.
  destruct (first_lost c) as [R|(c1 & a & c2 & -> & R1 & Ra)].
  { exfalso. destruct RX as (x1 & x & x2 & Ex & _ & Rx). apply Rx. apply (proj1 (Forall_forall _ _) (proj2 (Forall_app _ _ _) (conj RP R))).
    rewrite Ex. apply in_or_app. right. left. reflexivity. }
  destruct (is_tx_status a) eqn:Ta.
  - destruct a; try discriminate Ta.
    assert (T1 : Forall (fun a => is_tx_status a = false) c1) by (eapply Forall_impl; [|exact R1]; apply is_tx_not_reencodable).
    pose proof (before_open _ _ _ _ _ _ D) as O1.
    assert (LO : left_open false c1 = false).
    { destruct (left_open false c1) eqn:O; [|reflexivity]. apply left_open_spec in O as (c' & t & ->). apply Forall_app in T1 as [_ T1]. inversion T1; subst. discriminate. }
    destruct (acts_split c1 _ _ _ _ D O1 LO) as (d1 & d2 & Ed & D1 & D2).
    assert (Hd' := Hd). rewrite Ed in Hd'. apply Forall_app in Hd' as [Bd1 Bd2].
    rewrite (command_app c1 _ T1) in Wc. destruct (command_to_bytes c1) as [w1| |] eqn:W1; try discriminate. cbn [rbind] in Wc.
    destruct (command_to_bytes (ATxStatus _ :: c2)) as [w2| |] eqn:W2; try discriminate. cbn [rbind] in Wc.
    destruct (tx_command_first _ _ _ W2) as (t & ->). assert (w = w1 ++ 0x40 :: t) as -> by congruence.
    assert (P1 : command_try_from d1 = Ok c1) by (apply (try_from_ok _ _ Bd1); exists []; split; [exact D1|cbn [length]; pose proof (count_tx_le c1); lia]).
    destruct (try_from_read _ _ P1) as (r1 & Q1). destruct (command_reencode _ _ _ Q1 R1) as (w1' & W1' & B1 & T1').
    assert (w1' = w1) as -> by congruence.
    assert (I1 : stable w1) by (exists c1; split; [exact B1|]; split; [exact T1'|]; split; [apply is_open_spec; exact O1|]; split; [exact R1|exact W1]).
    apply Forall_app in Bw as [_ Bw]. inversion Bw as [|? ? _ Bt]; subst.
    apply (Go ((P ++ w1) ++ [0x40]) t).
    + rewrite <- !app_assoc. reflexivity.
    + apply stable_app; [apply stable_app; assumption|exact stable_nop].
    + exact Bt.
    + rewrite app_length in Tw. cbn [length] in Tw. lia.
  - assert (X : Exists lost (c1 ++ a :: c2)) by (apply Exists_exists; exists a; split; [apply in_or_app; right; left; reflexivity|split; assumption]).
    pose proof (actions_strict _ _ _ _ _ Hd D Fc X) as St. apply (Go P w eq_refl HP Bw). lia.
Qed.
Theorem settles {E : Env} d : bytes d ->
  (forall k l c, rounds k d = Some l -> command_try_from l = Ok c -> Forall (fun a => swells a = false) c) ->
  exists k, (k <= length d)%nat /\ (rounds k d = None \/ exists l, rounds k d = Some l /\ settled l).
Proof.
  intros Hd F. apply (rounds_settle (length d) [] d (le_n _)); [|exact Hd|exact F].
  exists []. repeat split; try constructor; destruct E as [[] [] []]; reflexivity.
Qed.

(** ** Many rounds: each one uncovers a status that the one before had as a file id and two Nops. *)
Definition echo {E : Env} (x y : list N) : Prop :=
  exists c, bytes x /\ command_try_from x = Ok c /\ open_ended c /\ Forall (fun a => is_tx_status a = false) c /\ command_to_bytes c = Ok y.
Lemma echo_app {E : Env} x y x' y' : echo x y -> echo x' y' -> echo (x ++ x') (y ++ y').
Proof.
  intros (c & B & P & O & T & W) (c' & B' & P' & O' & T' & W'). exists (c ++ c').
  split; [apply Forall_app; auto|]. split; [exact (join_try _ _ _ _ B B' P O P')|]. split; [apply open_app; auto|]. split; [apply Forall_app; auto|].
  rewrite (command_app c c' T), W. cbn [rbind]. rewrite W'. reflexivity.
Qed.
Lemma echo_times {E : Env} x n : echo x x -> echo (concat (repeat x n)) (concat (repeat x n)).
Proof.
  intros H. induction n as [|n IH]; [|cbn [repeat concat]; apply echo_app; assumption].
  cbn [repeat concat]. exists []. repeat split; try constructor; destruct E as [[] [] []]; reflexivity.
Qed.
Lemma echo_again {E : Env} x y : echo x y -> again x = Some y.
Proof. intros (c & _ & P & _ & _ & W). unfold again. rewrite P. cbn [rbind]. rewrite W. reflexivity. Qed.
Definition shell : list N := [0x62; 0; 0].
Definition seed : list N := [0x1F; 0x62; 0x40; 0].
Ltac echo := intros; match goal with E : Env |- _ => destruct E as [[] [] []] end; eexists; unfold shell, seed;
  (split; [repeat (apply Forall_cons; [reflexivity|]); apply Forall_nil|]);
  (split; [vm_compute; reflexivity|]); (split; [repeat (apply Forall_cons; [exact I|]); apply Forall_nil|]);
  (split; [repeat (apply Forall_cons; [reflexivity|]); apply Forall_nil|]); vm_compute; reflexivity.
Lemma echo_shell {E : Env} : echo shell shell. Proof. echo. Qed.
Lemma echo_open {E : Env} : echo [0x62; 0; 0x1F] shell. Proof. echo. Qed.
Lemma echo_unknown {E : Env} : echo [0x62; 0x40; 0] [0x62; 0]. Proof. echo. Qed.
Lemma echo_seed {E : Env} : echo seed seed. Proof. echo. Qed.
Definition stage (j n : nat) : list N := concat (repeat shell j) ++ [0x62; 0] ++ concat (repeat seed n).
Lemma stage_step {E : Env} j n : again (stage j (S n)) = Some (stage (S j) n).
Proof.
  apply echo_again. unfold stage.
  replace (concat (repeat shell j) ++ [0x62; 0] ++ concat (repeat seed (S n))) with (concat (repeat shell j) ++ [0x62; 0; 0x1F] ++ [0x62; 0x40; 0] ++ concat (repeat seed n)) by reflexivity.
  replace (concat (repeat shell (S j))) with (concat (repeat shell j) ++ shell).
  - rewrite <- !app_assoc. apply echo_app; [apply echo_times, echo_shell|]. apply echo_app; [exact echo_open|]. apply echo_app; [exact echo_unknown|apply echo_times, echo_seed].
  - induction j as [|j IH]; [reflexivity|]. cbn [repeat concat] in *. rewrite <- app_assoc, IH. reflexivity.
Qed.
Lemma stage_length j n : length (stage j n) = (3 * j + 2 + 4 * n)%nat.
Proof.
  unfold stage. rewrite !app_length. cbn [length].
  assert (A : forall (x : list N) k, length (concat (repeat x k)) = (length x * k)%nat) by (intros x k; induction k as [|k IH]; [cbn; lia|cbn [repeat concat]; rewrite app_length, IH; lia]).
  rewrite !A. cbn [length shell seed]. lia.
Qed.
Lemma stage_rounds {E : Env} k : forall j n, (k <= n)%nat -> rounds k (stage j n) = Some (stage (j + k) (n - k)).
Proof.
  induction k as [|k IH]; intros j n H; [cbn [rounds]; rewrite Nat.add_0_r, Nat.sub_0_r; reflexivity|].
  destruct n as [|n]; [lia|]. cbn [rounds]. rewrite stage_step, IH by lia. f_equal. f_equal; lia.
Qed.
Theorem rounds_many {E : Env} k : exists d, bytes d /\ (length d = 3 + 4 * k)%nat /\
  forall j, (j <= k)%nat -> exists l, rounds j d = Some l /\ (length l + j = length d)%nat /\ ~ settled l.
Proof.
  exists ([0x62; 0x40; 0] ++ concat (repeat seed k)).
  pose proof (echo_app _ _ _ _ echo_unknown (echo_times _ k echo_seed)) as Z. pose proof (echo_again _ _ Z) as A.
  change ([0x62; 0] ++ concat (repeat seed k)) with (stage 0 k) in A.
  assert (L : length ([0x62; 0x40; 0] ++ concat (repeat seed k)) = (3 + 4 * k)%nat) by (pose proof (stage_length 0 k) as Q; unfold stage in Q; cbn [repeat concat app length] in *; lia).
  split; [destruct Z as (c & B & _); exact B|]. split; [exact L|]. intros [|j] H.
  - exists ([0x62; 0x40; 0] ++ concat (repeat seed k)). split; [reflexivity|]. split; [lia|]. unfold settled. rewrite A. intros Q.
    apply (f_equal (fun x => match x with Some y => length y | None => 0%nat end)) in Q. cbv beta iota in Q. rewrite L, stage_length in Q. lia.
  - exists (stage j (k - j)). split; [cbn [rounds]; rewrite A, stage_rounds by lia; f_equal|]. split; [rewrite L, stage_length; lia|].
    replace (k - j)%nat with (S (k - S j))%nat by lia. unfold settled. rewrite stage_step. intros Q.
    apply (f_equal (fun x => match x with Some y => length y | None => 0%nat end)) in Q. cbv beta iota in Q. rewrite !stage_length in Q. lia.
Qed.
Theorem normal_refuted {E : Env} : ~ (forall d l, bytes d -> again d = Some l -> settled l).
Proof.
  intros H. destruct (rounds_many 1) as (d & B & _ & R). destruct (R 1%nat ltac:(lia)) as (l & Q & _ & N0).
  cbn [rounds] in Q. destruct (again d) as [x|] eqn:A; [|discriminate]. injection Q as ->. exact (N0 (H _ _ B A)).
Qed.
