(** Lemmas for C54 and C55. *)
From Coq Require Import List NArith ZArith Bool Lia Arith ZifyBool ZifyNat ZifyN.
From Verif Require Import Base Deku Utils Types Physical Link Network Session Data Query Interface File
  Operation Action Command WellFormed SpecApi SpecLayout SpecDecode SpecJoin LBits LReader LDecodeLoop.
Import ListNotations.
Open Scope N_scope.

(** ** Decoders only look at what they take *)
Definition Loc {A} (D : dec A) : Prop := forall l v r, D l = Some (v, r) ->
  exists p, l = p ++ r /\ forall s, D (p ++ s) = Some (v, s).
Lemma Loc_give {A} (v : A) : Loc (give v).
Proof. intros l w r H. exists []. unfold give in *. assert (w = v /\ r = l) as [-> ->] by (split; congruence). split; reflexivity. Qed.
Lemma Loc_reject {A} : Loc (@reject A).
Proof. intros l w r H. discriminate. Qed.
Lemma Loc_bind {A B} (D : dec A) (K : A -> dec B) : Loc D -> (forall v, Loc (K v)) -> Loc (andthen D K).
Proof.
  intros H G l w r Hl. unfold andthen in *. destruct (D l) as [[v m]|] eqn:E; [|discriminate].
  destruct (H _ _ _ E) as (p & -> & Hp). destruct (G _ _ _ _ Hl) as (q & -> & Hq).
  exists (p ++ q). rewrite app_assoc. split; [reflexivity|]. intros s. rewrite <- app_assoc, Hp. apply Hq.
Qed.
Lemma Loc_one : Loc one.
Proof. intros [|b l] v r H; [discriminate|]. exists [b]. cbn in H. assert (b = v /\ l = r) as [-> ->] by (split; congruence). split; reflexivity. Qed.
Lemma Loc_some n : Loc (some_bytes n).
Proof.
  intros l v r H. unfold some_bytes in *. destruct (N.leb_spec n (N.of_nat (length l))) as [L|]; [|discriminate].
  assert (v = firstn (N.to_nat n) l /\ r = skipn (N.to_nat n) l) as [-> ->] by (split; congruence).
  exists (firstn (N.to_nat n) l). split; [symmetry; apply firstn_skipn|]. intros s.
  assert (Hn : length (firstn (N.to_nat n) l) = N.to_nat n) by (rewrite firstn_length; lia).
  rewrite app_length, Hn. destruct (N.leb_spec n (N.of_nat (N.to_nat n + length s))); [|lia].
  rewrite firstn_app, skipn_app, Hn, Nat.sub_diag. rewrite <- Hn at 1 3. rewrite firstn_all, skipn_all. rewrite app_nil_r. reflexivity.
Qed.
Lemma Loc_times {A} n (D : dec A) : Loc D -> Loc (times n D).
Proof. intros H. induction n; cbn [times]; [apply Loc_give|]. apply Loc_bind; [exact H|]. intros. apply Loc_bind; [exact IHn|]. intros. apply Loc_give. Qed.
Lemma Loc_named {A} (code : A -> N) all c : Loc (named code all c).
Proof. unfold named. destruct (find _ all); [apply Loc_give|apply Loc_reject]. Qed.
Lemma Loc_if {A} (c : bool) (D D' : dec A) : Loc D -> Loc D' -> Loc (if c then D else D').
Proof. destruct c; auto. Qed.
Create HintDb loc.
Ltac loc := repeat first
  [ solve [auto with loc nocore] | apply Loc_give | apply Loc_reject | apply Loc_one | apply Loc_some | apply Loc_named
  | apply Loc_times | apply Loc_bind; [|intros ?] | apply Loc_if
  | match goal with |- Loc (match ?x with _ => _ end) => destruct x end ].
Lemma Loc_num k : Loc (num k). Proof. unfold num. loc. Qed.
#[global] Hint Resolve Loc_num : loc.
Lemma Loc_host {E : Env} k : Loc (host_num k). Proof. unfold host_num. loc. Qed.
Lemma Loc_signed : Loc signed. Proof. unfold signed. loc. Qed.
#[global] Hint Resolve Loc_host Loc_signed : loc.
Lemma Loc_length : Loc dec_length. Proof. unfold dec_length. loc. Qed.
Lemma Loc_varint : Loc dec_varint. Proof. unfold dec_varint. loc. Qed.
#[global] Hint Resolve Loc_length Loc_varint : loc.
Lemma Loc_file_offset : Loc dec_file_offset. Proof. unfold dec_file_offset. loc. Qed.
Lemma Loc_channel_header : Loc dec_channel_header. Proof. unfold dec_channel_header. loc. Qed.
#[global] Hint Resolve Loc_file_offset Loc_channel_header : loc.
Lemma Loc_channel : Loc dec_channel. Proof. unfold dec_channel. loc. Qed.
Lemma Loc_channel_status : Loc dec_channel_status. Proof. unfold dec_channel_status. loc. Qed.
Lemma Loc_sub_band : Loc dec_sub_band. Proof. unfold dec_sub_band. loc. Qed.
Lemma Loc_sub_profile : Loc dec_sub_profile. Proof. unfold dec_sub_profile. loc. Qed.
#[global] Hint Resolve Loc_channel Loc_channel_status Loc_sub_band Loc_sub_profile : loc.
Lemma Loc_access_profile : Loc dec_access_profile. Proof. unfold dec_access_profile. loc. Qed.
Lemma Loc_address t : Loc (dec_address t). Proof. destruct t; cbn [dec_address]; loc. Qed.
Lemma Loc_nls m : Loc (dec_nls_state m). Proof. destruct m; cbn [dec_nls_state]; loc. Qed.
#[global] Hint Resolve Loc_access_profile Loc_address Loc_nls : loc.
Lemma Loc_addressee {E : Env} : Loc dec_addressee. Proof. unfold dec_addressee. loc. Qed.
Lemma Loc_qos : Loc dec_qos. Proof. unfold dec_qos. loc. Qed.
#[global] Hint Resolve Loc_addressee Loc_qos : loc.
Lemma Loc_dash7_status {E : Env} : Loc dec_dash7_status. Proof. unfold dec_dash7_status. loc. Qed.
Lemma Loc_final : Loc dec_final. Proof. unfold dec_final. loc. Qed.
#[global] Hint Resolve Loc_dash7_status Loc_final : loc.
Lemma Loc_dash7_tx {E : Env} : Loc dec_dash7_tx. Proof. unfold dec_dash7_tx. loc. Qed.
Lemma Loc_file_header : Loc dec_file_header. Proof. unfold dec_file_header. loc. Qed.
Lemma Loc_when c D : Loc D -> Loc (when c D). Proof. unfold when. intros. loc. Qed.
#[global] Hint Resolve Loc_dash7_tx Loc_file_header Loc_when Loc_some : loc.
Lemma Loc_query : Loc dec_query. Proof. unfold dec_query. loc. Qed.
Lemma Loc_dash7_config {E : Env} : Loc dec_dash7_config. Proof. unfold dec_dash7_config. loc. Qed.
Lemma Loc_lorawan : Loc dec_lorawan. Proof. unfold dec_lorawan. loc. Qed.
#[global] Hint Resolve Loc_query Loc_dash7_config Loc_lorawan : loc.
Lemma Loc_interface_config {E : Env} : Loc dec_interface_config. Proof. unfold dec_interface_config. loc. Qed.
Lemma Loc_indirect_interface {E : Env} : Loc dec_indirect_interface. Proof. unfold dec_indirect_interface. loc. Qed.
Lemma Loc_text n : Loc (text n). Proof. unfold text. loc. Qed.
#[global] Hint Resolve Loc_interface_config Loc_indirect_interface Loc_text : loc.
Lemma Loc_file {E : Env} id n : Loc (dec_file id n). Proof. unfold dec_file. loc. Qed.
#[global] Hint Resolve Loc_file : loc.
Lemma Loc_itf_status {E : Env} : Loc dec_itf_status.
Proof.
  intros l v r H. unfold dec_itf_status in *. destruct l as [|i l]; [discriminate|]. unfold andthen at 1, one at 1 in H.
  assert (S : forall D : dec itf_status_op, Loc D -> D l = Some (v, r) ->
    exists p, i :: l = p ++ r /\ forall s, exists t, p ++ s = i :: t /\ D t = Some (v, s)).
  { intros D LD HD. destruct (LD _ _ _ HD) as (p & -> & Hp). exists (i :: p). split; [reflexivity|].
    intros s. exists (p ++ s). split; [reflexivity|apply Hp]. }
  destruct (i =? 0) eqn:E0; [|destruct (i =? 1) eqn:E1; [|destruct (i =? 0xD7) eqn:E2; [|destruct ((i =? 2) || (i =? 3)) eqn:E3; [discriminate|]]]].
  1-3: apply S in H; [|loc]; destruct H as (p & Hp & Hs); exists p; split; [exact Hp|]; intros s;
    destruct (Hs s) as (t & -> & Ht); unfold andthen at 1, one at 1; rewrite ?E0, ?E1, ?E2; exact Ht.
  destruct e_rewind eqn:ER.
  - assert (L : Loc (let* n := dec_length in let* p := some_bytes n in give (mkItfStatusOp ItUnknown (IsOther p)))) by loc.
    destruct (L _ _ _ H) as (p & Hp & Hs). exists p. split; [exact Hp|]. intros s.
    destruct p as [|j p]; [specialize (Hs []); discriminate|]. assert (j = i) by (cbn [app] in Hp; congruence). subst j.
    cbn [app]. unfold andthen at 1, one at 1. rewrite E0, E1, E2, E3. exact (Hs s).
  - apply S in H; [|loc]; destruct H as (p & Hp & Hs); exists p; split; [exact Hp|]; intros s;
    destruct (Hs s) as (t & -> & Ht); unfold andthen at 1, one at 1; rewrite E0, E1, E2, E3; exact Ht.
Qed.
#[global] Hint Resolve Loc_itf_status : loc.
Lemma Loc_itf_final : Loc dec_itf_final. Proof. unfold dec_itf_final. loc. Qed.
#[global] Hint Resolve Loc_itf_final : loc.
Lemma Loc_status {E : Env} k : Loc (dec_status k). Proof. unfold dec_status. loc. Qed.
Lemma Loc_tx_body {E : Env} k : Loc (dec_tx_body k). Proof. unfold dec_tx_body. loc. Qed.
#[global] Hint Resolve Loc_status : loc.
Lemma shifted_cons a b l : shifted (a :: b :: l) = (a mod 4 * 64 + b / 4) :: shifted (b :: l).
Proof. reflexivity. Qed.
Lemma shifted_length l : length (shifted l) = (length l - 1)%nat.
Proof. induction l as [|a [|b l] IH]; try reflexivity. rewrite shifted_cons. cbn [length] in *. rewrite IH. lia. Qed.
Lemma shifted_app o a s : exists q, shifted ((o :: a) ++ s) = shifted (o :: a) ++ q /\ length q = length s.
Proof.
  revert o. induction a as [|b a IH]; intros o.
  - exists (shifted (o :: s)). split; [reflexivity|]. rewrite shifted_length. cbn [length]. lia.
  - destruct (IH b) as (q & Hq & Hl). exists q. split; [|exact Hl]. cbn [app] in *. rewrite !shifted_cons, Hq. reflexivity.
Qed.
Lemma app_eq_len {A} (a b c d : list A) : length a = length b -> a ++ c = b ++ d -> a = b.
Proof. revert b. induction a as [|x a IH]; intros [|y b] H G; try discriminate; [reflexivity|]. cbn [app] in G. f_equal; [congruence|]. apply IH; [cbn [length] in H; lia|congruence]. Qed.
Lemma Loc_tx {E : Env} : Loc dec_tx.
Proof.
  intros l v r H. unfold dec_tx in *. destruct l as [|h [|o l]]; try discriminate.
  destruct (part 6 2 h =? 1) eqn:Eh; [|discriminate].
  destruct (dec_tx_body (part 2 6 o) (shifted (o :: l))) as [[w rest]|] eqn:EB; [|discriminate].
  assert (w = v) by congruence. subst w. assert (Hr : r = skipn (length (o :: l) - length rest) (o :: l)) by congruence. clear H.
  destruct (Loc_tx_body _ _ _ _ EB) as (p & Hp & Hs).
  assert (HL : (length p + length rest = length l)%nat).
  { rewrite <- app_length, <- Hp, shifted_length. cbn [length]. lia. }
  assert (Hm : (length (o :: l) - length rest = S (length p))%nat) by (cbn [length]; lia). rewrite Hm in Hr.
  pose (a := firstn (length p) l). assert (Ha : length a = length p) by (unfold a; rewrite firstn_length; lia).
  assert (El : l = a ++ r) by (subst r; unfold a; rewrite skipn_cons; symmetry; apply firstn_skipn).
  assert (Hpa : shifted (o :: a) = p).
  { destruct (shifted_app o a r) as (q & Hq & Hql).
    change (o :: l) with ([o] ++ l) in Hp. rewrite El in Hp. change ([o] ++ a ++ r) with ((o :: a) ++ r) in Hp. rewrite Hq in Hp.
    assert (HH : length (shifted (o :: a)) = length p) by (rewrite shifted_length; cbn [length]; lia).
    apply (app_eq_len _ _ _ _ HH Hp). }
  exists (h :: o :: a). split; [rewrite El; reflexivity|]. intros s. cbn [app]. rewrite Eh.
  destruct (shifted_app o a s) as (q & Hq & Hql). cbn [app] in Hq. rewrite Hq, Hpa, Hs. do 2 f_equal.
  replace (length (o :: a ++ s) - length q)%nat with (length (o :: a)) by (cbn [length]; rewrite app_length; lia).
  change (o :: a ++ s) with ((o :: a) ++ s). rewrite skipn_app, skipn_all, Nat.sub_diag. reflexivity.
Qed.
#[global] Hint Resolve Loc_tx : loc.
Lemma Loc_file_id_op c : Loc (dec_file_id_op c). Proof. unfold dec_file_id_op. loc. Qed.
Lemma Loc_file_data {E : Env} c : Loc (dec_file_data c). Proof. unfold dec_file_data. loc. Qed.
Lemma Loc_file_properties c : Loc (dec_file_properties c). Proof. unfold dec_file_properties. loc. Qed.
Lemma Loc_action_query c : Loc (dec_action_query c). Proof. unfold dec_action_query. loc. Qed.
Lemma Loc_nop c : Loc (dec_nop c). Proof. unfold dec_nop. loc. Qed.
#[global] Hint Resolve Loc_file_id_op Loc_file_data Loc_file_properties Loc_action_query Loc_nop : loc.
Lemma Loc_operand {E : Env} op : Loc (dec_operand op).
Proof. unfold dec_operand. repeat match goal with |- Loc (match ?x with _ => _ end) => is_var x; destruct x end; loc. Qed.
Lemma operand_nil {E : Env} op : dec_operand op [] = None.
Proof.
  unfold dec_operand. repeat match goal with |- match ?x with _ => _ end _ = _ => is_var x; destruct x end; try reflexivity.
  destruct e_feat; reflexivity.
Qed.
Lemma operand_takes {E : Env} op l v r : dec_operand op l = Some (v, r) ->
  exists b p, l = (b :: p) ++ r /\ forall s, dec_operand op ((b :: p) ++ s) = Some (v, s).
Proof.
  intros H. destruct (Loc_operand op _ _ _ H) as ([|b p] & Hl & Hs); [|exists b, p; split; assumption].
  specialize (Hs []). cbn [app] in Hs. rewrite operand_nil in Hs. discriminate.
Qed.

(** ** Sequences of actions *)
Definition next (pend : bool) (b : N) : N := if pend then part 2 6 b else part 0 6 b.
Lemma actions_nil {E : Env} f pend : dec_actions f pend [] = if pend then None else Some ([], []).
Proof. destruct f; reflexivity. Qed.
Lemma actions_cons {E : Env} f pend b l : dec_actions (S f) pend (b :: l) =
  match dec_operand (next pend b) (b :: l) with
  | Some (a, rest) => if is_indirect a then Some ([a], rest)
                      else match dec_actions f (is_tx a) rest with Some (c, rest') => Some (a :: c, rest') | None => None end
  | None => None
  end.
Proof. reflexivity. Qed.
Lemma actions_fuel {E : Env} f g pend l : (length l <= f)%nat -> (length l <= g)%nat ->
  dec_actions f pend l = dec_actions g pend l.
Proof.
  revert g pend l. induction f as [|f IH]; intros g pend [|b l] Hf Hg; rewrite ?actions_nil; try reflexivity; [cbn [length] in Hf; lia|].
  destruct g as [|g]; [cbn [length] in Hg; lia|]. rewrite !actions_cons.
  destruct (dec_operand (next pend b) (b :: l)) as [[a rest]|] eqn:EO; [|reflexivity].
  destruct (is_indirect a); [reflexivity|]. destruct (operand_takes _ _ _ _ EO) as (b' & p & Hl & _).
  assert (HL : length (b :: l) = length ((b' :: p) ++ rest)) by (rewrite Hl; reflexivity). rewrite app_length in HL. cbn [length] in *.
  rewrite (IH g) by lia. reflexivity.
Qed.
Definition acts {E : Env} (pend : bool) (l : list N) := dec_actions (length l) pend l.
Lemma acts_step {E : Env} pend b l : acts pend (b :: l) =
  match dec_operand (next pend b) (b :: l) with
  | Some (a, rest) => if is_indirect a then Some ([a], rest)
                      else match acts (is_tx a) rest with Some (c, rest') => Some (a :: c, rest') | None => None end
  | None => None
  end.
Proof.
  unfold acts. cbn [length]. rewrite actions_cons. destruct (dec_operand (next pend b) (b :: l)) as [[a rest]|] eqn:EO; [|reflexivity].
  destruct (is_indirect a); [reflexivity|]. destruct (operand_takes _ _ _ _ EO) as (b' & p & Hl & _).
  assert (HL : length (b :: l) = length ((b' :: p) ++ rest)) by (rewrite Hl; reflexivity). rewrite app_length in HL. cbn [length] in *.
  rewrite (actions_fuel (length l) (length rest)) by lia. reflexivity.
Qed.
Lemma acts_first {E : Env} pend b p s a : dec_operand (next pend b) ((b :: p) ++ s) = Some (a, s) ->
  acts pend ((b :: p) ++ s) = if is_indirect a then Some ([a], s)
     else match acts (is_tx a) s with Some (c, rest) => Some (a :: c, rest) | None => None end.
Proof. intros H. cbn [app] in *. rewrite acts_step, H. reflexivity. Qed.

Definition is_open (c : list action) : bool := forallb (fun a => negb (is_indirect a)) c.
Lemma is_open_spec c : is_open c = true <-> open_ended c.
Proof.
  unfold is_open, open_ended. rewrite forallb_forall, Forall_forall. split; intros H x Hx; specialize (H x Hx); destruct x; try exact I; try reflexivity; try discriminate; try destruct H.
Qed.
Lemma acts_join {E : Env} n : forall pend d1 c1 r1 d2, (length d1 <= n)%nat -> acts pend d1 = Some (c1, r1) ->
  if is_open c1 then r1 = [] /\ acts pend (d1 ++ d2) =
     (match d1 with [] => acts pend d2 | _ => match acts false d2 with Some (c2, r2) => Some (c1 ++ c2, r2) | None => None end end)
  else acts pend (d1 ++ d2) = Some (c1, r1 ++ d2).
Proof.
  induction n as [|n IH]; intros pend [|b l] c1 r1 d2 Hn H; [|cbn [length] in Hn; lia| |];
    try (unfold acts in H; rewrite actions_nil in H; destruct pend; [discriminate|]; assert (c1 = [] /\ r1 = []) as [-> ->] by (split; congruence); split; reflexivity).
  rewrite acts_step in H. destruct (dec_operand (next pend b) (b :: l)) as [[a rest]|] eqn:EO; [|discriminate].
  destruct (operand_takes _ _ _ _ EO) as (b' & p & Hl & Hs). assert (b' = b) by (cbn [app] in Hl; congruence). subst b'.
  assert (El : l = p ++ rest) by (cbn [app] in Hl; congruence). clear Hl.
  replace ((b :: l) ++ d2) with ((b :: p) ++ (rest ++ d2)) by (rewrite El; cbn [app]; rewrite <- app_assoc; reflexivity).
  rewrite (acts_first _ _ _ _ _ (Hs (rest ++ d2))).
  destruct (is_indirect a) eqn:Ea.
  { assert (c1 = [a] /\ r1 = rest) as [-> ->] by (split; congruence). cbn [is_open forallb]. rewrite Ea. reflexivity. }
  destruct (acts (is_tx a) rest) as [[c r]|] eqn:EA; [|discriminate].
  assert (c1 = a :: c /\ r1 = r) as [-> ->] by (split; congruence). clear H.
  assert (Hlen : (length rest <= n)%nat) by (rewrite El in Hn; cbn [length] in Hn; rewrite app_length in Hn; lia).
  specialize (IH _ _ _ _ d2 Hlen EA). cbn [is_open forallb]. rewrite Ea. cbn [negb andb]. fold (is_open c).
  destruct (is_open c); [|rewrite IH; reflexivity]. destruct IH as [-> IH]. split; [reflexivity|]. rewrite IH.
  destruct rest as [|x rest]; [|destruct (acts false d2) as [[? ?]|]; reflexivity].
  unfold acts in EA. rewrite actions_nil in EA. destruct (is_tx a); [discriminate|]. assert (c = []) by congruence. subst c.
  destruct (acts false d2) as [[? ?]|]; reflexivity.
Qed.
Fixpoint left_open (pend : bool) (c : list action) : bool := match c with [] => pend | a :: c => left_open (is_tx a) c end.
Lemma left_open_app pend c a : left_open pend (c ++ [a]) = is_tx a.
Proof. revert pend. induction c as [|x c IH]; intros pend; [reflexivity|]. apply IH. Qed.
Lemma left_open_spec c : left_open false c = true <-> ends_with_tx c.
Proof.
  split.
  - destruct c as [|a c] using rev_ind; [discriminate|]. rewrite left_open_app. intros H. destruct a; try discriminate. exists c. eexists. reflexivity.
  - intros (c' & t & ->). rewrite left_open_app. reflexivity.
Qed.
Lemma acts_split {E : Env} c1 : forall pend d c2 r, acts pend d = Some (c1 ++ c2, r) -> is_open c1 = true ->
  left_open pend c1 = false ->
  exists d1 d2, d = d1 ++ d2 /\ acts pend d1 = Some (c1, []) /\ acts false d2 = Some (c2, r).
Proof.
  induction c1 as [|a c1 IH]; intros pend d c2 r H HO HT.
  - exists [], d. cbn [left_open] in HT. subst pend. split; [reflexivity|]. split; [reflexivity|exact H].
  - destruct d as [|b l]; [unfold acts in H; rewrite actions_nil in H; destruct pend; discriminate|].
    rewrite acts_step in H. destruct (dec_operand (next pend b) (b :: l)) as [[a' rest]|] eqn:EO; [|discriminate].
    destruct (operand_takes _ _ _ _ EO) as (b' & p & Hl & Hs). assert (b' = b) by (cbn [app] in Hl; congruence). subst b'.
    assert (El : l = p ++ rest) by (cbn [app] in Hl; congruence). clear Hl.
    cbn [is_open forallb] in HO. apply andb_prop in HO as [Ha HO]. fold (is_open c1) in HO.
    assert (a' = a).
    { destruct (is_indirect a'); [cbn [app] in H; congruence|]. destruct (acts (is_tx a') rest) as [[? ?]|]; [cbn [app] in H; congruence|discriminate]. }
    subst a'. destruct (is_indirect a) eqn:Ei; [discriminate|].
    destruct (acts (is_tx a) rest) as [[c r']|] eqn:EA; [|discriminate]. cbn [app] in H.
    assert (c = c1 ++ c2 /\ r' = r) as [-> ->] by (split; congruence).
    destruct (IH _ _ _ _ EA HO HT) as (d1 & d2 & Hd & H1 & H2).
    exists ((b :: p) ++ d1), d2. split; [rewrite El, Hd; cbn [app]; rewrite <- app_assoc; reflexivity|]. split; [|exact H2].
    rewrite (acts_first _ _ _ _ _ (Hs d1)), Ei, H1. reflexivity.
Qed.

(** ** The interface of the crate *)
Lemma from_reader_eq {E : Env} d : command_from_reader d 0 = rbind (read_command 0 (new_reader d)) (fun x => Ok (bread (snd x), fst x)).
Proof. reflexivity. Qed.
Lemma from_reader_ok {E : Env} d n c : bytes d -> (command_from_reader d 0 = Ok (n, c) <->
  exists rest : list N, acts false d = Some (c, rest) /\ (List.length rest <= List.length d)%nat /\
    (n + 2 * count_tx c + 8 * List.length rest = 8 * List.length d + 8 * List.length c)%nat).
Proof.
  intros Hd. pose proof (decode_command d Hd) as H. rewrite from_reader_eq. unfold dec_command in H. fold (acts false d) in H.
  destruct (acts false d) as [[c' rest]|].
  - destruct H as (s & Hl & -> & Hb). cbn [rbind snd fst]. split.
    + intros HH. assert (n = bread s /\ c = c') as [-> ->] by (split; congruence). exists rest. repeat split; assumption.
    + intros (r & Hr & Hl' & Hb'). assert (c' = c /\ r = rest) as [-> ->] by (split; congruence). do 2 f_equal. lia.
  - destruct H as [e ->]. cbn [rbind]. split; [discriminate|]. intros (r & Hr & _). discriminate.
Qed.
Lemma from_reader_err {E : Env} d : bytes d -> ((exists e, command_from_reader d 0 = Err e) <-> acts false d = None).
Proof.
  intros Hd. pose proof (decode_command d Hd) as H. rewrite from_reader_eq. unfold dec_command in H. fold (acts false d) in H.
  destruct (acts false d) as [[c' rest]|].
  - destruct H as (s & Hl & -> & Hb). cbn [rbind]. split; [intros [e He]; discriminate|discriminate].
  - destruct H as [e ->]. cbn [rbind]. split; [reflexivity|intros _; exists e; reflexivity].
Qed.
Lemma count_tx_app a b : count_tx (a ++ b) = (count_tx a + count_tx b)%nat.
Proof. unfold count_tx. rewrite filter_app, app_length. reflexivity. Qed.
Lemma acts_empty {E : Env} c r : acts false [] = Some (c, r) -> c = [].
Proof. unfold acts. rewrite actions_nil. congruence. Qed.
Lemma acts_join_open {E : Env} d1 c1 r1 d2 : acts false d1 = Some (c1, r1) -> open_ended c1 ->
  r1 = [] /\ acts false (d1 ++ d2) = match acts false d2 with Some (c2, r2) => Some (c1 ++ c2, r2) | None => None end.
Proof.
  intros H HO. apply is_open_spec in HO. pose proof (acts_join (List.length d1) false d1 c1 r1 d2 (le_n _) H) as J. rewrite HO in J.
  destruct J as [-> J]. split; [reflexivity|]. rewrite J. destruct d1; [|reflexivity]. apply acts_empty in H. subst c1.
  cbn [app]. destruct (acts false d2) as [[? ?]|]; reflexivity.
Qed.
Lemma join_ok {E : Env} d1 n1 c1 d2 : bytes d1 -> bytes d2 -> command_from_reader d1 0 = Ok (n1, c1) -> open_ended c1 ->
  (forall n2 c2, command_from_reader d2 0 = Ok (n2, c2) -> command_from_reader (d1 ++ d2) 0 = Ok ((n1 + n2)%nat, c1 ++ c2)) /\
  (forall e, command_from_reader d2 0 = Err e -> exists e', command_from_reader (d1 ++ d2) 0 = Err e').
Proof.
  intros B1 B2 H HO. assert (B : bytes (d1 ++ d2)) by (apply Forall_app; split; assumption).
  apply (from_reader_ok _ _ _ B1) in H as (r1 & H1 & L1 & N1).
  destruct (acts_join_open _ _ _ d2 H1 HO) as [-> J]. split.
  - intros n2 c2 H. apply (from_reader_ok _ _ _ B2) in H as (r2 & H2 & L2 & N2). apply (from_reader_ok _ _ _ B).
    exists r2. rewrite J, H2. split; [reflexivity|]. rewrite count_tx_app, !app_length. cbn [List.length] in *. lia.
  - intros e H. apply (from_reader_err _ B). rewrite J. rewrite (proj1 (from_reader_err _ B2)) by (exists e; exact H). reflexivity.
Qed.
Lemma join_closed {E : Env} d1 n1 c1 d2 : bytes d1 -> bytes d2 -> command_from_reader d1 0 = Ok (n1, c1) -> ~ open_ended c1 ->
  command_from_reader (d1 ++ d2) 0 = Ok (n1, c1).
Proof.
  intros B1 B2 H HO. assert (B : bytes (d1 ++ d2)) by (apply Forall_app; split; assumption).
  apply (from_reader_ok _ _ _ B1) in H as (r1 & H1 & L1 & N1). apply (from_reader_ok _ _ _ B).
  pose proof (acts_join (List.length d1) false d1 c1 r1 d2 (le_n _) H1) as J.
  destruct (is_open c1) eqn:O; [apply is_open_spec in O; contradiction|].
  exists (r1 ++ d2). split; [exact J|]. rewrite !app_length. lia.
Qed.
Lemma split_ok {E : Env} d n c1 c2 : bytes d -> command_from_reader d 0 = Ok (n, c1 ++ c2) -> open_ended c1 -> ~ ends_with_tx c1 ->
  exists d1 d2 n1 n2, d = d1 ++ d2 /\ n = (n1 + n2)%nat /\
    command_from_reader d1 0 = Ok (n1, c1) /\ command_from_reader d2 0 = Ok (n2, c2).
Proof.
  intros B H HO HT. apply (from_reader_ok _ _ _ B) in H as (r & H & L & HN).
  destruct (acts_split c1 _ _ _ _ H) as (d1 & d2 & Hd & H1 & H2).
  { apply is_open_spec; exact HO. } { destruct (left_open false c1) eqn:O; [apply left_open_spec in O; contradiction|reflexivity]. }
  assert (B' := B). rewrite Hd in B'. apply Forall_app in B' as [B1 B2].
  assert (L2 : (List.length r <= List.length d2)%nat).
  { pose proof (decode_command d2 B2) as D2. unfold dec_command in D2. fold (acts false d2) in D2. rewrite H2 in D2. destruct D2 as (s & D2 & _). exact D2. }
  exists d1, d2, (8 * List.length d1 + 8 * List.length c1 - 2 * count_tx c1)%nat, (8 * (List.length d2 - List.length r) + 8 * List.length c2 - 2 * count_tx c2)%nat.
  pose proof (count_tx_le c1). pose proof (count_tx_le c2).
  split; [exact Hd|]. split; [|split].
  - rewrite Hd, count_tx_app, !app_length in HN. lia.
  - apply (from_reader_ok _ _ _ B1). exists []. split; [exact H1|]. cbn [List.length]. lia.
  - apply (from_reader_ok _ _ _ B2). exists r. split; [exact H2|]. lia.
Qed.
Lemma try_from_ok {E : Env} d c : bytes d -> (command_try_from d = Ok c <->
  exists rest : list N, acts false d = Some (c, rest) /\ (4 * List.length rest + count_tx c <= 4 * List.length c)%nat).
Proof.
  intros B. pose proof (decode_command_try_from d B) as H. unfold dec_command in H. fold (acts false d) in H.
  destruct (acts false d) as [[c' rest]|]; [|destruct H as [e ->]; split; [discriminate|intros (r & Hr & _); discriminate]].
  destruct (Nat.leb_spec (4 * List.length rest + count_tx c') (4 * List.length c')) as [G|G]; rewrite H; split.
  - intros HH. assert (c = c') by congruence. subst. exists rest. split; [reflexivity|exact G].
  - intros (r & Hr & _). assert (c' = c) as -> by (congruence). reflexivity.
  - discriminate.
  - intros (r & Hr & Hl). assert (c' = c /\ r = rest) as [-> ->] by (split; congruence). lia.
Qed.
Lemma join_try {E : Env} d1 c1 d2 c2 : bytes d1 -> bytes d2 -> command_try_from d1 = Ok c1 -> open_ended c1 ->
  command_try_from d2 = Ok c2 -> command_try_from (d1 ++ d2) = Ok (c1 ++ c2).
Proof.
  intros B1 B2 H HO G. assert (B : bytes (d1 ++ d2)) by (apply Forall_app; split; assumption).
  apply (try_from_ok _ _ B1) in H as (r1 & H1 & L1). apply (try_from_ok _ _ B2) in G as (r2 & H2 & L2).
  destruct (acts_join_open _ _ _ d2 H1 HO) as [-> J]. apply (try_from_ok _ _ B). exists r2. rewrite J, H2. split; [reflexivity|].
  rewrite count_tx_app, app_length. pose proof (count_tx_le c1). lia.
Qed.
Lemma open_app a b : open_ended (a ++ b) <-> open_ended a /\ open_ended b.
Proof. apply Forall_app. Qed.
Lemma split_try {E : Env} d c1 c2 : bytes d -> command_try_from d = Ok (c1 ++ c2) -> open_ended (c1 ++ c2) -> ~ ends_with_tx c1 ->
  exists d1 d2, d = d1 ++ d2 /\ command_try_from d1 = Ok c1 /\ command_try_from d2 = Ok c2.
Proof.
  intros B H HO HT. apply (try_from_ok _ _ B) in H as (r & H & L).
  assert (HO' := HO). apply open_app in HO' as [HO1 HO2].
  destruct (acts_split c1 _ _ _ _ H) as (d1 & d2 & Hd & H1 & H2).
  { apply is_open_spec; exact HO1. } { destruct (left_open false c1) eqn:O; [apply left_open_spec in O; contradiction|reflexivity]. }
  assert (B' := B). rewrite Hd in B'. apply Forall_app in B' as [B1 B2].
  destruct (acts_join_open _ _ _ [] H2 HO2) as [-> _]. pose proof (count_tx_le c1). pose proof (count_tx_le c2).
  exists d1, d2. split; [exact Hd|]. split.
  - apply (try_from_ok _ _ B1). exists []. split; [exact H1|]. cbn [List.length]. lia.
  - apply (try_from_ok _ _ B2). exists []. split; [exact H2|]. cbn [List.length]. lia.
Qed.

(** ** Decoded values are no larger than the input *)
Definition Sz {A} (D : dec A) (c : nat) (f : A -> nat) : Prop := forall l v r,
  D l = Some (v, r) -> (f v + length r <= length l + c)%nat.
Lemma Sz_give {A} (v : A) c f : (f v <= c)%nat -> Sz (give v) c f.
Proof. intros H l w r G. unfold give in G. assert (w = v /\ r = l) as [-> ->] by (split; congruence). lia. Qed.
Lemma Sz_reject {A} c f : Sz (@reject A) c f.
Proof. intros l w r G. discriminate. Qed.
Lemma Sz_bind {A B} (D : dec A) (K : A -> dec B) c f g : Sz D 0 g -> (forall v, Sz (K v) (c + g v) f) -> Sz (andthen D K) c f.
Proof.
  intros H G l w r Hl. unfold andthen in Hl. destruct (D l) as [[v m]|] eqn:E; [|discriminate].
  specialize (H _ _ _ E). specialize (G _ _ _ _ Hl). lia.
Qed.
Lemma Sz_one : Sz one 0 (fun _ => 1%nat).
Proof. intros [|b l] v r H; [discriminate|]. cbn [one] in H. assert (r = l) by congruence. subst. cbn [length]. lia. Qed.
Lemma Sz_some n : Sz (some_bytes n) 0 (@length N).
Proof.
  intros l v r H. unfold some_bytes in *. destruct (N.leb_spec n (N.of_nat (length l))) as [L|]; [|discriminate].
  assert (v = firstn (N.to_nat n) l /\ r = skipn (N.to_nat n) l) as [-> ->] by (split; congruence).
  rewrite firstn_length, skipn_length. lia.
Qed.
Lemma Sz_times {A} n (D : dec A) : Sz D 0 (fun _ => 1%nat) -> Sz (times n D) 0 (@length A).
Proof.
  intros H. induction n as [|n IH]; cbn [times]; [apply Sz_give; reflexivity|].
  eapply Sz_bind; [exact H|]. intros x. eapply Sz_bind; [exact IH|]. intros xs. apply Sz_give. cbn [length]. lia.
Qed.
Lemma Loc_Sz {A} (D : dec A) : Loc D -> Sz D 0 (fun _ => 0%nat).
Proof. intros H l v r G. destruct (H _ _ _ G) as (p & -> & _). rewrite app_length. lia. Qed.
Lemma Sz_weak {A} (D : dec A) c c' f g : Sz D c f -> (c <= c')%nat -> (forall v, g v <= f v)%nat -> Sz D c' g.
Proof. intros H Hc Hg l v r G. specialize (H _ _ _ G). specialize (Hg v). lia. Qed.
Lemma Sz_when b n : Sz (when b (some_bytes n)) 0 (@length N).
Proof. destruct b; [apply Sz_some|apply Sz_give; reflexivity]. Qed.
Lemma Sz_loc {A} (D : dec A) c f : Loc D -> (forall v, f v <= c)%nat -> Sz D c f.
Proof. intros H Hf l v r G. destruct (H _ _ _ G) as (p & -> & _). rewrite app_length. specialize (Hf v). lia. Qed.
Lemma Sz_if {A} (b : bool) (D D' : dec A) c f : Sz D c f -> Sz D' c f -> Sz (if b then D else D') c f.
Proof. destruct b; auto. Qed.
Lemma Sz_channel_status : Sz dec_channel_status 0 (fun _ => 1%nat).
Proof. unfold dec_channel_status. eapply Sz_bind; [apply Sz_one|]. intros. apply Sz_loc; [loc|]. intros; lia. Qed.
Lemma Sz_text n : Sz (text n) 0 (@length N).
Proof. unfold text. eapply Sz_bind; [apply Sz_some|]. intros s. destruct (utf8_valid s); [apply Sz_give; lia|apply Sz_reject]. Qed.
Ltac sz := repeat first
  [ apply Sz_reject
  | apply Sz_give; cbn; unfold rstring in *; lia
  | eapply Sz_bind; [first [apply Sz_one|apply Sz_some|apply Sz_when|apply Sz_text|apply Sz_times, Sz_channel_status|apply Loc_Sz; loc]|intros ?; cbn beta]
  | apply Sz_if ].
Lemma Sz_query : Sz dec_query 0 query_held.
Proof. unfold dec_query. sz. Qed.
Lemma Sz_file {E : Env} id n : Sz (dec_file id n) 0 file_held.
Proof. unfold dec_file. sz. Qed.
Lemma Sz_itf_final : Sz dec_itf_final 0 (fun s => status_held (StatusInterfaceFinal s)).
Proof. unfold dec_itf_final. sz. Qed.
Lemma Sz_itf_status {E : Env} : Sz dec_itf_status 0 (fun s => status_held (StatusInterface s)).
Proof.
  intros l v r H. unfold dec_itf_status in H. revert H. destruct l as [|i l]; [discriminate|]. unfold andthen at 1, one at 1.
  assert (S : forall D : dec itf_status_op, Sz D 0 (fun s => status_held (StatusInterface s)) -> forall m, (length m <= length (i :: l))%nat ->
    D m = Some (v, r) -> (status_held (StatusInterface v) + length r <= length (i :: l) + 0)%nat).
  { intros D HD m Hm H. specialize (HD _ _ _ H). cbn beta in HD. lia. }
  repeat match goal with |- context [if ?b then _ else _] => destruct b end; intros H; try discriminate;
    revert H; apply S; try (cbn [length]; lia); sz.
Qed.
Lemma Sz_status {E : Env} k : Sz (dec_status k) 0 status_held.
Proof.
  unfold dec_status. repeat apply Sz_if; [sz| | |apply Sz_reject].
  - eapply Sz_bind; [apply Sz_itf_status|]. intros s. apply Sz_give. reflexivity.
  - destruct e_feat; try apply Sz_reject. eapply Sz_bind; [apply Sz_itf_final|]. intros s. apply Sz_give. reflexivity.
Qed.
Lemma Sz_tx {E : Env} : Sz dec_tx 0 (fun v => S (action_held (ATxStatus v))).
Proof.
  intros l v r H. unfold dec_tx in H. destruct l as [|h [|o l]]; try discriminate. destruct (part 6 2 h =? 1); [|discriminate].
  destruct (dec_tx_body (part 2 6 o) (shifted (o :: l))) as [[w rest]|] eqn:EB; [|discriminate].
  assert (w = v) by congruence. subst w. assert (Hr : r = skipn (length (o :: l) - length rest) (o :: l)) by congruence. clear H.
  assert (B : Sz (dec_tx_body (part 2 6 o)) 0 (fun v => action_held (ATxStatus v))) by (unfold dec_tx_body; sz).
  specialize (B _ _ _ EB). cbn beta in B. rewrite shifted_length in B. subst r. rewrite skipn_length. cbn [length] in *. lia.
Qed.
Lemma Sz_operand {E : Env} op : Sz (dec_operand op) 0 (fun a => S (action_held a)).
Proof.
  assert (F : forall c, (forall v, action_held (c v) = file_held (fd_data v)) -> Sz (dec_file_data c) 0 (fun a => S (action_held a))).
  { intros c Hc. unfold dec_file_data. eapply Sz_bind; [apply Sz_one|]. intros b. eapply Sz_bind; [apply Loc_Sz; loc|]. intros o.
    eapply Sz_bind; [apply Loc_Sz; loc|]. intros n. eapply Sz_bind; [apply Sz_file|]. intros f. apply Sz_give. rewrite Hc. cbn [fd_data]. lia. }
  assert (Q : forall c, (forall v, action_held (c v) = query_held (aq_query v)) -> Sz (dec_action_query c) 0 (fun a => S (action_held a))).
  { intros c Hc. unfold dec_action_query. eapply Sz_bind; [apply Sz_one|]. intros b. eapply Sz_bind; [apply Sz_query|]. intros f.
    apply Sz_give. rewrite Hc. cbn [aq_query]. lia. }
  unfold dec_operand. repeat match goal with |- Sz (match ?x with _ => _ end) _ _ => is_var x; destruct x end;
  unfold dec_nop, dec_file_id_op, dec_file_properties;
  try (apply F; reflexivity); try (apply Q; reflexivity);
  try (destruct e_feat; [apply Sz_reject|apply Sz_reject|eapply Sz_bind; [apply Sz_tx|]; intros v; apply Sz_give; reflexivity]);
  try (eapply Sz_bind; [apply Sz_one|]; intros b; eapply Sz_bind; [apply Loc_Sz; loc|]; intros t; eapply Sz_bind; [apply Sz_status|]; intros s; apply Sz_give; cbn; lia);
  sz.
Qed.
Lemma acts_held {E : Env} n : forall pend l c r, (length l <= n)%nat -> acts pend l = Some (c, r) -> (command_held c + length r <= length l)%nat.
Proof.
  induction n as [|n IH]; intros pend [|b l] c r Hn H; [|cbn [length] in Hn; lia| |];
    try (unfold acts in H; rewrite actions_nil in H; destruct pend; [discriminate|]; assert (c = [] /\ r = []) as [-> ->] by (split; congruence); cbn; lia).
  rewrite acts_step in H. destruct (dec_operand (next pend b) (b :: l)) as [[a rest]|] eqn:EO; [|discriminate].
  pose proof (Sz_operand _ _ _ _ EO) as HS. cbn beta in HS.
  destruct (is_indirect a); [assert (c = [a] /\ r = rest) as [-> ->] by (split; congruence); cbn [command_held map list_sum fold_right]; unfold command_held; cbn [map list_sum fold_right]; lia|].
  destruct (acts (is_tx a) rest) as [[c' r']|] eqn:EA; [|discriminate]. assert (c = a :: c' /\ r = r') as [-> ->] by (split; congruence).
  assert (Hl : (length rest <= n)%nat) by (cbn [length] in *; lia). specialize (IH _ _ _ _ Hl EA).
  unfold command_held in *. cbn [map list_sum fold_right]. unfold list_sum in IH. lia.
Qed.
Lemma held_ok {E : Env} d n c : bytes d -> command_from_reader d 0 = Ok (n, c) -> (command_held c <= length d)%nat.
Proof. intros B H. apply (from_reader_ok _ _ _ B) in H as (r & H & _). apply (acts_held (length d)) in H; [lia|reflexivity]. Qed.
Lemma held_action_ok {E : Env} d n a : bytes d -> action_from_reader d 0 = Ok (n, a) -> (action_held a < length d)%nat.
Proof.
  intros B H. pose proof (decode_action d B) as D.
  assert (U : action_from_reader d 0 = rbind (read_action (new_reader d)) (fun x => Ok (bread (snd x), fst x))) by reflexivity.
  rewrite U in H. destruct (dec_action d) as [[a' rest]|] eqn:EA; [|destruct D as [e D]; rewrite D in H; discriminate].
  destruct D as (k & _ & _ & _ & D). rewrite D in H. cbn [rbind fst] in H. assert (a' = a) by congruence. subst a'.
  unfold dec_action in EA. destruct d as [|b l]; [discriminate|]. apply Sz_operand in EA. cbn beta in EA. lia.
Qed.
