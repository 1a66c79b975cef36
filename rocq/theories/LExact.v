(** Lemmas for C56 and C57. *)
From Coq Require Import List NArith ZArith Bool Lia Arith ZifyBool ZifyNat ZifyN.
From Verif Require Import Base Deku Utils Types Physical Link Network Session Data Query Interface File
  Operation Action Command WellFormed SpecLayout SpecApi SpecAction SpecFail SpecDecode SpecJoin SpecExact
  LBits LReader LLayout LAction LNice LNiceOps LActionApi LReencode LWrite LCommandApi LDecode LDecodeAct LDecodeCmd LDecodeTx LDecodeLoop LJoin.
Import ListNotations.
Open Scope N_scope.

Lemma try_from_reads {E : Env} l a : action_try_from l = Ok a -> exists r, read_action (new_reader l) = Ok (a, r).
Proof.
  unfold action_try_from. rewrite u_try_from_eq. destruct (read_action (new_reader l)) as [[v r]| |]; try discriminate.
  destruct (Nat.leb _ _); [|discriminate]. intros H. exists r. congruence.
Qed.
Lemma reads_parsed {E : Env} l a r : read_action (new_reader l) = Ok (a, r) -> parsed_action a.
Proof.
  intros H. destruct l as [|b t]; [rewrite (read_action_nil _ 0 (At_new []) eq_refl) in H; discriminate|].
  exact (proj2 (proj2 (proj2 (read_action_parsed _ 0 b t a r (At_new (b :: t)) eq_refl H)))).
Qed.
Lemma action_exact {E : Env} a : action_survives a <->
  wf_action a \/ exists l, a = unknown_status l /\ wf_payload l /\ e_rewind = true /\ ~ clashes (N.of_nat (length l)).
Proof.
  split.
  - intros (l & Hl & Ht). destruct (try_from_reads l a Ht) as (r & Hr).
    destruct (reads_parsed _ _ _ Hr) as [Hw|[(p & -> & Hw)|(Hf & v & -> & Hw)]]; [left; exact Hw| |].
    + right. exists p. pose proof (W_to_bytes _ _ (unknown_W p Hw)) as Hb. unfold action_to_bytes in Hl. rewrite Hb in Hl.
      assert (l = 0x62 :: enc_length (N.of_nat (length p)) ++ p) by congruence. subst l.
      destruct (unknown_back p r Hw Hr). repeat split; try assumption; apply Hw.
    + destruct (tx_never v l Hl) as (_ & (r' & Hr') & _). rewrite Hr' in Hr. discriminate.
  - intros [Hw|(l & -> & Hw & He & Hc)].
    + exists (enc_action a). split; [apply action_bytes; exact Hw|].
      pose proof (action_try_from_suffix a [] Hw) as T. rewrite app_nil_r in T. exact T.
    + exists (0x62 :: enc_length (N.of_nat (length l)) ++ l). split; [exact (W_to_bytes _ _ (unknown_W l Hw))|].
      apply parses_try_from. exact (unknown_parses l Hw He Hc).
Qed.

(** ** Commands *)
Lemma parses_decodes {E : Env} l a s : bytes l -> bytes s -> parses_bytes read_action l a -> is_tx a = false -> dec_action (l ++ s) = Some (a, s).
Proof.
  intros Bl Bs P Ht. specialize (P [] s 0%nat). cbn [app length] in P. destruct P as (n' & P).
  change (mkRd (l ++ s) 0 [] 0) with (new_reader (l ++ s)) in P.
  pose proof (decode_action (l ++ s) ltac:(apply Forall_app; split; assumption)) as D.
  destruct (dec_action (l ++ s)) as [[a' rest]|]; [|destruct D as [e D]; rewrite D in P; discriminate].
  destruct D as (k & H1 & Hk & Hrest & D).
  assert (R : adv (at_byte (l ++ s) 0 8) (last_bits a' k) = mkRd (l ++ s) (0 + length l) [] n' /\ a' = a) by (split; congruence).
  destruct R as (R & ->). unfold last_bits in R. rewrite Ht in R.
  assert (k = length l).
  { pose proof (f_equal pos R) as HP. unfold adv, at_byte, need in HP. cbn [pos left data length] in HP. clear -HP. divlia. }
  subst k. rewrite Hrest, skipn_app, skipn_all, Nat.sub_diag. reflexivity.
Qed.
Lemma unknown_clash {E : Env} l s r' : wf_payload l ->
  read_action (new_reader ((0x62 :: enc_length (N.of_nat (length l)) ++ l) ++ s)) = Ok (unknown_status l, r') ->
  ~ clashes (N.of_nat (length l)).
Proof.
  intros (Hb & Hl) H. cbn [app] in H. rewrite <- app_assoc in H.
  set (k := N.of_nat (length l)) in *. set (d := 0x62 :: enc_length k ++ l ++ s) in *.
  rewrite (read_status_62 _ 0 (enc_length k ++ l ++ s) (At_new d) eq_refl) in H.
  cbn [new_reader data bread Nat.add] in H. destruct (enc_length_first k Hl) as (x & t & Ex & Hx & HT).
  assert (Hp1 : (1 <= length d)%nat) by (unfold d; cbn; lia).
  unfold read_itf_status_op, bind at 1 in H.
  rewrite (read_interface_type_cons d 1 16 x (t ++ l ++ s)) in H; [|exact Hp1|unfold d; cbn [skipn]; rewrite Ex; reflexivity|exact Hx].
  destruct (assoc x interface_type_tbl) as [ty|] eqn:Ha; [|apply HT; reflexivity].
  exfalso. assert (ty = ItUnknown).
  { unfold bind in H. destruct (read_length _) as [[n r2]| |]; try discriminate.
    destruct (read_interface_status _ _ _) as [[z r3]| |]; try discriminate.
    injection H as H _. unfold unknown_status in H. congruence. }
  subst ty. cbn [assoc interface_type_tbl] in Ha.
  repeat (destruct (N.eqb _ _); [discriminate|]). discriminate.
Qed.
Lemma is_tx_same a : is_tx a = is_tx_status a.
Proof. destruct a; reflexivity. Qed.
Lemma survives_parses {E : Env} a : action_survives a -> exists l, action_to_bytes a = Ok l /\ bytes l /\ parses_bytes read_action l a /\ is_tx a = false.
Proof.
  intros H. apply action_exact in H as [Hw|(l & -> & Hw & He & Hc)].
  - exists (enc_action a). destruct (action_bytes a Hw) as (H1 & H2). split; [exact H1|]. split; [exact H2|]. split; [apply action_parses; exact Hw|].
    destruct a; try reflexivity. destruct Hw.
  - exists (0x62 :: enc_length (N.of_nat (length l)) ++ l). split; [exact (W_to_bytes _ _ (unknown_W l Hw))|].
    split; [exact (proj2 (unknown_W l Hw))|]. split; [exact (unknown_parses l Hw He Hc)|reflexivity].
Qed.
Lemma own_bytes {E : Env} a b s r : action_to_bytes a = Ok b -> bytes b -> bytes s -> dec_action (b ++ s) = Some (a, r) -> is_tx a = false ->
  e_rewind = true \/ (forall l, a <> unknown_status l) -> action_survives a /\ r = s.
Proof.
  intros Hb Bb Bs D Ht He.
  assert (R : exists r', read_action (new_reader (b ++ s)) = Ok (a, r')).
  { pose proof (decode_action (b ++ s) ltac:(apply Forall_app; split; assumption)) as DA. rewrite D in DA. destruct DA as (k & _ & _ & _ & DA). eexists. exact DA. }
  destruct R as (r' & R). assert (S : action_survives a).
  { apply action_exact. destruct (reads_parsed _ _ _ R) as [Hw|[(p & -> & Hw)|(Hf & v & -> & Hw)]]; [left; exact Hw| |discriminate].
    right. exists p. destruct He as [He|He]; [|contradiction (He p); reflexivity]. split; [reflexivity|]. split; [exact Hw|]. split; [exact He|].
    pose proof (W_to_bytes _ _ (unknown_W p Hw)) as Hb'. unfold action_to_bytes in Hb. rewrite Hb' in Hb.
    assert (b = 0x62 :: enc_length (N.of_nat (length p)) ++ p) by congruence. subst b. exact (unknown_clash p s r' Hw R). }
  split; [exact S|]. destruct (survives_parses a S) as (l & Hl & Bl & P & _). assert (l = b) by congruence. subst l.
  rewrite (parses_decodes b a s Bb Bs P Ht) in D. congruence.
Qed.
Lemma dec_action_nil {E : Env} : dec_action [] = None. Proof. reflexivity. Qed.
Lemma acts_action {E : Env} l : acts false l = match l with [] => Some ([], []) | _ =>
  match dec_action l with
  | Some (a, rest) => if is_indirect a then Some ([a], rest)
                      else match acts (is_tx a) rest with Some (c, rest') => Some (a :: c, rest') | None => None end
  | None => None
  end end.
Proof. destruct l as [|b l]; [reflexivity|]. rewrite acts_step. reflexivity. Qed.
Lemma tx_bits {E : Env} v x : write_action (ATxStatus v) = Ok x -> exists y, x = bits_of 8 0x40 ++ y.
Proof.
  cbn [write_action]. unfold write_tx_status_op. intros H.
  unfold wseq at 1 2, write_uint at 1, write_pad in H. cbn [rbind] in H.
  destruct (write_opcode (action_opcode (ATxStatus v)) +++ write_u8 (txo_itf_id v)
            +++ write_length_prefixed (write_interface_tx_status (txo_status v))) as [z| |]; try discriminate.
  cbn [rbind] in H. injection H as <-. exists z. reflexivity.
Qed.
Lemma tx_command_first {E : Env} v c l : command_to_bytes (ATxStatus v :: c) = Ok l -> exists t, l = 0x40 :: t.
Proof.
  unfold command_to_bytes, to_bytes, write_command. cbn [write_list]. intros H.
  destruct (write_action (ATxStatus v)) as [x| |] eqn:EX; try discriminate. destruct (tx_bits v x EX) as (y & ->).
  unfold wseq in H. destruct (write_list write_action c) as [z| |]; cbn [rbind] in H; try discriminate.
  assert (l = bytes_of_bits ((bits_of 8 0x40 ++ y) ++ z)) by congruence. subst l. exists (bytes_of_bits (y ++ z)).
  rewrite <- app_assoc. apply (bytes_of_bits_8 0x40). reflexivity.
Qed.
Lemma command_bytes_ok {E : Env} c l : command_to_bytes c = Ok l -> bytes l.
Proof.
  intros H. destruct (command_fails_iff c) as [H1 H2]. destruct (Exists_dec unwritable c unwritable_dec) as [X|X].
  - rewrite (H1 X) in H. discriminate.
  - destruct (H2 X) as (l' & Hl & Bl). assert (l' = l) by congruence. subst. exact Bl.
Qed.
Lemma command_cons {E : Env} a c l : is_tx a = false -> command_to_bytes (a :: c) = Ok l ->
  exists x y, action_to_bytes a = Ok x /\ bytes x /\ command_to_bytes c = Ok y /\ bytes y /\ l = x ++ y.
Proof.
  intros Ht H. change (a :: c) with ([a] ++ c) in H. rewrite command_app in H by (constructor; [rewrite <- is_tx_same; exact Ht|constructor]).
  destruct (command_to_bytes [a]) as [x| |] eqn:EX; try discriminate. destruct (command_to_bytes c) as [y| |] eqn:EY; try discriminate.
  cbn [rbind] in H. exists x, y. assert (EX' : action_to_bytes a = Ok x).
  { unfold command_to_bytes, write_command in EX. cbn [write_list] in EX. unfold action_to_bytes. rewrite <- EX. unfold to_bytes, wseq.
    destruct (write_action a); try reflexivity. cbn [rbind wnil]. rewrite app_nil_r. reflexivity. }
  split; [exact EX'|]. split; [exact (command_bytes_ok _ _ EX)|]. split; [reflexivity|]. split; [exact (command_bytes_ok _ _ EY)|]. congruence.
Qed.
Lemma first_not_tx {E : Env} t a r : dec_action (0x40 :: t) = Some (a, r) -> is_tx a = false.
Proof. intros H. vm_compute in H. injection H as <- <-. reflexivity. Qed.
Lemma survives_back {E : Env} c : forall l rest, (e_rewind = true \/ Forall (fun a => forall l, a <> unknown_status l) c) ->
  command_to_bytes c = Ok l -> acts false l = Some (c, rest) ->
  Forall action_survives c /\ forall pre a post, c = pre ++ a :: post -> is_indirect a = true -> post = [].
Proof.
  induction c as [|a c IH]; intros l rest He Hl Ha.
  - split; [constructor|]. intros [|? pre] ? post H; discriminate.
  - assert (D : exists r, dec_action l = Some (a, r) /\ if is_indirect a then c = [] else acts (is_tx a) r = Some (c, rest)).
    { rewrite acts_action in Ha. destruct l as [|b l]; [discriminate|]. destruct (dec_action (b :: l)) as [[a' r]|]; [|discriminate].
      destruct (is_indirect a') eqn:Ei; [exists r; assert (a' = a /\ c = []) as [-> ->] by (split; congruence); rewrite Ei; split; reflexivity|].
      destruct (acts (is_tx a') r) as [[c' r']|] eqn:EA; [|discriminate]. assert (a' = a /\ c' = c /\ r' = rest) as (-> & -> & ->) by (repeat split; congruence).
      exists r. rewrite Ei. split; [reflexivity|exact EA]. }
    destruct D as (r & D & Hc). assert (Ht : is_tx a = false).
    { destruct (is_tx a) eqn:Ht; [|reflexivity]. destruct a; try discriminate. destruct (tx_command_first _ _ _ Hl) as (t & ->).
      pose proof (first_not_tx _ _ _ D). discriminate. }
    destruct (command_cons a c l Ht Hl) as (x & y & Hx & Bx & Hy & By & ->).
    destruct (own_bytes a x y r Hx Bx By D Ht) as (S & ->).
    { destruct He as [He|He]; [left; exact He|right; apply Forall_cons_iff in He; apply He]. }
    rewrite Ht in Hc. destruct (is_indirect a) eqn:Ei.
    + subst c. split; [constructor; [exact S|constructor]|]. intros [|? [|? pre]] b post H; try discriminate. intros _. cbn [app] in H. congruence.
    + destruct (IH y rest) as (F & G); [|exact Hy|exact Hc|].
      { destruct He as [He|He]; [left; exact He|right; apply Forall_cons_iff in He; apply He]. }
      split; [constructor; assumption|]. intros [|z pre] b post H Hb; [cbn [app] in H; assert (a = b) by congruence; subst b; congruence|].
      apply (G pre b post); [cbn [app] in H; congruence|exact Hb].
Qed.
Lemma survives_forth {E : Env} c : Forall action_survives c -> (forall pre a post, c = pre ++ a :: post -> is_indirect a = true -> post = []) ->
  exists l, command_to_bytes c = Ok l /\ bytes l /\ acts false l = Some (c, []).
Proof.
  induction c as [|a c IH]; intros F G; [exists []; repeat split; constructor|].
  apply Forall_cons_iff in F as [Ha F]. destruct IH as (y & Hy & By & Ay); [exact F| |].
  { intros pre b post H. apply (G (a :: pre)). rewrite H. reflexivity. }
  destruct (survives_parses a Ha) as (x & Hx & Bx & P & Ht). exists (x ++ y).
  assert (B : bytes (x ++ y)) by (apply Forall_app; split; assumption).
  split; [|split; [exact B|]].
  - change (a :: c) with ([a] ++ c). rewrite command_app by (constructor; [rewrite <- is_tx_same; exact Ht|constructor]).
    assert (EX : command_to_bytes [a] = Ok x).
    { unfold command_to_bytes, write_command. cbn [write_list]. unfold action_to_bytes in Hx. rewrite <- Hx. unfold to_bytes, wseq.
      destruct (write_action a); try reflexivity. cbn [rbind wnil]. rewrite app_nil_r. reflexivity. }
    rewrite EX, Hy. reflexivity.
  - pose proof (parses_decodes x a y Bx By P Ht) as D. rewrite acts_action. destruct (x ++ y) as [|b l] eqn:E1; [discriminate|].
    rewrite D. destruct (is_indirect a) eqn:Ei; [|rewrite Ht, Ay; reflexivity].
    assert (c = []) as -> by (apply (G [] a c eq_refl Ei)). assert (y = []) as -> by (vm_compute in Hy; congruence). reflexivity.
Qed.
Lemma command_exact {E : Env} c : e_rewind = true \/ Forall (fun a => forall l, a <> unknown_status l) c ->
  (command_survives c <-> Forall action_survives c /\ forall pre a post, c = pre ++ a :: post -> is_indirect a = true -> post = []).
Proof.
  intros He. split.
  - intros (l & Hl & Ht). apply (try_from_ok l c (command_bytes_ok _ _ Hl)) in Ht as (rest & Ha & _). exact (survives_back c l rest He Hl Ha).
  - intros (F & G). destruct (survives_forth c F G) as (l & Hl & Bl & Ha). exists l. split; [exact Hl|].
    apply (try_from_ok l c Bl). exists []. split; [exact Ha|]. pose proof (count_tx_le c). cbn [length]. lia.
Qed.
Lemma command_known {E : Env} c : Forall (fun a => forall l, a <> unknown_status l) c ->
  (command_survives c <-> wf_command c).
Proof.
  intros He. rewrite (command_exact c (or_intror He)). unfold wf_command.
  assert (F : Forall action_survives c <-> Forall wf_action c).
  { split; intros F; rewrite Forall_forall in *; intros a Ha; specialize (F a Ha).
    - apply action_exact in F as [F|(l & -> & _)]; [exact F|]. contradiction (He _ Ha l). reflexivity.
    - apply action_exact. left. exact F. }
  rewrite F. reflexivity.
Qed.
