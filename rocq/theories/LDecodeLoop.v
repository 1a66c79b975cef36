(** Actions and the loop of commands against SpecDecode.v. *)
From Coq Require Import List NArith ZArith Bool Lia ZifyBool ZifyNat ZifyN Arith.
From Verif Require Import Base Deku Utils Types Physical Link Network Session Data Query
  Interface File Operation Action Command WellFormed LActionApi LReturn SpecLayout SpecDecode LBits LReader LLayout LNiceOps
  LDecode LDecodeTypes LDecodeOps LDecodeAct LDecodeCmd LDecodeTx.
Import ListNotations.
Open Scope N_scope.

Lemma read_action_ok {E : Env} s : RWf s -> (8 <= length (view s))%nat -> (1 <= pos s + need s 8)%nat ->
  read_action s = reader_of (N_of_bits (firstn 6 (skipn 2 (view s))))
    (mkRd (data s) (pos s + need s 8 - 1) [] (bread s + 8)).
Proof.
  intros Hs L P. unfold read_action, skip_bits, bind. rewrite read_bits_ok by (try exact Hs; lia). unfold ret at 1.
  assert (W : RWf (adv s 2)) by (apply RWf_adv; [exact Hs|lia]). unfold read_opcode.
  rewrite read_uint_ok by (try exact W; rewrite view_adv, skipn_length by (try exact Hs; lia); lia).
  rewrite adv_adv by (try exact Hs; lia). rewrite view_adv by (try exact Hs; lia). change (2 + 6)%nat with 8%nat.
  unfold seek_back1. unfold adv. cbn [pos data bread].
  destruct (pos s + need s 8)%nat as [|p] eqn:Ep; [lia|]. cbv beta iota. unfold reader_of.
  replace (S p - 1)%nat with p by lia. destruct (assoc _ _); reflexivity.
Qed.
Lemma read_action_err {E : Env} s : RWf s -> (length (view s) < 8)%nat -> exists e, read_action s = Err e.
Proof.
  intros Hs L. exists EIncomplete. unfold read_action, skip_bits, bind.
  destruct (Nat.ltb_spec (length (view s)) 2) as [L2|L2]; [rewrite read_bits_err by assumption; reflexivity|].
  rewrite read_bits_ok by assumption. unfold ret at 1. unfold read_opcode.
  rewrite read_uint_err; [reflexivity|apply RWf_adv; assumption|]. rewrite view_adv, skipn_length by assumption. lia.
Qed.

Definition at_byte (d : list N) (p n : nat) : rd := mkRd d p [] n.
Lemma at_byte_wf d p n : (p <= length d)%nat -> RWf (at_byte d p n).
Proof. intros H. unfold RWf, at_byte. cbn. lia. Qed.
Lemma at_byte_view d p n : bytes d -> octets (view (at_byte d p n)) = skipn p d.
Proof.
  intros H. unfold view, at_byte. cbn [left pos data app]. apply octets_bits.
  rewrite <- (firstn_skipn p d) in H. apply Forall_app in H. apply H.
Qed.
Lemma at_byte_length d p n : length (view (at_byte d p n)) = (8 * (length d - p))%nat.
Proof. unfold view, at_byte. cbn [left pos data app]. rewrite bits_of_bytes_length, skipn_length. lia. Qed.

(** States in which the loop may start an action at byte [p]. *)
Inductive entry (d : list N) (p n : nat) : bool -> rd -> Prop :=
| entry_plain : entry d p n false (at_byte d p n)
| entry_peeked b : nth_error d p = Some b -> entry d p n false (mkRd d (S p) (bits_of 8 b) n)
| entry_pending x y : (1 <= p)%nat -> entry d p n true (mkRd d p [x; y] n).

Lemma bits8 b : b < 256 -> length (bits_of 8 b) = 8%nat /\ N_of_bits (bits_of 8 b) = b.
Proof. intros H. split; [apply bits_of_length|apply N_of_bits_bits_of_small; exact H]. Qed.
Lemma nth_skipn {A} (d : list A) p b : nth_error d p = Some b -> skipn p d = b :: skipn (S p) d.
Proof.
  revert d. induction p as [|p IH]; intros [|x d] H; try discriminate.
  - injection H as ->. reflexivity.
  - exact (IH d H).
Qed.
Lemma entry_wf d p n pend s : (p <= length d)%nat -> entry d p n pend s -> RWf s.
Proof.
  intros Hp [ |b Hb|x y H1]; [apply at_byte_wf; exact Hp| |].
  - assert (p < length d)%nat by (apply nth_error_Some; rewrite Hb; discriminate).
    unfold RWf. cbn [pos data left]. rewrite bits_of_length. lia.
  - unfold RWf. cbn [pos data left length]. lia.
Qed.
Lemma entry_reader {E : Env} d p n pend s b tl : bytes d -> (p <= length d)%nat -> entry d p n pend s -> skipn p d = b :: tl ->
  read_action s = reader_of (if pend then part 2 6 b else part 0 6 b) (at_byte d p (n + 8)).
Proof.
  intros Hd Hp He Sk. pose proof (entry_wf d p n pend s Hp He) as Ws.
    assert (Lp : (p < length d)%nat).
    { destruct (Nat.ltb_spec p (length d)) as [L|L]; [exact L|]. rewrite skipn_all2 in Sk by exact L. discriminate. }
    assert (Bb : b < 256).
    { rewrite <- (firstn_skipn p d), Sk in Hd. apply Forall_app in Hd as [_ Hd]. apply Forall_cons_iff in Hd. apply Hd. }
    destruct (bits8 b Bb) as [L8 N8]. destruct (octet_parts _ L8) as (_ & P2 & P0 & _). rewrite N8 in P2, P0.
      destruct He as [ |b' Hb|x y H1].
      - rewrite read_action_ok; [| |rewrite at_byte_length; lia|].
        + unfold view, at_byte. cbn [left pos data app]. rewrite Sk, bits_of_bytes_cons.
          rewrite skipn_short, firstn_short by (rewrite ?skipn_length; lia). rewrite P0. f_equal.
          unfold at_byte, need. cbn [left pos data bread length]. change (Nat.div (8 - 0 + 7) 8) with 1%nat. f_equal. lia.
        + apply at_byte_wf. lia.
        + unfold at_byte, need. cbn [left length pos]. change (Nat.div (8 - 0 + 7) 8) with 1%nat. lia.
      - rewrite (nth_skipn _ _ _ Hb) in Sk. injection Sk as -> _.
        rewrite read_action_ok; [|exact Ws|rewrite view_length by exact Ws; cbn [left]; lia|cbn [pos]; lia].
        unfold view. cbn [left pos data]. rewrite skipn_short, firstn_short by (rewrite ?skipn_length; lia). rewrite P0. f_equal.
        unfold at_byte, need. cbn [left pos data bread]. rewrite L8. change (Nat.div (8 - 8 + 7) 8) with 0%nat. f_equal. lia.
      - rewrite read_action_ok; [|exact Ws|rewrite view_length by exact Ws; cbn [left length data pos]; lia|cbn [pos]; lia].
        unfold view. cbn [left pos data]. rewrite Sk, bits_of_bytes_cons. cbn [app]. rewrite !skipn_cons, skipn_O.
        rewrite firstn_short by lia. rewrite P2. f_equal.
        unfold at_byte, need. cbn [left pos data bread length]. change (Nat.div (8 - 2 + 7) 8) with 1%nat. f_equal. lia.
Qed.
Lemma entry_action {E : Env} d p n pend s : bytes d -> (p <= length d)%nat -> entry d p n pend s ->
  match skipn p d with
  | [] => exists e, read_action s = Err e
  | b :: _ => OpAt (fun _ => read_action s) (dec_operand (if pend then part 2 6 b else part 0 6 b)) (at_byte d p (n + 8))
  end.
Proof.
  intros Hd Hp He. pose proof (entry_wf d p n pend s Hp He) as Ws.
  destruct (skipn p d) as [|b tl] eqn:Sk.
  - apply read_action_err; [exact Ws|]. assert (length (skipn p d) = 0)%nat by (rewrite Sk; reflexivity).
    rewrite skipn_length in H. rewrite view_length by exact Ws.
    destruct He as [ |b Hb|x y H1]; cbn [left data pos length at_byte]; [lia| |lia].
    rewrite (nth_skipn _ _ _ Hb) in Sk. discriminate.
  - rewrite (entry_reader d p n pend s b tl Hd Hp He Sk).
    apply OpAt_operand; [|apply at_byte_wf; exact Hp|reflexivity]. destruct pend; unfold part; apply N.mod_lt; discriminate.
Qed.

Lemma entry_end d p n pend s : (p <= length d)%nat -> entry d p n pend s ->
  match skipn p d with
  | [] => at_end s = Ok (negb pend, s)
  | _ :: _ => exists s', at_end s = Ok (false, s') /\ entry d p n pend s'
  end.
Proof.
  intros Hp He. destruct (skipn p d) as [|b tl] eqn:Sk.
  - assert (length (skipn p d) = 0)%nat by (rewrite Sk; reflexivity). rewrite skipn_length in H.
    destruct He as [ |b Hb|x y H1].
    + unfold at_end, at_byte. cbn [left data pos]. replace (nth_error d p) with (@None N); [reflexivity|].
      symmetry. apply nth_error_None. lia.
    + rewrite (nth_skipn _ _ _ Hb) in Sk. discriminate.
    + reflexivity.
  - destruct He as [ |b' Hb|x y H1].
    + assert (Hb : nth_error d p = Some b).
      { rewrite <- (firstn_skipn p d), Sk. rewrite nth_error_app2 by (rewrite firstn_length; lia).
        assert (p < length d)%nat. { destruct (Nat.ltb_spec p (length d)) as [L|L]; [exact L|]. rewrite skipn_all2 in Sk by exact L. discriminate. }
        rewrite firstn_length. replace (p - Nat.min p (length d))%nat with 0%nat by lia. reflexivity. }
      unfold at_end, at_byte. cbn [left data pos bread]. rewrite Hb. eexists. split; [reflexivity|]. constructor. exact Hb.
    + unfold at_end. cbn [left]. pose proof (bits_of_length 8 b') as L. exists (mkRd d (S p) (bits_of 8 b') n).
      split; [|constructor; exact Hb]. destruct (bits_of 8 b'); [discriminate|reflexivity].
    + unfold at_end. cbn [left]. eexists. split; [reflexivity|]. constructor. exact H1.
Qed.

Lemma last_indirect_snoc acc a : last_is_indirect (acc ++ [a]) = is_indirect a.
Proof. unfold last_is_indirect. rewrite rev_app_distr. cbn [rev app]. destruct a; reflexivity. Qed.

(** After an operand: aligned, or two bits pending. *)
Lemma after_operand d p n a k : (p + k <= length d)%nat -> (1 <= k)%nat ->
  exists n', entry d (p + k) n' (is_tx a) (adv (at_byte d p n) (last_bits a k))
             /\ bread (adv (at_byte d p n) (last_bits a k)) = n'
             /\ (n' + (if is_tx a then 2 else 0) = n + 8 * k)%nat.
Proof.
  intros Hk H1. exists (bread (adv (at_byte d p n) (last_bits a k))). unfold last_bits. destruct (is_tx a).
  - assert (W : RWf (at_byte d p n)) by (apply at_byte_wf; lia).
    assert (L : (8 * k - 2 <= length (view (at_byte d p n)))%nat) by (rewrite at_byte_length; lia).
    pose proof (adv_left_length _ _ W L) as Ll.
    assert (Nk : need (at_byte d p n) (8 * k - 2) = k).
    { unfold need, at_byte. cbn [left length]. rewrite Nat.sub_0_r. clear - H1. divlia. }
    rewrite Nk in Ll. cbn [at_byte left length] in Ll.
    assert (Hp : pos (adv (at_byte d p n) (8 * k - 2)) = (p + k)%nat) by (unfold adv; rewrite Nk; reflexivity).
    assert (Hd : data (adv (at_byte d p n) (8 * k - 2)) = d) by reflexivity.
    assert (Hb : bread (adv (at_byte d p n) (8 * k - 2)) = (n + (8 * k - 2))%nat) by reflexivity.
    destruct (adv (at_byte d p n) (8 * k - 2)) as [d' p' l' n']. cbn [pos data bread left] in *. subst d' p' n'.
    destruct l' as [|x [|y [|]]]; cbn [length] in Ll; try lia.
    split; [constructor; lia|]. split; [reflexivity|]. lia.
  - rewrite adv_aligned; [|apply at_byte_wf; lia|reflexivity|rewrite at_byte_length; lia].
    split; [cbn [at_byte pos data bread]; constructor|]. split; [reflexivity|]. cbn [bread at_byte]. lia.
Qed.

Lemma valid_0 s : valid_length 0 s = Ok (true, s).
Proof. reflexivity. Qed.
Lemma loop_stop {E : Env} d p n pend s acc f : (p <= length d)%nat -> entry d p n pend s ->
  last_is_indirect acc = true -> exists s', read_actions (S f) 0 acc s = Ok (acc, s') /\ bread s' = bread s.
Proof.
  intros Hp He Hi. cbn [read_actions]. unfold bind at 1. rewrite valid_0. cbv iota beta.
  pose proof (entry_end d p n pend s Hp He) as HE. unfold bind at 1.
  assert (Hb : forall s', entry d p n pend s' -> bread s' = n) by (intros s' [ |? ?|? ? ?]; reflexivity).
  destruct (skipn p d).
  - rewrite HE, Hi. destruct (negb pend); eexists; split; reflexivity.
  - destruct HE as (s' & -> & He'). rewrite Hi. exists s'. split; [reflexivity|]. rewrite !Hb by assumption. reflexivity.
Qed.

Lemma loop_step {E : Env} f acc s e s1 : at_end s = Ok (e, s1) -> last_is_indirect acc = false ->
  read_actions (S f) 0 acc s =
  if e then Ok (acc, s1)
  else match read_action s1 with
       | Ok (a, r) => read_actions f 0 (acc ++ [a]) r
       | Err x => Err x
       | Panic => Panic
       end.
Proof.
  intros H Ha. cbn [read_actions]. unfold bind at 1. rewrite valid_0. cbv iota beta. unfold bind at 1. rewrite H, Ha.
  destruct e; reflexivity.
Qed.

Lemma loop_ok {E : Env} d : bytes d -> forall m f g p n pend s acc,
  (length d - p <= m)%nat -> (m < f)%nat -> (length d - p <= g)%nat -> (p <= length d)%nat ->
  entry d p n pend s -> last_is_indirect acc = false ->
  match dec_actions g pend (skipn p d) with
  | Some (c, rest) => exists s' k, rest = skipn (p + k) d /\ (p + k <= length d)%nat
      /\ read_actions f 0 acc s = Ok (acc ++ c, s')
      /\ (bread s' + 2 * count_tx c = n + 8 * k + 8 * length c)%nat
  | None => exists e, read_actions f 0 acc s = Err e
  end.
Proof.
  intros Hd. induction m as [m IH] using (well_founded_induction lt_wf). intros f g p n pend s acc Hm Hf Hg Hp He Hacc.
  destruct f as [|f]; [lia|]. pose proof (entry_end d p n pend s Hp He) as HE.
  assert (Hb : forall s', entry d p n pend s' -> bread s' = n) by (intros s' [ |? ?|? ? ?]; reflexivity).
  destruct (skipn p d) as [|b tl] eqn:Sk.
  - assert (DA : dec_actions g pend [] = if pend then None else Some ([], [])) by (destruct g; reflexivity). rewrite DA.
    rewrite (loop_step f acc s _ _ HE Hacc). destruct pend; cbn [negb].
    + pose proof (entry_action d p n true s Hd Hp He) as EA. rewrite Sk in EA. destruct EA as [e EA].
      exists e. rewrite EA. reflexivity.
    + exists s, 0%nat. rewrite Nat.add_0_r, Sk, app_nil_r. split; [reflexivity|]. split; [exact Hp|]. split; [reflexivity|].
      rewrite Hb by exact He. cbn. lia.
  - assert (Lp : (p < length d)%nat).
    { destruct (Nat.ltb_spec p (length d)) as [L|L]; [exact L|]. rewrite skipn_all2 in Sk by exact L. discriminate. }
    destruct g as [|g]; [lia|]. cbn [dec_actions]. destruct HE as (s1 & HE & He1).
    rewrite (loop_step f acc s _ _ HE Hacc).
    pose proof (entry_action d p n pend s1 Hd Hp He1) as EA. rewrite Sk in EA. unfold OpAt in EA.
    rewrite at_byte_view, Sk in EA by exact Hd.
    destruct (dec_operand (if pend then part 2 6 b else part 0 6 b) (b :: tl)) as [[a rest]|].
    2: { destruct EA as [e EA]. exists e. rewrite EA. reflexivity. }
    destruct EA as (k & Hk1 & Hk & Hs & Hr). rewrite at_byte_length in Hk.
    rewrite Hr.
    destruct (after_operand d p (n + 8) a k ltac:(lia) Hk1) as (n' & He2 & Hb2 & Hn').
    assert (Hrest : rest = skipn (p + k) d) by (rewrite Hs, <- Sk, skipn_skipn; reflexivity).
    destruct (is_indirect a) eqn:Hi.
    + assert (Ht : is_tx a = false) by (destruct a; try discriminate; reflexivity). rewrite Ht in *.
      destruct f as [|f]; [lia|].
      destruct (loop_stop d (p + k) n' false _ (acc ++ [a]) f ltac:(lia) He2 ltac:(rewrite last_indirect_snoc; exact Hi)) as (s' & Hl & Hbs).
      exists s', k. split; [exact Hrest|]. split; [lia|]. split; [exact Hl|]. rewrite Hbs, Hb2.
      unfold count_tx. cbn [filter length]. rewrite Ht. cbn [length]. lia.
    + rewrite Hrest.
      pose proof (IH (length d - (p + k))%nat ltac:(lia) f g (p + k)%nat n' (is_tx a) _ (acc ++ [a]) ltac:(lia) ltac:(lia) ltac:(lia) ltac:(lia) He2
        ltac:(rewrite last_indirect_snoc; exact Hi)) as R.
      destruct (dec_actions g (is_tx a) (skipn (p + k) d)) as [[c rest']|]; [|exact R].
      destruct R as (s' & k' & Hr' & Hk' & Hl & Hbs). exists s', (k + k')%nat. rewrite Nat.add_assoc.
      split; [exact Hr'|]. split; [exact Hk'|]. split; [rewrite Hl, <- app_assoc; reflexivity|].
      unfold count_tx in *. cbn [filter length]. destruct (is_tx a); cbn [length]; lia.
Qed.

(** ** Interface *)
Lemma decode_action {E : Env} d : bytes d ->
  match dec_action d with
  | Some (a, rest) => exists k, (1 <= k)%nat /\ (k <= length d)%nat /\ rest = skipn k d
      /\ read_action (new_reader d) = Ok (a, adv (at_byte d 0 8) (last_bits a k))
  | None => exists e, read_action (new_reader d) = Err e
  end.
Proof.
  intros Hd. pose proof (entry_action d 0 0 false (new_reader d) Hd ltac:(lia) (entry_plain d 0 0)) as EA.
  cbn [skipn] in EA. unfold dec_action. destruct d as [|b tl]; [exact EA|]. unfold OpAt in EA.
  rewrite at_byte_view in EA by exact Hd. cbn [skipn] in EA.
  destruct (dec_operand (part 0 6 b) (b :: tl)) as [[a rest]|]; [|exact EA]. destruct EA as (k & H1 & Hk & Hs & Hr).
  rewrite at_byte_length in Hk. exists k. split; [exact H1|]. split; [lia|]. split; [exact Hs|exact Hr].
Qed.
Lemma decode_action_from_bytes {E : Env} d : bytes d ->
  match dec_action d with
  | Some (a, rest) => action_from_bytes d 0 =
      Ok ((if is_tx a then (rest, 6%nat) else (skipn 1 rest, 0%nat)), a)
  | None => exists e, action_from_bytes d 0 = Err e
  end.
Proof.
  intros Hd. pose proof (decode_action d Hd) as H. unfold action_from_bytes. rewrite u_from_bytes_0.
  destruct (dec_action d) as [[a rest]|]; [|destruct H as [e ->]; exists e; reflexivity].
  destruct H as (k & H1 & Hk & -> & ->). unfold adv, at_byte. cbn [bread]. unfold last_bits. rewrite skipn_skipn.
  destruct (is_tx a).
  - replace (8 + (8 * k - 2))%nat with (6 + k * 8)%nat by lia. rewrite Nat.div_add, Nat.mod_add by lia. reflexivity.
  - replace (8 + 8 * k)%nat with (0 + (k + 1) * 8)%nat by lia. rewrite Nat.div_add, Nat.mod_add by lia. reflexivity.
Qed.
Lemma decode_action_try_from {E : Env} d : bytes d ->
  match dec_action d with
  | Some (a, rest) => if Nat.leb (length rest) (if is_tx a then 0 else 1) then action_try_from d = Ok a
                      else action_try_from d = Err ETooMuchData
  | None => exists e, action_try_from d = Err e
  end.
Proof.
  intros Hd. pose proof (decode_action d Hd) as H. unfold action_try_from. rewrite u_try_from_eq.
  destruct (dec_action d) as [[a rest]|]; [|destruct H as [e ->]; exists e; reflexivity].
  destruct H as (k & H1 & Hk & -> & ->). unfold adv, at_byte. cbn [bread]. unfold last_bits. rewrite skipn_length.
  destruct (is_tx a).
  - replace (8 + (8 * k - 2))%nat with (6 + k * 8)%nat by lia. rewrite Nat.div_add by lia. cbn [Nat.div Nat.divmod fst Nat.add].
    destruct (Nat.leb_spec (length d - k) 0), (Nat.leb_spec (length d) k); try reflexivity; lia.
  - replace (8 + 8 * k)%nat with (0 + (k + 1) * 8)%nat by lia. rewrite Nat.div_add by lia. cbn [Nat.div Nat.divmod fst Nat.add].
    destruct (Nat.leb_spec (length d - k) 1), (Nat.leb_spec (length d) (k + 1)); try reflexivity; lia.
Qed.
Lemma count_tx_le c : (count_tx c <= length c)%nat.
Proof. unfold count_tx. induction c as [|a c IH]; [reflexivity|]. cbn [filter length]. destruct (is_tx a); cbn [length]; lia. Qed.
Lemma decode_command {E : Env} d : bytes d ->
  match dec_command d with
  | Some (c, rest) => exists s, (length rest <= length d)%nat /\ read_command 0 (new_reader d) = Ok (c, s)
      /\ (bread s + 2 * count_tx c + 8 * length rest = 8 * length d + 8 * length c)%nat
  | None => exists e, read_command 0 (new_reader d) = Err e
  end.
Proof.
  intros Hd. unfold dec_command, read_command. cbn [data new_reader].
  pose proof (loop_ok d Hd (length d) (S (length d)) (length d) 0%nat 0%nat false (new_reader d) []
    ltac:(lia) ltac:(lia) ltac:(lia) ltac:(lia) (entry_plain d 0 0) eq_refl) as L. cbn [skipn] in L.
  destruct (dec_actions (length d) false d) as [[c rest]|]; [|exact L].
  destruct L as (s & k & Hr & Hk & Hl & Hb). exists s. assert (length rest = length d - k)%nat by (rewrite Hr, skipn_length; lia).
  split; [lia|]. split; [exact Hl|]. lia.
Qed.
Lemma decode_command_from_bytes {E : Env} d : bytes d ->
  match dec_command d with
  | Some (c, rest) => command_from_bytes d 0 =
      let read := (8 * (length d - length rest) + 8 * length c - 2 * count_tx c)%nat in
      Ok ((skipn (Nat.div read 8) d, Nat.modulo read 8), c)
  | None => exists e, command_from_bytes d 0 = Err e
  end.
Proof.
  intros Hd. pose proof (decode_command d Hd) as H. unfold command_from_bytes. rewrite u_from_bytes_0.
  destruct (dec_command d) as [[c rest]|]; [|destruct H as [e ->]; exists e; reflexivity].
  destruct H as (s & Hl & -> & Hb). replace (8 * (length d - length rest) + 8 * length c - 2 * count_tx c)%nat with (bread s) by lia.
  reflexivity.
Qed.
Lemma decode_command_try_from {E : Env} d : bytes d ->
  match dec_command d with
  | Some (c, rest) =>
      if Nat.leb (4 * length rest + count_tx c) (4 * length c) then command_try_from d = Ok c
      else command_try_from d = Err ETooMuchData
  | None => exists e, command_try_from d = Err e
  end.
Proof.
  intros Hd. pose proof (decode_command d Hd) as H. unfold command_try_from. rewrite u_try_from_eq.
  destruct (dec_command d) as [[c rest]|]; [|destruct H as [e ->]; exists e; reflexivity].
  destruct H as (s & Hl & -> & Hb).
  destruct (Nat.leb_spec (4 * length rest + count_tx c) (4 * length c)), (Nat.leb_spec (length d) (Nat.div (bread s) 8)) as [L|L];
    try reflexivity; exfalso; revert L; clear - H Hb Hl; intros; divlia.
Qed.

Lemma decode_encoded {E : Env} a s : wf_action a -> bytes s ->
  dec_action (enc_action a ++ s) = Some (a, s).
Proof.
  intros H Hs. destruct (action_bytes a H) as [_ He]. pose proof (decode_action (enc_action a ++ s) ltac:(apply Forall_app; split; assumption)) as D.
  rewrite action_new in D by exact H. destruct (dec_action _) as [[a' rest]|]; [|destruct D as [e D]; discriminate].
  destruct D as (k & H1 & Hk & -> & D). assert (Ea : a' = a) by congruence. subst a'. apply (f_equal (fun x => match x with Ok (_, r) => bread r | _ => 0%nat end)) in D.
  unfold adv, at_byte in D. cbn [bread] in D. unfold last_bits in D.
  assert (k = length (enc_action a)) as -> by (destruct (is_tx a); lia).
  rewrite skipn_app, skipn_all, Nat.sub_diag. reflexivity.
Qed.

(** ** Standalone types *)
Lemma DecA_decodes {A} (m : reader A) D : DecA m D -> decodes m D.
Proof.
  intros H d Hd. specialize (H (new_reader d) (RWf_new d) eq_refl). unfold DecAt in H.
  rewrite view_new, octets_bits in H by exact Hd. rewrite d_from_bytes_0, d_try_from_eq.
  destruct (D d) as [[v rest]|]; [|destruct H as [e ->]; exists e; split; reflexivity].
  destruct H as (k & Hk & -> & ->). rewrite bits_of_bytes_length in Hk. unfold adv. cbn [bread new_reader].
  rewrite Nat.add_0_l, div8, mod8. destruct (Nat.leb_spec k (length d)); [|lia]. split; [reflexivity|].
  destruct (Nat.eqb_spec k (length d)) as [->|Nk]; [rewrite skipn_all; reflexivity|].
  destruct (skipn k d) eqn:Sk; [|reflexivity]. apply (f_equal (@length N)) in Sk. rewrite skipn_length in Sk. cbn [length] in Sk. lia.
Qed.
Lemma decodes_types {E : Env} :
  decodes read_length dec_length /\ decodes read_varint dec_varint /\ decodes read_file_offset dec_file_offset /\
  decodes read_channel_header dec_channel_header /\ decodes read_channel dec_channel /\
  decodes read_channel_status dec_channel_status /\ decodes read_sub_band dec_sub_band /\
  decodes read_sub_profile dec_sub_profile /\ decodes read_access_profile dec_access_profile /\
  decodes read_addressee dec_addressee /\ decodes read_qos dec_qos /\
  decodes read_dash7_status dec_dash7_status /\ decodes read_dash7_tx_status dec_dash7_tx /\
  decodes read_final_status_code dec_final /\ decodes read_file_header dec_file_header.
Proof.
  repeat split; apply DecA_decodes, Dec_A;
    [exact Dec_length|exact Dec_varint|exact Dec_file_offset|exact Dec_channel_header|exact Dec_channel|exact Dec_channel_status
    |exact Dec_sub_band|exact Dec_sub_profile|exact Dec_access_profile|exact Dec_addressee|exact Dec_qos|exact Dec_dash7_status
    |exact Dec_dash7_tx|exact Dec_final|exact Dec_file_header].
Qed.
Lemma decodes_operations {E : Env} :
  decodes read_query dec_query /\ decodes read_dash7_config dec_dash7_config /\
  decodes read_lorawan_config dec_lorawan /\ decodes read_interface_config dec_interface_config /\
  decodes read_indirect_interface dec_indirect_interface /\
  decodes read_itf_status_op dec_itf_status /\ decodes read_itf_final_op dec_itf_final.
Proof.
  repeat split; apply DecA_decodes;
    [apply Dec_A; exact Dec_query|apply Dec_A; exact Dec_dash7_config|apply Dec_A; exact Dec_lorawan
    |exact DecA_interface_config|exact DecA_indirect_interface|exact DecA_itf_status|apply Dec_A; exact Dec_itf_final].
Qed.
Lemma decode_file {E : Env} b n d : bytes d ->
  match dec_file b n d with
  | Some (f, rest) => file_from_bytes d 0 (file_id_of b) n = Ok ((rest, 0%nat), f)
  | None => exists e, file_from_bytes d 0 (file_id_of b) n = Err e
  end.
Proof.
  intros Hd. pose proof (Dec_file_at b n (new_reader d) (RWf_new d)) as H. unfold DecAt in H.
  rewrite view_new, octets_bits in H by exact Hd. unfold file_from_bytes. rewrite u_from_bytes_0.
  destruct (dec_file b n d) as [[v rest]|]; [|destruct H as [e ->]; exists e; reflexivity].
  destruct H as (k & Hk & -> & ->). unfold adv. cbn [bread new_reader]. rewrite Nat.add_0_l, div8, mod8. reflexivity.
Qed.
