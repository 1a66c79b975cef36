(** The two bits in front of an opcode. *)
From Coq Require Import List NArith ZArith Bool Lia.
From Verif Require Import Base Deku Utils Types Physical Link Network Session Data Query
  Interface File Operation Action Command WellFormed SpecLayout SpecApi SpecDecode SpecFlags
  LAction LLayout LCommandApi LDecodeLoop LDecodeCmd.
Import ListNotations.
Open Scope N_scope.

Lemma first_parts x y op : op < 64 ->
  part 0 6 (first x y op) = op /\ flag 7 (first x y op) = x /\ flag 6 (first x y op) = y /\
  part 6 2 (first x y op) = (if x then 2 else 0) + (if y then 1 else 0) /\ first x y op < 256.
Proof.
  intros H. unfold flag, part, first. change (2 ^ 0) with 1. change (2 ^ 6) with 64. change (2 ^ 7) with 128.
  change (2 ^ 1) with 2. change (2 ^ 2) with 4. rewrite N.div_1_r.
  assert (A : op / 64 = 0) by (apply N.div_small; exact H).
  destruct x, y.
  - replace (128 + 64 + op) with (op + 3 * 64) by lia. rewrite N.mod_add, N.mod_small, N.div_add, A by lia.
    replace (op + 3 * 64) with (64 + op + 1 * 128) by lia. rewrite N.div_add, (N.div_small (64 + op)) by lia.
    repeat split; try reflexivity; lia.
  - replace (128 + 0 + op) with (op + 2 * 64) by lia. rewrite N.mod_add, N.mod_small, N.div_add, A by lia.
    replace (op + 2 * 64) with (op + 1 * 128) by lia. rewrite N.div_add, (N.div_small op) by lia.
    repeat split; try reflexivity; lia.
  - replace (0 + 64 + op) with (op + 1 * 64) by lia. rewrite N.mod_add, N.mod_small, N.div_add, A by lia.
    rewrite (N.div_small (op + 1 * 64)) by lia. repeat split; try reflexivity; lia.
  - replace (0 + 0 + op) with op by lia. rewrite N.mod_small, A by lia.
    rewrite (N.div_small op 128) by lia. repeat split; try reflexivity; lia.
Qed.

Definition over (x y : bool) (o : option (action * list N)) : option (action * list N) :=
  match o with Some (a, r) => Some (reflag x y a, r) | None => None end.

Lemma operand_flags {E : Env} op x y x' y' t : op < 64 -> only_flags op x x' ->
  dec_operand op (first x' y' op :: t) = over x' y' (dec_operand op (first x y op :: t)).
Proof.
  intros H (H34 & H38 & H51).
  destruct (first_parts x y op H) as (A1 & A2 & A3 & A4 & _).
  destruct (first_parts x' y' op H) as (B1 & B2 & B3 & B4 & _).
  set (b := first x y op) in *. set (b' := first x' y' op) in *. clearbody b b'.
  assert (N : forall c, dec_nop c (b' :: t) = Some (c (mkNop (mkHeader x' y') op), t) /\
                        dec_nop c (b :: t) = Some (c (mkNop (mkHeader x y) op), t)).
  { intros c. unfold dec_nop, andthen, one, give, dec_header. rewrite A1, A2, A3, B1, B2, B3. split; reflexivity. }
  destruct op as [|p]; [cbn [dec_operand]; destruct (N ANop) as (-> & ->); reflexivity|].
  do 6 (try (destruct p as [p|p|])); try lia; try congruence; cbn [dec_operand];
    try reflexivity;
    unfold dec_nop, dec_file_id_op, dec_file_data, dec_file_properties, dec_action_query, dec_header, andthen, one, give;
    rewrite ?A1, ?A2, ?A3, ?A4, ?B1, ?B2, ?B3, ?B4;
    try (specialize (H51 eq_refl); subst x'; destruct x);
    repeat match goal with
    | |- context [match named ?c ?l ?n ?t with Some _ => _ | None => _ end] => destruct x, y, x', y'; reflexivity
    | |- context [match ?m ?l with Some _ => _ | None => _ end] => destruct (m l) as [[? ?]|]
    | |- context [match ?l with [] => None | _ => _ end] => destruct l
    | |- context [if ?n =? 66 then _ else _] => destruct (n =? 66)
    end; try reflexivity.
Qed.

Lemma reflag_kind x y a : SpecDecode.is_indirect (reflag x y a) = SpecDecode.is_indirect a /\ is_tx (reflag x y a) = is_tx a.
Proof. destruct a; split; reflexivity. Qed.

Lemma first_bytes x y op t : op < 64 -> bytes t -> bytes (first x y op :: t).
Proof. intros H T. constructor; [apply (first_parts x y op H)|exact T]. Qed.

Lemma action_flags {E : Env} op x y x' y' t : op < 64 -> only_flags op x x' -> bytes t ->
  match action_from_bytes (first x y op :: t) 0 with
  | Ok (rest, a) => action_from_bytes (first x' y' op :: t) 0 = Ok (rest, reflag x' y' a)
  | Err _ => exists e, action_from_bytes (first x' y' op :: t) 0 = Err e
  | Panic => False
  end.
Proof.
  intros H O T. pose proof (decode_action_from_bytes _ (first_bytes x y op t H T)) as D.
  pose proof (decode_action_from_bytes _ (first_bytes x' y' op t H T)) as D'.
  unfold dec_action in D, D'. rewrite (proj1 (first_parts x y op H)) in D.
  rewrite (proj1 (first_parts x' y' op H)), (operand_flags op x y x' y' t H O) in D'.
  destruct (dec_operand op (first x y op :: t)) as [[a rest]|]; cbn [over] in D'.
  - rewrite D, D', (proj2 (reflag_kind x' y' a)). reflexivity.
  - destruct D as (e & ->). exact D'.
Qed.

(** Whole commands: the same first actions, the same action but for its flags, the same rest. *)
Definition swapped (x y : bool) (c1 : list action) (o o' : option (list action * list N)) : Prop :=
  match o with
  | Some (c, rest) => exists a c2, c = c1 ++ a :: c2 /\ o' = Some (c1 ++ reflag x y a :: c2, rest)
  | None => o' = None
  end.

Lemma enc_action_cons {E : Env} a : is_tx a = false -> exists b l, enc_action a = b :: l.
Proof. intros H. destruct a; try discriminate; cbn [enc_action]; eexists; eexists; reflexivity. Qed.

Lemma actions_flags {E : Env} op x y x' y' t : op < 64 -> only_flags op x x' -> bytes t ->
  forall c1 fuel, Forall wf_action c1 -> Forall (fun a => SpecDecode.is_indirect a = false /\ is_tx a = false) c1 ->
  swapped x' y' c1 (dec_actions fuel false (flat_map enc_action c1 ++ first x y op :: t))
                   (dec_actions fuel false (flat_map enc_action c1 ++ first x' y' op :: t)).
Proof.
  intros H O T. induction c1 as [|a c1 IH]; intros fuel W I.
  - cbn [flat_map app]. destruct fuel as [|k]; [reflexivity|]. cbn [dec_actions].
    rewrite (proj1 (first_parts x y op H)), (proj1 (first_parts x' y' op H)), (operand_flags op x y x' y' t H O).
    destruct (dec_operand op (first x y op :: t)) as [[a rest]|]; cbn [over]; [|reflexivity].
    rewrite (proj1 (reflag_kind x' y' a)), (proj2 (reflag_kind x' y' a)).
    destruct (SpecDecode.is_indirect a); [exists a, []; split; reflexivity|].
    destruct (dec_actions k (is_tx a) rest) as [[c rest']|]; [|reflexivity]. exists a, c. split; reflexivity.
  - inversion W as [|? ? W1 W2]; subst. inversion I as [|? ? (I1 & I2) I3]; subst.
    cbn [flat_map]. rewrite <- !app_assoc.
    assert (B : forall z u, bytes (flat_map enc_action c1 ++ first z u op :: t)).
    { intros z u. apply Forall_app. split; [|apply first_bytes; assumption].
      apply (command_bytes c1 W2). }
    pose proof (decode_encoded a _ W1 (B x y)) as D. pose proof (decode_encoded a _ W1 (B x' y')) as D'.
    destruct (enc_action_cons a I2) as (b & l & L). rewrite L in D, D' |- *. unfold dec_action in D, D'.
    cbn [app] in D, D' |- *.
    destruct fuel as [|k]; [reflexivity|]. cbn [dec_actions]. rewrite D, D', I1, I2.
    specialize (IH k W2 I3). unfold swapped in IH |- *.
    destruct (dec_actions k false (flat_map enc_action c1 ++ first x y op :: t)) as [[c rest]|].
    + destruct IH as (a' & c2 & -> & ->). exists a', c2. split; reflexivity.
    + rewrite IH. reflexivity.
Qed.

Lemma command_flags {E : Env} op x y x' y' pre t c1 : op < 64 -> only_flags op x x' -> bytes t ->
  Forall wf_action c1 -> Forall (fun a => SpecDecode.is_indirect a = false /\ is_tx a = false) c1 ->
  command_to_bytes c1 = Ok pre ->
  match command_try_from (pre ++ first x y op :: t) with
  | Ok c => exists a c2, c = c1 ++ a :: c2 /\
      command_try_from (pre ++ first x' y' op :: t) = Ok (c1 ++ reflag x' y' a :: c2)
  | Err _ => exists e, command_try_from (pre ++ first x' y' op :: t) = Err e
  | Panic => False
  end.
Proof.
  intros H O T W I P.
  assert (Q : pre = flat_map enc_action c1 /\ bytes pre).
  { destruct (command_bytes c1 W) as (C & B). split; [unfold enc_command in C; congruence|].
    replace pre with (enc_command c1) by congruence. exact B. }
  destruct Q as (-> & Q).
  assert (B : forall z u, bytes (flat_map enc_action c1 ++ first z u op :: t)).
  { intros z u. apply Forall_app. split; [exact Q|apply first_bytes; assumption]. }
  pose proof (decode_command_try_from _ (B x y)) as D. pose proof (decode_command_try_from _ (B x' y')) as D'.
  pose proof (actions_flags op x y x' y' t H O T c1 (length (flat_map enc_action c1 ++ first x y op :: t)) W I) as S.
  unfold dec_command in D, D'.
  replace (length (flat_map enc_action c1 ++ first x' y' op :: t))
    with (length (flat_map enc_action c1 ++ first x y op :: t)) in D' by (rewrite !app_length; reflexivity).
  unfold swapped in S.
  destruct (dec_actions _ false (flat_map enc_action c1 ++ first x y op :: t)) as [[c rest]|].
  - destruct S as (a & c2 & -> & S). rewrite S in D'.
    assert (L : length (c1 ++ reflag x' y' a :: c2) = length (c1 ++ a :: c2)) by (rewrite !app_length; reflexivity).
    assert (C : count_tx (c1 ++ reflag x' y' a :: c2) = count_tx (c1 ++ a :: c2)).
    { unfold count_tx. rewrite !filter_app. cbn [filter]. rewrite (proj2 (reflag_kind x' y' a)).
      destruct (is_tx a); rewrite !app_length; reflexivity. }
    rewrite L, C in D'. destruct (Nat.leb _ _).
    + rewrite D. exists a, c2. split; [reflexivity|exact D'].
    + rewrite D. exists ETooMuchData. exact D'.
  - rewrite S in D'. destruct D as (e & ->). exact D'.
Qed.

Lemma flags_refuted {E : Env} : ~ (forall op x y x' y' t rest a, op < 64 -> bytes t ->
  action_from_bytes (first x y op :: t) 0 = Ok (rest, a) ->
  exists b, action_from_bytes (first x' y' op :: t) 0 = Ok (rest, b)).
Proof.
  intros H. specialize (H 51 false false true false [] ([], 0%nat) (AIndirectForward (mkIndirectForward false false 51 None))).
  destruct H as (b & H); [reflexivity|constructor|destruct E as [[] [] []]; reflexivity|].
  destruct E as [[] [] []]; vm_compute in H; discriminate.
Qed.

(** Statuses: the bits say which kind it is. *)
Lemma status_bits {E : Env} x y t a rest : bytes t ->
  (action_from_bytes (first x y 34 :: t) 0 = Ok (rest, a) ->
    exists o, a = AStatus o /\ so_type o = status_kind (so_status o) /\
      status_type_id (so_type o) = (if x then 2 else 0) + (if y then 1 else 0)) /\
  (action_from_bytes (first x y 38 :: t) 0 = Ok (rest, a) -> e_feat = Wizzilab /\ x = false /\ y = true).
Proof.
  intros T. split; intros H.
  - pose proof (decode_action_from_bytes _ (first_bytes x y 34 t eq_refl T)) as D.
    unfold dec_action in D. destruct (first_parts x y 34 eq_refl) as (A1 & A2 & A3 & A4 & _).
    rewrite A1 in D. cbn [dec_operand] in D. unfold andthen, one, give in D. rewrite A1, A4 in D.
    rewrite H in D. destruct x, y;
      [change (2 + 1) with 3 in D|change (2 + 0) with 2 in D|change (0 + 1) with 1 in D|change (0 + 0) with 0 in D];
      [change (named code_status_type [StAction; StInterface; StInterfaceFinal] 3 t) with (@None (status_type * list N)) in D
      |change (named code_status_type [StAction; StInterface; StInterfaceFinal] 2 t) with (Some (StInterfaceFinal, t)) in D
      |change (named code_status_type [StAction; StInterface; StInterfaceFinal] 1 t) with (Some (StInterface, t)) in D
      |change (named code_status_type [StAction; StInterface; StInterfaceFinal] 0 t) with (Some (StAction, t)) in D];
      [destruct D; discriminate|..]; unfold dec_status, andthen, give in D; cbn [N.eqb Pos.eqb] in D.
    + destruct e_feat; try (destruct D; discriminate).
      destruct (dec_itf_final t) as [[v r]|]; [|destruct D; discriminate].
      injection D as _ ->. eexists. repeat split; reflexivity.
    + destruct (dec_itf_status t) as [[v r]|]; [|destruct D; discriminate].
      injection D as _ ->. eexists. repeat split; reflexivity.
    + destruct (one t) as [[v r]|]; [|destruct D; discriminate].
      destruct (one r) as [[w r']|]; [|destruct D; discriminate].
      injection D as _ ->. eexists. repeat split; reflexivity.
  - pose proof (decode_action_from_bytes _ (first_bytes x y 38 t eq_refl T)) as D.
    unfold dec_action in D. destruct (first_parts x y 38 eq_refl) as (A1 & A2 & A3 & A4 & _).
    rewrite A1 in D. cbn [dec_operand] in D. unfold andthen, reject, give in D. rewrite H in D.
    destruct e_feat; try (destruct D; discriminate). split; [reflexivity|].
    unfold dec_tx in D. destruct t as [|o t]; [destruct D; discriminate|]. rewrite A4 in D.
    destruct x, y;
      [change (2 + 1 =? 1) with false in D|change (2 + 0 =? 1) with false in D|split; reflexivity|change (0 + 0 =? 1) with false in D];
      destruct D; discriminate.
Qed.
