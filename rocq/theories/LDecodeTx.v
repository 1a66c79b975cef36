(** Transmission status, dispatch and single actions against SpecDecode.v. *)
From Coq Require Import List NArith ZArith Bool Lia ZifyBool ZifyNat ZifyN Arith.
From Verif Require Import Base Deku Utils Types Physical Link Network Session Data Query
  Interface File Operation Action Command SpecLayout SpecDecode LBits LReader LLayout LNiceOps
  LDecode LDecodeTypes LDecodeOps LDecodeAct LDecodeCmd.
Import ListNotations.
Open Scope N_scope.

Lemma octet_parts x : length x = 8%nat ->
  N_of_bits (firstn 2 x) = part 6 2 (N_of_bits x) /\ N_of_bits (firstn 6 x) = part 2 6 (N_of_bits x)
  /\ N_of_bits (firstn 6 (skipn 2 x)) = part 0 6 (N_of_bits x)
  /\ N_of_bits (skipn 6 x) = N_of_bits x mod 4 /\ N_of_bits (firstn 6 x) = N_of_bits x / 4.
Proof.
  intros H. do 8 (destruct x as [|? x]; [discriminate|]). destruct x; [|discriminate]. clear H.
  repeat match goal with b : bool |- _ => destruct b end; vm_compute; repeat split.
Qed.
Lemma firstn_short {A} n (x l : list A) : (n <= length x)%nat -> firstn n (x ++ l) = firstn n x.
Proof. intros H. rewrite firstn_app. replace (n - length x)%nat with 0%nat by lia. cbn [firstn]. apply app_nil_r. Qed.
Lemma skipn_short {A} n (x l : list A) : (n <= length x)%nat -> skipn n (x ++ l) = skipn n x ++ l.
Proof. intros H. rewrite skipn_app. replace (n - length x)%nat with 0%nat by lia. reflexivity. Qed.

Lemma octets_shift l : Nat.modulo (length l) 8 = 0%nat -> octets (skipn 6 l) = shifted (octets l).
Proof.
  induction l as [l Hl|x l Hx IH] using octet_ind; intros M.
  - rewrite Nat.mod_small in M by exact Hl. destruct l; [reflexivity|discriminate].
  - rewrite app_length, Hx in M. assert (M' : Nat.modulo (length l) 8 = 0%nat) by (clear - M; divlia).
    specialize (IH M'). rewrite skipn_short by lia. rewrite (octets_cons x) by exact Hx. destruct (Nat.ltb_spec (length l) 8) as [L|L].
    + assert (l = []) as -> by (rewrite Nat.mod_small in M' by exact L; destruct l; [reflexivity|discriminate]).
      rewrite app_nil_r. rewrite octets_short by (rewrite skipn_length; lia). reflexivity.
    + assert (Ey : exists y l', l = y ++ l' /\ length y = 8%nat)
        by (exists (firstn 8 l), (skipn 8 l); rewrite firstn_skipn, firstn_length; split; [reflexivity|lia]).
      destruct Ey as (y & l' & -> & Hy). rewrite skipn_short in IH by lia.
      rewrite (octets_cons y) in * by exact Hy. cbn [shifted]. cbn [shifted] in IH.
      rewrite <- (firstn_skipn 6 y) at 1. rewrite <- app_assoc, app_assoc.
      rewrite octets_cons by (rewrite app_length, skipn_length, firstn_length; lia). rewrite <- IH. f_equal.
      rewrite N_of_bits_app, firstn_length, Hy.
      destruct (octet_parts x Hx) as (_ & _ & _ & -> & _). destruct (octet_parts y Hy) as (_ & _ & _ & _ & ->).
      change (2 ^ N.of_nat (Nat.min 6 8)) with 64. reflexivity.
Qed.
Lemma shifted_length l : length (shifted l) = Nat.pred (length l).
Proof. induction l as [|a [|b l] IH]; [reflexivity..|]. cbn [shifted length] in *. rewrite IH. reflexivity. Qed.

(** ** Operands *)
Definition last_bits (a : action) (k : nat) : nat := if is_tx a then (8 * k - 2)%nat else (8 * k)%nat.
Definition OpAt (m : reader action) (D : dec action) (r : rd) : Prop :=
  match D (octets (view r)) with
  | Some (a, rest) =>
      exists k, (1 <= k)%nat /\ (8 * k <= length (view r))%nat /\ rest = skipn k (octets (view r))
                /\ m r = Ok (a, adv r (last_bits a k))
  | None => exists e, m r = Err e
  end.
Lemma OpAt_S m D r : DecS m D -> (forall l a rest, D l = Some (a, rest) -> is_tx a = false) ->
  RWf r -> left r = [] -> OpAt m D r.
Proof.
  intros [H T] N Hr Hl. specialize (H r Hr Hl). unfold DecAt, OpAt in *.
  destruct (D (octets (view r))) as [[a rest]|] eqn:ED; [|exact H]. destruct H as (k & Hk & Hs & Hm).
  exists k. unfold last_bits. rewrite (N _ _ _ ED). repeat split; try assumption.
  pose proof (T _ _ _ (octets_bytes _) ED) as L. rewrite Hs, skipn_length in L. lia.
Qed.

Lemma Dec_tx_body {E : Env} op : Dec (i <- read_u8 ;; l <- read_length ;; s <- read_interface_tx_status i l ;;
   ret (ATxStatus (mkTxStatusOp op i s))) (let* v := dec_tx_body op in give (ATxStatus v)).
Proof.
  eapply Dec_ext with (m := i <- read_u8 ;; l <- read_length ;;
     if i =? 0xD7 then s <- read_dash7_tx_status ;; ret (ATxStatus (mkTxStatusOp op i (TxDash7 s)))
     else s <- read_vec_u8 l ;; ret (ATxStatus (mkTxStatusOp op i (TxOther s)))).
  - apply Dec_bind; [exact Dec_u8|intros i]. apply Dec_bind; [exact Dec_length|intros n]. apply Dec_if.
    + apply Dec_bind; [exact Dec_dash7_tx|intros s; apply Dec_ret].
    + apply Dec_bind; [apply Dec_vec|intros s; apply Dec_ret].
  - intros r Hr. apply bind_ext. intros i r1. apply bind_ext. intros n r2. unfold read_interface_tx_status.
    destruct (i =? 0xD7); rewrite bind_bind; reflexivity.
  - intros l. unfold dec_tx_body. rewrite andthen_andthen. apply andthen_ext. intros i l1.
    rewrite andthen_andthen. apply andthen_ext. intros n l2. destruct (i =? 0xD7); rewrite andthen_andthen; reflexivity.
Qed.

Lemma view_octets r : RWf r -> left r = [] -> Nat.modulo (length (view r)) 8 = 0%nat.
Proof. intros Hr Hl. rewrite view_length by exact Hr. rewrite Hl. cbn [length]. clear. divlia. Qed.

Lemma OpAt_tx {E : Env} r : RWf r -> left r = [] ->
  OpAt (v <- read_tx_status_op ;; ret (ATxStatus v)) (let* v := dec_tx in give (ATxStatus v)) r.
Proof.
  intros Hr Hl. pose proof (view_octets r Hr Hl) as M. unfold OpAt. unfold andthen at 1. unfold dec_tx.
  destruct (Nat.ltb_spec (length (view r)) 8) as [L|L].
  { assert (V : view r = []) by (rewrite Nat.mod_small in M by exact L; destruct (view r); [reflexivity|discriminate]).
    rewrite V. cbn [octets]. exists EIncomplete. unfold read_tx_status_op, read_enum, bind.
    rewrite read_uint_err by (try exact Hr; rewrite V; cbn; lia). reflexivity. }
  assert (Ex : exists x l, view r = x ++ l /\ length x = 8%nat)
    by (exists (firstn 8 (view r)), (skipn 8 (view r)); rewrite firstn_skipn, firstn_length; split; [reflexivity|lia]).
  destruct Ex as (x & l & V & Hx). rewrite V, (octets_cons x) by exact Hx.
  assert (Ml : Nat.modulo (length l) 8 = 0%nat) by (rewrite V, app_length, Hx in M; clear - M; divlia).
  assert (R1 : read_uint 2 r = Ok (part 6 2 (N_of_bits x), adv r 2)).
  { rewrite read_uint_ok by (try exact Hr; lia). rewrite V, firstn_short by lia.
    destruct (octet_parts x Hx) as (-> & _). reflexivity. }
  assert (W2 : RWf (adv r 2)) by (apply RWf_adv; [exact Hr|lia]).
  assert (R2 : skip_bits 6 (adv r 2) = Ok (tt, adv r 8)).
  { unfold skip_bits, bind. rewrite read_bits_ok by (try exact W2; rewrite view_adv, skipn_length by (try exact Hr; lia); lia).
    rewrite adv_adv by (try exact Hr; lia). reflexivity. }
  assert (W8 : RWf (adv r 8)) by (apply RWf_adv; [exact Hr|lia]).
  assert (V8 : view (adv r 8) = l).
  { rewrite view_adv by (try exact Hr; lia). rewrite V, skipn_app, skipn_all2, Hx by lia. reflexivity. }
  destruct (Nat.ltb_spec (length l) 8) as [L2|L2].
  { assert (El : l = []) by (rewrite Nat.mod_small in Ml by exact L2; destruct l; [reflexivity|discriminate]).
    rewrite El in *. cbn [octets].
    unfold read_tx_status_op, read_enum, bind. rewrite R1. cbn [assoc].
    destruct (part 6 2 (N_of_bits x) =? 1); cbn [ret fail]; [|exists EParse; reflexivity]. exists EIncomplete.
    unfold ret. rewrite R2. unfold read_opcode. rewrite read_uint_err by (try exact W8; rewrite V8; cbn; lia). reflexivity. }
  assert (Ey : exists y l', l = y ++ l' /\ length y = 8%nat)
    by (exists (firstn 8 l), (skipn 8 l); rewrite firstn_skipn, firstn_length; split; [reflexivity|lia]).
  destruct Ey as (y & l' & El & Hy). rewrite El, (octets_cons y) by exact Hy. cbv iota beta.
  rewrite <- (octets_cons y) by exact Hy. rewrite <- El.
  destruct (part 6 2 (N_of_bits x) =? 1) eqn:E1.
  2: { exists EParse. unfold read_tx_status_op, read_enum, bind. rewrite R1. cbn [assoc]. rewrite E1. reflexivity. }
  assert (R3 : read_opcode (adv r 8) = Ok (part 2 6 (N_of_bits y), adv r 14)).
  { unfold read_opcode. rewrite read_uint_ok by (try exact W8; rewrite V8; lia). rewrite V8, El, firstn_short by lia.
    destruct (octet_parts y Hy) as (_ & -> & _). rewrite adv_adv by (try exact Hr; lia). reflexivity. }
  assert (LV : length (view r) = (8 + length l)%nat) by (rewrite V, app_length, Hx; reflexivity).
  assert (W14 : RWf (adv r 14)) by (apply RWf_adv; [exact Hr|lia]).
  assert (V14 : view (adv r 14) = skipn 6 l).
  { change 14%nat with (8 + 6)%nat. rewrite <- adv_adv by (try exact Hr; lia).
    rewrite view_adv by (try exact W8; rewrite V8; lia). rewrite V8. reflexivity. }
  pose proof (Dec_tx_body (part 2 6 (N_of_bits y)) (adv r 14) W14) as B. unfold DecAt in B.
  rewrite V14, octets_shift in B by exact Ml.
  assert (RB : (v <- read_tx_status_op ;; ret (ATxStatus v)) r =
    (i <- read_u8 ;; l <- read_length ;; s <- read_interface_tx_status i l ;;
     ret (ATxStatus (mkTxStatusOp (part 2 6 (N_of_bits y)) i s))) (adv r 14)).
  { unfold read_tx_status_op. rewrite !bind_bind. unfold bind at 1. unfold read_enum. unfold bind at 1. rewrite R1.
    cbn [assoc]. rewrite E1. unfold ret at 1. cbn beta iota. rewrite !bind_bind. unfold bind at 1. rewrite R2.
    cbn beta iota. rewrite !bind_bind. unfold bind at 1. rewrite R3. cbn beta iota.
    rewrite bind_bind. apply bind_ext. intros i r1. rewrite bind_bind. apply bind_ext. intros n r2.
    rewrite bind_bind. reflexivity. }
  rewrite RB. clear RB. unfold andthen in B.
  destruct (dec_tx_body (part 2 6 (N_of_bits y)) (shifted (octets l))) as [[v rest]|]; [|exact B].
  cbv [give] in *. destruct B as (j & Hj & Hs & Hm). rewrite skipn_length in Hj.
  assert (LO : (8 * length (octets l))%nat = length l) by (rewrite octets_length; clear - Ml; divlia).
  exists (S (S j)). unfold last_bits. cbn [is_tx]. split; [lia|]. split; [rewrite app_length; lia|]. split.
  - rewrite skipn_cons. f_equal. rewrite Hs, skipn_length, shifted_length. lia.
  - rewrite Hm, adv_adv by (try exact Hr; lia). do 3 f_equal. lia.
Qed.

Lemma not_tx_andthen {A} (D : dec A) (K : A -> dec action) :
  (forall x l a rest, K x l = Some (a, rest) -> is_tx a = false) ->
  forall l a rest, andthen D K l = Some (a, rest) -> is_tx a = false.
Proof. intros H l a rest. unfold andthen. destruct (D l) as [[x l1]|]; [apply H|discriminate]. Qed.
Lemma not_tx_give (v : action) : is_tx v = false -> forall l a rest, give v l = Some (a, rest) -> is_tx a = false.
Proof. intros H l a rest G. injection G as <- <-. exact H. Qed.
Ltac not_tx :=
  unfold dec_nop, dec_file_id_op, dec_file_data, dec_file_properties, dec_action_query;
  repeat first
    [ apply not_tx_andthen; intros ?
    | apply not_tx_give; reflexivity
    | match goal with |- forall l a rest, (if ?c then _ else _) l = _ -> _ => destruct c end
    | match goal with |- forall l a rest, reject l = _ -> _ => discriminate end ].
Definition reader_of {E : Env} (op : N) : reader action :=
  match assoc op action_readers with Some m => m | None => fail EInvalidParam end.
Lemma OpAt_operand {E : Env} op r : op < 64 -> RWf r -> left r = [] -> OpAt (reader_of op) (dec_operand op) r.
Proof.
  intros Ho Hr Hl. unfold reader_of, action_readers, is_wizzilab.
  assert (OpAt_none : OpAt (fail EInvalidParam) reject r) by (exists EInvalidParam; reflexivity).
  destruct op as [|p];
    [|do 6 (try (destruct p as [p|p|]; [| |]));
      try (exfalso; revert Ho; clear; lia)];
    unfold dec_operand; destruct e_feat eqn:EF; cbn [app assoc N.eqb Pos.eqb];
    first
      [ exact OpAt_none
      | apply OpAt_tx; assumption
      | apply OpAt_S;
        [ first [ apply DecS_nop | apply DecS_file_id_op | apply DecS_file_properties | apply DecS_action_query
                | apply DecS_read_file_data | apply DecS_copy_file | apply DecS_permission_request
                | apply DecS_response_tag | apply DecS_request_tag | apply DecS_forward | apply DecS_indirect
                | apply DecS_chunk | apply DecS_logic | apply DecS_status | apply DecS_file_data ]
        | not_tx | exact Hr | exact Hl ] ].
Qed.
