(** Canonical input: actions. *)
From Coq Require Import List NArith ZArith Bool Lia ZifyBool ZifyNat ZifyN Arith.
From Verif Require Import Base Deku Utils Types Physical Link Network Session Data Query
  Interface File Operation Action Command WellFormed SpecLayout SpecDecode SpecCanonical LBits LReader
  LNumbers LDecode LCanon LCanonTypes LCanonOps.
Import ListNotations.
Open Scope N_scope.

Definition FinOp {E : Env} (op : N) (D S : dec action) : Prop := forall b l, bytes (b :: l) -> part 0 6 b = op ->
  match D (b :: l) with
  | Some (a, rest) => Ends (b :: l) (enc_action a) rest /\
      (S (b :: l) = Some (a, rest) /\ b :: l = enc_action a ++ rest \/
       S (b :: l) = None /\ b :: l <> enc_action a ++ rest)
  | None => S (b :: l) = None
  end.
Lemma FinOp_pad {E : Env} op (w : N -> N) (ok : N -> bool) K K' :
  (forall b, b < 256 -> part 0 6 b = op -> ok b = (w b =? b)) ->
  (forall b, b < 256 -> part 0 6 b = op -> FinP [w b] (K b) (K' b) enc_action) ->
  FinOp op (andthen one K) (andthen one (fun b => only (ok b) (K' b))).
Proof.
  intros Ho H b l Hl Hp. apply Forall_cons_iff in Hl as [Hb Hl]. specialize (H b Hb Hp l Hl).
  unfold andthen, one. rewrite (Ho b Hb Hp). unfold only, reject. destruct (K b l) as [[a rest]|].
  - destruct H as (t & -> & N1 & C). cbn [app]. split; [apply Ends_cons; exact N1|]. destruct (N.eqb_spec (w b) b) as [Q|Q].
    + rewrite Q. destruct C as [(-> & C)|(-> & C)]; [left|right]; (split; [reflexivity|]).
      * rewrite C at 1. reflexivity.
      * intros G. injection G as G. auto.
    + right. split; [reflexivity|]. intros G. injection G as G _. apply Q. symmetry. exact G.
  - destruct (w b =? b); [exact H|reflexivity].
Qed.
Lemma FinOp_byte {E : Env} op K K' :
  (forall b, b < 256 -> part 0 6 b = op -> FinP [b] (K b) (K' b) enc_action) -> FinOp op (andthen one K) (andthen one K').
Proof.
  intros H. apply (FinOp_pad op (fun b => b) (fun _ => true)); [|exact H]. intros b _ _. symmetry. apply N.eqb_refl.
Qed.
Lemma FinOp_reject {E : Env} op S : (forall l, S l = None) -> FinOp op reject S.
Proof. intros H b l _ _. apply H. Qed.
Lemma hdr b op : b < 256 -> part 0 6 b = op -> hdr_byte (dec_header b) op = b.
Proof. intros Hb <-. unfold hdr_byte, first_byte, dec_header. cbn [h_group h_response]. exh b Hb. Qed.
Lemma flags b op : b < 256 -> part 0 6 b = op -> first_byte (flag 7 b) (flag 6 b) op = b.
Proof. intros Hb <-. unfold first_byte. exh b Hb. Qed.
Lemma two b op : b < 256 -> part 0 6 b = op -> pack [(2, part 6 2 b); (6, op)] = b.
Proof. intros Hb <-. exh b Hb. Qed.

Lemma F_file_id {E : Env} op c : (forall v, enc_action (c v) = enc_file_id_op op v) ->
  FinOp op (dec_file_id_op c) (dec_file_id_op c).
Proof.
  intros Hc. apply FinOp_byte. intros b Hb Hp. apply Can_Fin. apply Can_byte. intros f _. apply Can_give.
  rewrite Hc. unfold enc_file_id_op. cbn [fi_header fi_file_id]. rewrite hdr by assumption. reflexivity.
Qed.
Lemma F_nop {E : Env} op c : (forall v, enc_action (c v) = [hdr_byte (nop_header v) op]) -> FinOp op (dec_nop c) (dec_nop c).
Proof.
  intros Hc. apply FinOp_byte. intros b Hb Hp. apply Can_Fin, Can_give. rewrite Hc. cbn [nop_header].
  rewrite hdr by assumption. reflexivity.
Qed.
Lemma F_file_data {E : Env} op c : (forall v, enc_action (c v) = enc_file_data op v) ->
  FinOp op (dec_file_data c) (strict_file_data c).
Proof.
  intros Hc. apply FinOp_byte. intros b Hb Hp. apply Can_Fin. eapply Can_bind; [apply Can_file_offset|]. intros o.
  eapply Can_ext; [apply (Can_tail _ _ _ _ (fun f => c (mkFileData (dec_header b) (part 0 6 b) o f)) _
                          (Can_prefixed_file (fo_file_id o)))
    |intros; apply andthen_assoc|intros; apply andthen_assoc].
  intros f. rewrite Hc. unfold enc_file_data. cbn [fd_header fd_offset fd_data]. rewrite hdr by assumption.
  cbn [app]. reflexivity.
Qed.
Lemma F_file_properties {E : Env} op c : (forall v, enc_action (c v) = enc_file_properties op v) ->
  FinOp op (dec_file_properties c) (strict_file_properties c).
Proof.
  intros Hc. apply FinOp_byte. intros b Hb Hp. apply Can_Fin. apply Can_byte. intros f _.
  eapply Can_tail; [apply Can_file_header|]. intros h. rewrite Hc. unfold enc_file_properties.
  cbn [fpr_header fpr_file_id fpr_file_header]. rewrite hdr by assumption. reflexivity.
Qed.
Lemma F_query {E : Env} op c : (forall v, enc_action (c v) = enc_action_query op v) ->
  FinOp op (dec_action_query c) (strict_action_query c).
Proof.
  intros Hc. apply FinOp_byte. intros b Hb Hp. apply Can_Fin. eapply Can_tail; [apply Can_query|]. intros q.
  rewrite Hc. unfold enc_action_query. cbn [aq_header aq_query]. rewrite hdr by assumption. reflexivity.
Qed.

Lemma F_operand {E : Env} op : op < 64 -> op <> 38 -> FinOp op (dec_operand op) (strict_operand op).
Proof.
  intros Ho Hn. assert (I : In op (map N.of_nat (seq 0 64))).
  { apply in_map_iff. exists (N.to_nat op). split; [lia|]. apply in_seq. lia. }
  cbn in I. repeat destruct I as [<-|I]; try contradiction; clear Ho; try (apply FinOp_reject; reflexivity);
    cbn [dec_operand strict_operand];
    try (apply F_file_id; reflexivity); try (apply F_nop; reflexivity); try (apply F_file_data; reflexivity);
    try (apply F_file_properties; reflexivity); try (apply F_query; reflexivity).
  all: try (contradiction Hn; reflexivity).
  - apply FinOp_byte. intros b Hb Hp. apply Can_Fin. eapply Can_bind; [apply Can_file_offset|]. intros o.
    eapply Can_tail; [apply Can_length|]. intros n. cbn [enc_action rf_header rf_offset rf_length].
    rewrite hdr by assumption. cbn [app]. reflexivity.
  - apply FinOp_byte. intros b Hb Hp. apply Can_Fin. apply Can_byte. intros c _. apply Can_named. intros v H.
    apply Can_byte. intros i _. choose i 0x42 J; [|apply Can_reject; reflexivity].
    eapply Can_tail; [apply Can_some|]. intros k. cbn [enc_action prq_header prq_level prq_permission].
    rewrite hdr, H by assumption. reflexivity.
  - apply FinOp_byte. intros b Hb Hp. apply Can_Fin. apply Can_byte. intros s _. apply Can_byte. intros d _.
    apply Can_give. cbn [enc_action cf_header cf_src cf_dst]. rewrite hdr by assumption. reflexivity.
  - apply FinOp_byte. intros b Hb Hp. apply Fin_named. intros t H. eapply Fin_map; [apply Fin_status|].
    intros s. cbn [enc_action so_type so_status]. rewrite H, two by assumption. reflexivity.
  - apply FinOp_byte. intros b Hb Hp. apply Can_Fin. apply Can_byte. intros i _. apply Can_give.
    cbn [enc_action rt_eop rt_error rt_id]. rewrite flags by assumption. reflexivity.
  - apply FinOp_byte. intros b Hb Hp. apply Can_Fin. apply Can_named. intros s H. apply Can_give.
    cbn [enc_action ck_step]. rewrite H, two by assumption. reflexivity.
  - apply FinOp_byte. intros b Hb Hp. apply Can_Fin. apply Can_named. intros s H. apply Can_give.
    cbn [enc_action lg_op]. rewrite H, two by assumption. reflexivity.
  - apply (FinOp_pad 50 (fun b => b mod 128)); [intros b Hb _; exh b Hb|]. intros b Hb Hp. apply Can_Fin.
    eapply Can_tail; [apply Can_interface_config|]. intros c. cbn [enc_action fw_response fw_config].
    assert (first_byte false (flag 6 b) 50 = b mod 128) as -> by (rewrite <- Hp; unfold first_byte; exh b Hb). reflexivity.
  - apply FinOp_byte. intros b Hb Hp. apply Can_Fin. destruct (flag 7 b) eqn:F7.
    + eapply Can_tail; [apply Can_indirect_interface|]. intros c. cbn [enc_action if_overloaded if_response if_config].
      rewrite <- F7, flags by assumption. reflexivity.
    + apply Can_give. cbn [enc_action if_overloaded if_response if_config]. rewrite <- F7, flags by assumption. reflexivity.
  - apply (FinOp_pad 52 (fun b => b / 128 * 128 + b mod 64)); [intros b Hb _; exh b Hb|]. intros b Hb Hp. apply Can_Fin.
    apply Can_byte. intros i _. apply Can_give. cbn [enc_action rq_eop rq_id].
    assert (first_byte (flag 7 b) false 52 = b / 128 * 128 + b mod 64) as -> by (rewrite <- Hp; unfold first_byte; exh b Hb).
    reflexivity.
Qed.
