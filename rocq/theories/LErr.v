(** Lemmas for C64: the errors a reader can give. *)
From Coq Require Import List NArith ZArith Bool Lia ZifyBool ZifyNat ZifyN Arith.
From Verif Require Import Base Deku Utils Types Physical Link Network Session Data Query
  Interface File Operation Action Command WellFormed SpecLayout SpecAction SpecDecode SpecLive LUtf8 LBits LReader LTypes LLayout LFiles
  LNice LNiceOps LDecode LDecodeTx LDecodeLoop LJoin LLive LLiveTop LLiveLoop.
Import ListNotations.
Open Scope N_scope.

(** Stepping back over a byte is safe after the first byte. *)
Definition started (r : rd) : Prop := (0 < pos r)%nat \/ left r = [].
Definition plain {A} (x : res (A * rd)) : Prop :=
  match x with Ok (_, r') => started r' | Err e => e = EIncomplete \/ e = EParse | Panic => True end.
Definition Kd {A} (m : reader A) : Prop := forall r, started r -> plain (m r).
Definition KdP {A} (m : reader A) : Prop := forall r, (0 < pos r)%nat -> plain (m r).

Lemma Kd_P {A} (m : reader A) : Kd m -> KdP m.
Proof. intros H r Hr. apply H. left. exact Hr. Qed.
Lemma Kd_ret {A} (v : A) : Kd (ret v).
Proof. intros r Hr. exact Hr. Qed.
Lemma Kd_parse {A} : Kd (@fail A EParse).
Proof. intros r Hr. right. reflexivity. Qed.
Lemma Kd_bind {A B} (m : reader A) (f : A -> reader B) : Kd m -> (forall x, Kd (f x)) -> Kd (bind m f).
Proof.
  intros Hm Hf r Hr. unfold bind. specialize (Hm r Hr). destruct (m r) as [[x r1]| |]; [|exact Hm|exact I]. apply Hf. exact Hm.
Qed.
Lemma adv_pos r n : started r -> (1 <= n)%nat -> (0 < pos (adv r n))%nat.
Proof.
  intros H L. unfold adv. cbn [pos]. destruct H as [H|H]; [lia|]. unfold need. rewrite H. cbn [length].
  assert (1 <= (n - 0 + 7) / 8)%nat by (apply Nat.div_le_lower_bound; lia). lia.
Qed.
Lemma Kd_bits n : Kd (read_bits n).
Proof.
  intros r Hr. unfold read_bits. destruct (Nat.leb (pos r + need r n) (length (data r))); [|left; reflexivity].
  cbn [plain]. destruct n as [|n]; [|left; apply adv_pos; [exact Hr|lia]].
  destruct Hr as [H|H]; [left; unfold adv; cbn [pos]; lia|]. right. unfold adv, need. rewrite H. reflexivity.
Qed.
Lemma Kd_uint n : Kd (read_uint n).
Proof. apply Kd_bind; [apply Kd_bits|]. intros. apply Kd_ret. Qed.
Lemma Kd_skip n : Kd (skip_bits n).
Proof. apply Kd_bind; [apply Kd_bits|]. intros. apply Kd_ret. Qed.
Lemma Kd_list {A} n (m : reader A) : Kd m -> Kd (read_list n m).
Proof.
  intros H. induction n as [|n IH]; [apply Kd_ret|]. cbn [read_list]. apply Kd_bind; [exact H|]. intros. apply Kd_bind; [exact IH|].
  intros. apply Kd_ret.
Qed.
Lemma Kd_vec n : Kd (read_vec_u8 n).
Proof.
  intros r Hr. unfold read_vec_u8. destruct (N.leb _ _); [|left; reflexivity]. apply Kd_list; [apply Kd_uint|exact Hr].
Qed.
Lemma Kd_native {E : Env} n : Kd (read_native n).
Proof. apply Kd_bind; [apply Kd_bits|]. intros. apply Kd_ret. Qed.
Lemma Kd_cond {A} c (m : reader A) : Kd m -> Kd (read_cond c m).
Proof. intros H. destruct c; [|apply Kd_ret]. apply Kd_bind; [exact H|]. intros. apply Kd_ret. Qed.
Lemma Kd_enum {A} n (f : N -> option A) : Kd (read_enum n f).
Proof. apply Kd_bind; [apply Kd_uint|]. intros x. destruct (f x); [apply Kd_ret|apply Kd_parse]. Qed.
(** Ids that are looked at again. *)
Lemma Kd_id {A} (f : N -> reader A) : (forall x, KdP (f x)) -> Kd (x <- read_u8 ;; f x).
Proof.
  intros Hf r Hr. unfold bind, read_u8, read_uint, bind, read_bits. destruct (Nat.leb _ _); [|left; reflexivity].
  apply Hf. apply adv_pos; [exact Hr|lia].
Qed.
Lemma KdP_back : KdP seek_last_read8.
Proof. intros r Hr. unfold seek_last_read8. destruct (pos r); [lia|]. right. reflexivity. Qed.
Lemma KdP_bind {A B} (m : reader A) (f : A -> reader B) : KdP m -> (forall x, Kd (f x)) -> KdP (bind m f).
Proof.
  intros Hm Hf r Hr. unfold bind. specialize (Hm r Hr). destruct (m r) as [[x r1]| |]; [|exact Hm|exact I]. apply Hf. exact Hm.
Qed.
Lemma KdP_unit {E : Env} : KdP read_id_unit.
Proof. unfold read_id_unit. destruct e_rewind; [apply KdP_back|apply Kd_P, Kd_ret]. Qed.
Lemma KdP_field {E : Env} x : KdP (read_id_field x).
Proof. unfold read_id_field. destruct e_rewind; [apply KdP_bind; [apply KdP_back|intros; apply Kd_uint]|apply Kd_P, Kd_ret]. Qed.

Create HintDb kd.
#[export] Hint Resolve Kd_ret Kd_parse Kd_bits Kd_uint Kd_skip Kd_vec Kd_native Kd_enum : kd.
Ltac hd_of m := match m with ?f _ => hd_of f | _ => m end.
Ltac kd1 :=
  match goal with
  | |- Kd _ => solve [auto with kd nocore]
  | |- Kd (bind _ _) => apply Kd_bind; [|intros ?]
  | |- Kd (read_list _ _) => apply Kd_list
  | |- Kd (read_array _ _) => apply Kd_list
  | |- Kd (read_cond _ _) => apply Kd_cond
  | |- Kd (match ?x with _ => _ end) => destruct x
  | |- Kd ?m => let h := hd_of m in unfold h
  end.
Ltac kd := repeat (kd1; cbv beta zeta).
Ltac kdu f := unfold f; kd.

Lemma Kd_u8 : Kd read_u8. Proof. apply Kd_uint. Qed.
Lemma Kd_u16 : Kd read_u16be. Proof. apply Kd_uint. Qed.
Lemma Kd_u32 : Kd read_u32be. Proof. apply Kd_uint. Qed.
Lemma Kd_u64 : Kd read_u64be. Proof. apply Kd_uint. Qed.
Lemma Kd_op : Kd read_opcode. Proof. apply Kd_uint. Qed.
#[export] Hint Resolve Kd_u8 Kd_u16 Kd_u32 Kd_u64 Kd_op : kd.
Lemma Kd_bool : Kd read_bool. Proof. kdu read_bool. Qed.
Lemma Kd_i8 : Kd read_i8. Proof. kdu read_i8. Qed.
#[export] Hint Resolve Kd_bool Kd_i8 : kd.
Lemma Kd_cond_vec c n : Kd (read_cond_vec c n). Proof. kdu @read_cond_vec. Qed.
Lemma Kd_string n : Kd (read_string n). Proof. kdu @read_string. Qed.
Lemma uint_bound n q x q' : read_uint n q = Ok (x, q') -> x < 2 ^ N.of_nat n.
Proof.
  intros H. unfold read_uint, bind in H. destruct (read_bits n q) as [[l q1]| |] eqn:El; try discriminate.
  injection H as <- _. unfold read_bits in El. destruct (Nat.leb _ _); [|discriminate]. injection El as <- _.
  eapply N.lt_le_trans; [apply N_of_bits_lt|]. apply N.pow_le_mono_r; [discriminate|]. rewrite firstn_length. lia.
Qed.
Lemma Kd_varint : Kd read_varint.
Proof.
  intros r Hr. unfold read_varint, bind. pose proof (Kd_uint 3 r Hr) as H3. destruct (read_uint 3 r) as [[e r1]| |] eqn:E3; [|exact H3|exact I].
  pose proof (Kd_uint 5 r1 H3) as H5. destruct (read_uint 5 r1) as [[k r2]| |] eqn:E5; [|exact H5|exact I].
  apply uint_bound in E3, E5. change (2 ^ N.of_nat 3) with 8 in E3. change (2 ^ N.of_nat 5) with 32 in E5.
  rewrite decompress_ok by assumption. exact H5.
Qed.
Lemma Kd_length : Kd read_length. Proof. kdu read_length. Qed.
#[export] Hint Resolve Kd_cond_vec Kd_string Kd_varint Kd_length : kd.

Lemma Kd_addressee {E : Env} : Kd read_addressee. Proof. kd. Qed.
Lemma Kd_qos : Kd read_qos. Proof. kd. Qed.
Lemma Kd_file_offset : Kd read_file_offset. Proof. kd. Qed.
Lemma Kd_access_profile : Kd read_access_profile. Proof. kd. Qed.
Lemma Kd_dash7_config {E : Env} : Kd read_dash7_config. Proof. kd. Qed.
Lemma Kd_dash7_status {E : Env} : Kd read_dash7_status. Proof. kd. Qed.
Lemma Kd_header : Kd read_header. Proof. kd. Qed.
Lemma Kd_file_header : Kd read_file_header. Proof. kd. Qed.
#[export] Hint Resolve Kd_addressee Kd_qos Kd_file_offset Kd_access_profile Kd_dash7_config Kd_dash7_status Kd_header Kd_file_header : kd.
Lemma Kd_interface_type {E : Env} : Kd read_interface_type.
Proof.
  apply Kd_id. intros x. destruct (assoc x interface_type_tbl); [apply Kd_P, Kd_ret|]. apply KdP_bind; [apply KdP_unit|]. intros. apply Kd_ret.
Qed.
Lemma Kd_interface_config {E : Env} : Kd read_interface_config.
Proof.
  apply Kd_id. intros x. cbn [assoc].
  repeat match goal with |- KdP (match (if ?c then _ else _) with _ => _ end) => destruct c; [apply Kd_P; kd|] end.
  apply KdP_bind; [apply KdP_field|]. intros. apply Kd_ret.
Qed.
Lemma Kd_indirect_interface {E : Env} : Kd read_indirect_interface.
Proof.
  apply Kd_id. intros x. cbn [assoc].
  repeat match goal with |- KdP (match (if ?c then _ else _) with _ => _ end) => destruct c; [apply Kd_P; kd|] end.
  apply KdP_bind; [apply KdP_field|]. intros. apply Kd_ret.
Qed.
Lemma Kd_query : Kd read_query.
Proof.
  apply Kd_bind; [kd|]. intros x. unfold query_readers. cbn [assoc].
  repeat match goal with |- Kd (match (if ?c then _ else _) with _ => _ end) => destruct c; [kd|] end. kd.
Qed.
#[export] Hint Resolve Kd_interface_type Kd_interface_config Kd_indirect_interface Kd_query : kd.
Lemma Kd_file {E : Env} id n : Kd (read_file id n). Proof. kd. Qed.
#[export] Hint Resolve Kd_file : kd.
Lemma Kd_payload {E : Env} o : fo_file_id o < 256 -> Kd (read_file_payload o).
Proof.
  intros H. apply Kd_bind; [apply Kd_length|]. intros x r Hr. rewrite file_id_try_from_ok by exact H. apply Kd_file. exact Hr.
Qed.
Lemma Kd_file_data {E : Env} : Kd read_file_data.
Proof.
  apply Kd_bind; [apply Kd_header|intros h]. apply Kd_bind; [apply Kd_op|intros o]. intros r Hr.
  pose proof (Kd_file_offset r Hr) as K. unfold bind at 1. destruct (read_file_offset r) as [[f r1]| |] eqn:Ef; [|exact K|exact I].
  apply Kd_bind; [|intros; apply Kd_ret|exact K]. apply Kd_payload.
  unfold read_file_offset, bind in Ef. destruct (read_u8 r) as [[i r2]| |] eqn:E8; try discriminate.
  destruct (read_length r2) as [[n r3]| |]; try discriminate. injection Ef as <- <-. exact (uint_bound 8 _ _ _ E8).
Qed.
#[export] Hint Resolve Kd_file_data : kd.
Lemma Kd_operand {E : Env} op m : assoc op action_readers = Some m -> Kd m.
Proof.
  unfold action_readers. destruct is_wizzilab; cbn [app assoc];
    repeat match goal with |- (if ?c then _ else _) = _ -> _ => destruct c; [intros H; injection H as <-; kd|] end;
    discriminate.
Qed.
Lemma reader_of_err {E : Env} op r e : left r = [] -> reader_of op r = Err e ->
  (~ In op assigned_opcodes /\ e = EInvalidParam) \/ (In op assigned_opcodes /\ (e = EIncomplete \/ e = EParse)).
Proof.
  intros Hl H. unfold reader_of in H. destruct (assoc op action_readers) as [m|] eqn:Ha.
  - right. split; [apply assigned_reader; eauto|]. pose proof (Kd_operand op m Ha r (or_intror Hl)) as K. rewrite H in K. exact K.
  - left. split; [|injection H as <-; reflexivity]. intros Hin. apply assigned_reader in Hin as [m Hm]. congruence.
Qed.
