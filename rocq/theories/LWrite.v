(** Serialising arbitrary actions and commands: failure, size, concatenation. *)
From Coq Require Import List NArith ZArith Bool Lia ZifyBool ZifyNat ZifyN Arith.
From Verif Require Import Base Deku Utils Types Physical Link Network Session Data Query
  Interface File Operation Action Command WellFormed SpecLayout SpecFail SpecAction LBits LReader LTypes
  LUtf8 LLayout LRound LNumbers LFail.
Import ListNotations.
Open Scope N_scope.

Lemma existsb_Exists {A} (f : A -> bool) (P : A -> Prop) l : (forall x, f x = true <-> P x) ->
  existsb f l = true <-> Exists P l.
Proof.
  intros H. induction l as [|x l IH]; cbn [existsb]; split; intros G.
  - discriminate.
  - inversion G.
  - apply orb_true_iff in G as [G|G]; [left; apply H|right; apply IH]; exact G.
  - apply orb_true_iff. inversion G; subst; [left; apply H|right; apply IH]; assumption.
Qed.
Lemma unwritable_bool {E : Env} a : unwritable a <->
  existsb badl (lengths_of a) || existsb badv (varints_of a) || existsb badp (payloads_of a) = true.
Proof.
  unfold unwritable. rewrite !orb_true_iff.
  rewrite (existsb_Exists badl (fun n => 2 ^ 30 <= n)) by (intros; unfold badl; apply N.leb_le).
  rewrite (existsb_Exists badv (fun n => 507904 < n)) by (intros; unfold badv; apply N.ltb_lt).
  rewrite (existsb_Exists badp (fun k => 2 ^ 30 <= N.of_nat k mod 2 ^ 32)) by (intros; unfold badp; apply N.leb_le).
  tauto.
Qed.
Lemma unwritable_dec {E : Env} a : {unwritable a} + {~ unwritable a}.
Proof.
  destruct (existsb badl (lengths_of a) || existsb badv (varints_of a) || existsb badp (payloads_of a)) eqn:H.
  - left. apply unwritable_bool. exact H.
  - right. rewrite unwritable_bool, H. discriminate.
Qed.
Lemma write_fails {E : Env} a : unwritable a -> write_action a = Err EInvalidParam.
Proof. intros H. apply unwritable_bool in H. pose proof (F_action a) as G. unfold F in G. rewrite H in G. exact G. Qed.
Lemma write_bits {E : Env} a : ~ unwritable a ->
  exists l, write_action a = Ok l /\ length l = (8 * size_of a + odd_bits a)%nat.
Proof.
  intros H. pose proof (F_action a) as G. unfold F in G.
  destruct (existsb badl (lengths_of a) || existsb badv (varints_of a) || existsb badp (payloads_of a)) eqn:Hb; [|exact G].
  exfalso. apply H, unwritable_bool. exact Hb.
Qed.
Lemma bytes_of_bits_app x y k : length x = (8 * k)%nat -> bytes_of_bits (x ++ y) = bytes_of_bits x ++ bytes_of_bits y.
Proof.
  revert x. induction k as [|k IH]; intros x Hx.
  - destruct x; [reflexivity|discriminate].
  - rewrite <- (firstn_skipn 8 x), <- app_assoc.
    assert (H8 : length (firstn 8 x) = 8%nat) by (rewrite firstn_length; lia).
    rewrite !(bytes_of_bits_cons8 (firstn 8 x)) by exact H8. rewrite IH; [reflexivity|]. rewrite skipn_length. lia.
Qed.
Lemma bytes_of_bits_6 l k : length l = (8 * k + 6)%nat -> length (bytes_of_bits l) = S k.
Proof.
  intros H. rewrite <- (firstn_skipn (8 * k) l).
  assert (H1 : length (firstn (8 * k) l) = (8 * k)%nat) by (rewrite firstn_length; lia).
  assert (H2 : length (skipn (8 * k) l) = 6%nat) by (rewrite skipn_length; lia).
  rewrite (bytes_of_bits_app _ _ k) by exact H1. rewrite app_length, (bytes_of_bits_length _ k) by exact H1.
  destruct (skipn (8 * k) l) as [|a [|b [|c [|d [|e [|f [|? ?]]]]]]]; try discriminate. cbn. lia.
Qed.

(** C43 *)
Lemma action_written {E : Env} a : ~ unwritable a ->
  exists l, action_to_bytes a = Ok l /\ bytes l /\ length l = (size_of a + if is_tx_status a then 1 else 0)%nat.
Proof.
  intros H. destruct (write_bits a H) as (l & Hw & Hl). exists (bytes_of_bits l).
  unfold action_to_bytes, to_bytes. rewrite Hw. split; [reflexivity|]. split; [apply bytes_of_bits_bytes|].
  assert (Ho : odd_bits a = if is_tx_status a then 6%nat else 0%nat) by (destruct a; reflexivity).
  rewrite Ho in Hl. destruct (is_tx_status a).
  - rewrite (bytes_of_bits_6 _ _ Hl). lia.
  - rewrite Nat.add_0_r in *. apply bytes_of_bits_length. exact Hl.
Qed.
Lemma action_fails {E : Env} a :
  (unwritable a -> action_to_bytes a = Err EInvalidParam) /\
  (~ unwritable a -> exists l, action_to_bytes a = Ok l /\ bytes l /\
     length l = (size_of a + if is_tx_status a then 1 else 0)%nat).
Proof.
  split; [|apply action_written]. intros H. unfold action_to_bytes, to_bytes. rewrite (write_fails a H). reflexivity.
Qed.
Definition big_write (l : list N) : action :=
  AWriteFileData (mkFileData (mkHeader false false) 4 (mkFileOffset 0x40 0) (FOther l)).
Lemma big_write_ok {E : Env} d : N.of_nat (length d) = 2 ^ 32 -> exists l, action_to_bytes (big_write d) = Ok l.
Proof.
  intros Hd. destruct (action_written (big_write d)) as (l & H & _); [|exists l; exact H].
  unfold unwritable, big_write. cbn [lengths_of varints_of payloads_of fd_offset fd_data fo_offset file_varints file_size].
  intros [H|[H|H]].
  - inversion H as [? ? G|? ? G]; subst; [lia|inversion G].
  - inversion H.
  - inversion H as [? ? G|? ? G]; subst; [|inversion G].
    rewrite Hd in G. rewrite N.mod_same in G by discriminate. lia.
Qed.
Lemma any_length {A} (x : A) n : exists l : list A, N.of_nat (length l) = n.
Proof. exists (repeat x (N.to_nat n)). rewrite repeat_length. apply N2Nat.id. Qed.
Lemma fails_refuted {E : Env} : ~ (forall a, (exists e, action_to_bytes a = Err e) <->
  Exists (fun n => 2 ^ 30 <= n) (lengths_of a) \/ Exists (fun n => 507904 < n) (varints_of a) \/
  Exists (fun k => 2 ^ 30 <= N.of_nat k) (payloads_of a)).
Proof.
  intros H. destruct (any_length 0 (2 ^ 32)) as (d & Hd). destruct (big_write_ok d Hd) as (l & Hl).
  destruct (proj2 (H (big_write d))) as (e & He).
  - right. right. cbn [payloads_of big_write fd_data file_size]. left. rewrite Hd. lia.
  - rewrite Hl in He. discriminate.
Qed.

(** C11 *)
Lemma write_command_app {E : Env} a b : write_command (a ++ b) = write_command a +++ write_command b.
Proof.
  unfold write_command. induction a as [|x a IH]; cbn [app write_list].
  - unfold wseq, wnil. cbn [rbind]. destruct (write_list write_action b); reflexivity.
  - rewrite IH. unfold wseq. destruct (write_action x); cbn [rbind]; try reflexivity.
    destruct (write_list write_action a); cbn [rbind]; try reflexivity.
    destruct (write_list write_action b); cbn [rbind]; try reflexivity. rewrite app_assoc. reflexivity.
Qed.
Lemma command_bits {E : Env} c : Forall (fun a => ~ unwritable a) c ->
  exists ls, Forall2 (fun a l => write_action a = Ok l) c ls /\ write_command c = Ok (concat ls).
Proof.
  induction 1 as [|a c Ha _ (ls & H1 & H2)].
  - exists []. split; [constructor|reflexivity].
  - destruct (write_bits a Ha) as (l & Hl & _). exists (l :: ls). split; [constructor; assumption|].
    unfold write_command in *. cbn [write_list]. rewrite Hl, H2. reflexivity.
Qed.
Lemma command_fails {E : Env} c : Exists unwritable c -> command_to_bytes c = Err EInvalidParam.
Proof.
  intros H. unfold command_to_bytes, to_bytes. assert (W : write_command c = Err EInvalidParam).
  { induction c as [|a c IH]; [inversion H|]. unfold write_command in *. cbn [write_list].
    destruct (unwritable_dec a) as [Ha|Ha].
    - rewrite (write_fails a Ha). reflexivity.
    - destruct (write_bits a Ha) as (l & -> & _). unfold wseq. cbn [rbind].
      rewrite IH; [reflexivity|]. inversion H; subst; [contradiction|assumption]. }
  rewrite W. reflexivity.
Qed.
Lemma command_concat {E : Env} c : Forall (fun a => ~ unwritable a) c -> Forall (fun a => is_tx_status a = false) c ->
  exists ls, Forall2 (fun a l => action_to_bytes a = Ok l) c ls /\ command_to_bytes c = Ok (concat ls).
Proof.
  intros Hc Ht. unfold command_to_bytes.
  assert (G : exists ls k bs, Forall2 (fun a l => action_to_bytes a = Ok l) c ls /\ write_command c = Ok bs /\
    length bs = (8 * k)%nat /\ bytes_of_bits bs = concat ls).
  { induction c as [|a c IH].
    - exists [], 0%nat, []. repeat split. constructor.
    - inversion Hc as [|? ? Ha Hc']; subst. inversion Ht as [|? ? Hta Ht']; subst.
      destruct (IH Hc' Ht') as (ls & k & bs & H1 & H2 & H3 & H4).
      destruct (write_bits a Ha) as (l & Hl & Hn).
      assert (Hn' : length l = (8 * size_of a)%nat) by (destruct a; cbn [odd_bits is_tx_status] in *; try discriminate; lia).
      exists (bytes_of_bits l :: ls), (size_of a + k)%nat, (l ++ bs). split.
      + constructor; [|exact H1]. unfold action_to_bytes, to_bytes. rewrite Hl. reflexivity.
      + unfold write_command in *. cbn [write_list]. rewrite Hl, H2. split; [reflexivity|]. split.
        * rewrite app_length. lia.
        * rewrite (bytes_of_bits_app _ _ _ Hn'), H4. reflexivity. }
  destruct G as (ls & k & bs & H1 & H2 & _ & H4). exists ls. split; [exact H1|].
  unfold to_bytes. rewrite H2. cbn [rbind]. rewrite H4. reflexivity.
Qed.
Lemma command_fails_iff {E : Env} c : 
  (Exists unwritable c -> command_to_bytes c = Err EInvalidParam) /\
  (~ Exists unwritable c -> exists l, command_to_bytes c = Ok l /\ bytes l).
Proof.
  split; [apply command_fails|]. intros H. apply Forall_Exists_neg in H.
  destruct (command_bits c H) as (ls & _ & Hw). exists (bytes_of_bits (concat ls)).
  unfold command_to_bytes, to_bytes. rewrite Hw. split; [reflexivity|apply bytes_of_bits_bytes].
Qed.
(** All bytes of [a], then all bytes of [b]; the first failure otherwise. *)
Lemma command_app {E : Env} a b : Forall (fun x => is_tx_status x = false) a ->
  command_to_bytes (a ++ b) = rbind (command_to_bytes a) (fun x => rbind (command_to_bytes b) (fun y => Ok (x ++ y))).
Proof.
  intros Ht. unfold command_to_bytes, to_bytes. rewrite write_command_app.
  destruct (Exists_dec unwritable a unwritable_dec) as [Ha|Ha].
  - pose proof (command_fails a Ha) as F1. unfold command_to_bytes, to_bytes in F1.
    destruct (write_command a); cbn [rbind wseq] in *; try discriminate; reflexivity.
  - apply Forall_Exists_neg in Ha.
    assert (G : exists k bs, write_command a = Ok bs /\ length bs = (8 * k)%nat).
    { induction a as [|x a IH]; [exists 0%nat, []; repeat split|].
      inversion Ha as [|? ? Hx Ha']; subst. inversion Ht as [|? ? Htx Ht']; subst.
      destruct (IH Ht' Ha') as (k & bs & H1 & H2). destruct (write_bits x Hx) as (l & Hl & Hn).
      exists (size_of x + k)%nat, (l ++ bs). unfold write_command in *. cbn [write_list]. rewrite Hl, H1.
      split; [reflexivity|]. rewrite app_length. destruct x; cbn [odd_bits is_tx_status] in *; try discriminate; lia. }
    destruct G as (k & bs & -> & Hk). unfold wseq. cbn [rbind]. destruct (write_command b); cbn [rbind]; try reflexivity.
    rewrite (bytes_of_bits_app _ _ k Hk). reflexivity.
Qed.
(** The stored opcode is never written. *)
Lemma opcode_ignored {E : Env} o a : action_to_bytes (with_opcode o a) = action_to_bytes a.
Proof. destruct a; reflexivity. Qed.
