(** Lemmas for C57: what comes back unchanged, whether or not unknown ids are put back. *)
From Coq Require Import List NArith ZArith Bool Lia ZifyBool ZifyNat ZifyN Arith.
From Verif Require Import Base Deku Utils Types Physical Link Network Session Data Query
  Interface File Operation Action Command WellFormed SpecLayout SpecApi SpecAction SpecDecode SpecCanonical SpecFail SpecGrow SpecExact SpecUnknown
  LBits LReader LNumbers LDecode LCanon LActionApi LCommandApi LLayout LFail LWrite LSize LDecodeLoop
  LGrow LExact LUnknown LCanonTop LLag.
Import ListNotations.
Open Scope N_scope.

(** An action that is written as it was read is not the status of an interface whose id was lost. *)
Lemma strict_known {E : Env} d a rest : e_rewind = false -> bytes d -> strict_action d = Some (a, rest) -> forall l, a <> unknown_status l.
Proof.
  intros R Hd H l ->. pose proof (canon_action d Hd) as C. destruct (dec_action d) as [[a' r]|] eqn:D; [|congruence].
  destruct C as [(_ & C)|(T & _ & [(C & Q)|(C & _)])]; try congruence.
  assert (a' = unknown_status l /\ r = rest) as (-> & ->) by (split; congruence).
  destruct (dec_parsed _ _ _ Hd D) as (P & _).
  pose proof (parsed_W _ P T) as W1. apply W_to_bytes in W1.
  destruct d as [|b d']; [discriminate|]. pose proof (operand_more _ _ _ _ R Hd D eq_refl) as M.
  pose proof (command_total [unknown_status l] (enc_action (unknown_status l))) as S.
  assert (X : command_to_bytes [unknown_status l] = Ok (enc_action (unknown_status l))).
  { rewrite (LCanonTop.command_cons _ [] (parsed_W _ P T)). cbn [command_to_bytes]. unfold command_to_bytes, to_bytes, write_command.
    cbn [write_list wnil rbind]. rewrite app_nil_r. reflexivity. }
  specialize (S X). apply (f_equal (@length N)) in Q. rewrite app_length in Q.
  unfold total in S. cbn [map list_sum fold_right is_tx_status unknown_status] in S. fold (unknown_status l) in S. lia.
Qed.
Lemma strict_all_known {E : Env} k : e_rewind = false -> forall d c, bytes d -> strict_actions k d = Some c ->
  Forall (fun a => forall l, a <> unknown_status l) c.
Proof.
  intros R. induction k as [|k IH]; intros d c Hd H.
  - destruct d; [|discriminate]. injection H as <-. constructor.
  - destruct d as [|b d]; [injection H as <-; constructor|]. cbn [strict_actions] in H.
    destruct (strict_action (b :: d)) as [[a rest]|] eqn:S; [|discriminate]. pose proof (strict_known _ _ _ R Hd S) as N1.
    assert (Br : bytes rest).
    { pose proof (canon_action _ Hd) as C. destruct (dec_action (b :: d)) as [[a' r]|] eqn:D; [|congruence].
      destruct C as [(_ & C)|(_ & _ & [(C & _)|(C & _)])]; try congruence.
      assert (r = rest) as -> by congruence. exact (proj2 (dec_parsed _ _ _ Hd D)). }
    destruct rest as [|x rest]; [injection H as <-; constructor; [exact N1|constructor]|].
    destruct (is_indirect a); [discriminate|]. destruct (strict_actions k (x :: rest)) as [c'|] eqn:S1; [|discriminate].
    injection H as <-. constructor; [exact N1|]. exact (IH _ _ Br S1).
Qed.
Lemma back_is_known {E : Env} c : command_survives c -> e_rewind = true \/ Forall (fun a => forall l, a <> unknown_status l) c.
Proof.
  intros (l & W & T). destruct e_rewind eqn:R; [left; reflexivity|right].
  assert (B : bytes l) by (eapply command_bytes_ok; exact W).
  exact (strict_all_known _ R l c B (proj1 (canonical_command_any l c B) (conj T W))).
Qed.
Lemma alone_is_known {E : Env} c : Forall action_survives c -> e_rewind = true \/ Forall (fun a => forall l, a <> unknown_status l) c.
Proof.
  intros F. destruct e_rewind eqn:R; [left; reflexivity|right]. revert F. apply Forall_impl. intros a S l ->.
  apply action_exact in S as [S|(p & _ & _ & S & _)]; [|congruence].
  cbn in S. unfold wf_status_operand in S. destruct S as (_ & S). exact S.
Qed.
Lemma command_exact_any {E : Env} c : command_survives c <->
  Forall action_survives c /\ forall pre a post, c = pre ++ a :: post -> is_indirect a = true -> post = [].
Proof.
  split; intros H.
  - apply (command_exact c (back_is_known c H)), H.
  - apply (command_exact c (alone_is_known c (proj1 H))), H.
Qed.
Lemma none_put_back {E : Env} c : e_rewind = false -> (command_survives c <-> wf_command c).
Proof.
  intros R. split; intros H.
  - pose proof (back_is_known c H) as [K|K]; [congruence|]. apply (command_known c K), H.
  - assert (K : Forall (fun a => forall l, a <> unknown_status l) c).
    { destruct H as (H & _). revert H. apply Forall_impl. intros a S l ->. cbn in S. unfold wf_status_operand in S. apply S. }
    apply (command_known c K), H.
Qed.
