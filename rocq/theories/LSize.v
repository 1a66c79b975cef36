(** Lemmas for C48: the size of whatever is written. *)
From Coq Require Import List NArith ZArith Bool Lia.
From Verif Require Import Base Deku Utils Types Physical Link Network Session Data Query Interface File
  Operation Action Command WellFormed SpecApi SpecAction SpecFail LActionApi LWrite.
Import ListNotations.
Open Scope N_scope.

Lemma written_size {E : Env} a l : action_to_bytes a = Ok l ->
  length l = (size_of a + if is_tx_status a then 1 else 0)%nat.
Proof.
  intros H. destruct (action_fails a) as [F G]. destruct (unwritable_dec a) as [U|U].
  - rewrite (F U) in H. discriminate.
  - destruct (G U) as (m & Hm & _ & L). congruence.
Qed.
Lemma written_some {E : Env} a l : action_to_bytes a = Ok l -> l <> [].
Proof.
  intros H ->. apply written_size in H. unfold size_of in H. cbn [length] in H. discriminate H.
Qed.
