(** Vocabulary for C83: which values of the types that can be parsed on their own survive being
    written and parsed again. *)
From Coq Require Import List NArith.
From Verif Require Import Base Deku Session Interface Operation WellFormed SpecApi SpecReturn SpecAction.
Import ListNotations.
Open Scope N_scope.

(** Values with [P], and no others, are given back; what is parsed from any input has [P]. *)
Definition survivors {A} (m : reader A) (w : A -> writer) (P : A -> Prop) : Prop :=
  (forall v, P v -> exists l, transfers (w v) m l v) /\
  (forall v, comes_back (w v) m v -> P v) /\
  (forall d rest v, d_from_bytes m d 0 = Ok (rest, v) -> P v).

(** The statuses of unknown interfaces that are not taken for something else. *)
Definition passes {E : Env} (v : itf_status_op) : Prop :=
  exists l, v = mkItfStatusOp ItUnknown (IsOther l) /\ wf_payload l /\ e_rewind = true /\ ~ clashes (N.of_nat (length l)).
