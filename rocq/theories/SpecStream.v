(** Parsing input that arrives piece by piece. *)
From Coq Require Import List NArith.
From Verif Require Import Base Deku.
Import ListNotations.

(** More input does not change what was accepted; no error but [Incomplete] can be mended by
    more input; what can be mended is reported as [Incomplete]. *)
Definition incremental {X} (run : list N -> res X) : Prop :=
  (forall d s x, run d = Ok x -> run (d ++ s) = Ok x) /\
  (forall d s e, run d = Err e -> e <> EIncomplete -> run (d ++ s) = Err e) /\
  (forall d s x, run (d ++ s) = Ok x -> run d = Ok x \/ run d = Err EIncomplete).
