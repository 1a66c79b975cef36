(** The order in which byte strings are sorted (C96). *)
From Coq Require Import List NArith.
Import ListNotations.
Open Scope N_scope.

(** [a] comes before [b] when they are compared byte by byte, as [memcmp] or a dictionary does. *)
Inductive before : list N -> list N -> Prop :=
| before_end : forall y b, before [] (y :: b)
| before_less : forall x y a b, x < y -> before (x :: a) (y :: b)
| before_same : forall x a b, before a b -> before (x :: a) (x :: b).
