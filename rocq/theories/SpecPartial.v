(** Types that do not fill whole bytes. *)
From Coq Require Import List NArith Bool.
From Verif Require Import Base Deku.
Import ListNotations.
Open Scope N_scope.

(** The derived TryFrom accepts no input at all. *)
Definition never_parsed {A} (m : reader A) : Prop := forall d v, d_try_from m d <> Ok v.

(** An enum of [n] bits, fewer than 8: to_bytes puts its code into the upper bits of one byte,
    from_bytes takes it from there and reports the whole input and [n] bits as the position. *)
Definition upper_bits {A} (n : nat) (m : reader A) (w : A -> writer) (code : A -> N) (codes : list N) : Prop :=
  (0 < n < 8)%nat /\
  (forall v, to_bytes (w v) = Ok [code v * 2 ^ N.of_nat (8 - n)]) /\
  forall x t, x < 256 -> let c := x / 2 ^ N.of_nat (8 - n) in
    (In c codes -> exists v, code v = c /\ d_from_bytes m (x :: t) 0 = Ok ((x :: t, n), v)) /\
    (~ In c codes -> d_from_bytes m (x :: t) 0 = Err EParse).
