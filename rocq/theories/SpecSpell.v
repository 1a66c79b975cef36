(** Vocabulary for C100: the byte strings that stand for a number. *)
From Coq Require Import List NArith Bool.
From Verif Require Import Base.
Import ListNotations.
Open Scope N_scope.

(** The number [v] as a length with [k] bytes behind the first: two bits for [k], the others for [v]. *)
Definition spelled (k v : N) : list N := be_bytes (N.to_nat (1 + k)) (k * 2 ^ (6 + 8 * k) + v).
Definition spelling (v : N) (l : list N) : Prop := exists k, k < 4 /\ v < 2 ^ (6 + 8 * k) /\ l = spelled k v.
(** In how many ways a length can be spelled. *)
Definition spellings (v : N) : nat := if v <? 2 ^ 6 then 4 else if v <? 2 ^ 14 then 3 else if v <? 2 ^ 22 then 2 else 1.
(** The first byte of an action. *)
Definition first_byte (g r : bool) (op : N) : N := b2n g * 128 + b2n r * 64 + op.
(** The files whose content the crate takes apart. *)
Definition known_file (f : N) : bool :=
  (f =? 0) || (f =? 1) || (f =? 2) || (f =? 5) || (f =? 6) || (f =? 9) || (f =? 10) || (f =? 11) || (f =? 14)
  || ((32 <=? f) && (f <=? 46)).
