(** Vocabulary for parsing at a bit offset. *)
From Coq Require Import List NArith Arith.
From Verif Require Import Base.
Import ListNotations.

(** The six bits two bits after bit [k], as a number. *)
Definition opcode_at (d : list N) (k : nat) : N := N_of_bits (firstn 6 (skipn (k + 2) (bits_of_bytes d))).
(** The first byte boundary at or after bit [k]. *)
Definition boundary (k : nat) : nat := Nat.div (k + 7) 8.
