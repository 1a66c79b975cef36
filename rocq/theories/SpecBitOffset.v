(** Vocabulary for C67: what stands at a bit offset of a byte string. *)
From Coq Require Import List NArith Arith Bool.
From Verif Require Import Base Deku SpecDecode.
Import ListNotations.
Open Scope N_scope.

(** The [n] bits that start [k] bits into [d], as a number; the most significant bit is first. *)
Definition field (d : list N) (k n : nat) : N :=
  (N_of_be d / 2 ^ N.of_nat (8 * length d - k - n)) mod 2 ^ N.of_nat n.
(** All complete groups of eight bits from bit [k] on. *)
Definition bytes_at (d : list N) (k : nat) : list N :=
  map (fun i => field d (k + 8 * i) 8) (seq 0 ((8 * length d - k) / 8)).

(** The derived [from_bytes((d, k))] takes the item [D] that stands there, and hands back the place
    behind it: the slice from the byte it is in, and the same number of bits into it. *)
Definition at_offset {A} (m : reader A) (D : dec A) (d : list N) (k : nat) : Prop :=
  match D (bytes_at d k) with
  | Some (v, rest) =>
      d_from_bytes m d k = Ok ((skipn (k / 8 + (length (bytes_at d k) - length rest)) d, k mod 8)%nat, v)
  | None => exists e, d_from_bytes m d k = Err e
  end.
Definition decodes_at {A} (m : reader A) (D : dec A) : Prop := forall d k, bytes d ->
  ((k <= 8 * length d)%nat -> at_offset m D d k) /\
  ((8 * length d < k)%nat -> d_from_bytes m d k = Err EIncomplete).

(** An enum of [n] bits, wherever it stands. *)
Definition enum_at {A} (n : nat) (m : reader A) (code : A -> N) (codes : list N) : Prop :=
  forall d k, bytes d ->
    ((k + n <= 8 * length d)%nat ->
       (In (field d k n) codes -> exists v, code v = field d k n /\
          d_from_bytes m d k = Ok ((skipn ((k + n) / 8) d, (k + n) mod 8)%nat, v)) /\
       (~ In (field d k n) codes -> d_from_bytes m d k = Err EParse)) /\
    ((8 * length d < k + n)%nat -> d_from_bytes m d k = Err EIncomplete).

(** The first byte boundary at or after bit [k]. *)
Definition next_byte (k : nat) : nat := (k + 7) / 8.

(** Three types read the id of a variant that is not assigned a second time, where deku puts it back
    by moving the stream, which forgets the bits of the byte the id ends in. The second time the
    whole byte is seen that follows the next byte boundary. *)
Definition seen {E : Env} (d : list N) (k : nat) : N :=
  if e_rewind && negb (k mod 8 =? 0)%nat then nth (next_byte k) d 0 else field d k 8.
