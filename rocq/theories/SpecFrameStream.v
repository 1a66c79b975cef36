(** Vocabulary for C76: which bytes of a stream an item needs. *)
From Coq Require Import List NArith Arith.
From Verif Require Import Base Deku Position SpecLayout.
Import ListNotations.

(** When an item has been read from byte [p] on and the stream is left at byte [q], then the same is
    read from any stream that is cut off at [q] or later; if it is cut off earlier, more bytes are
    asked for. *)
Definition needs_exactly {A} (m : reader A) : Prop := forall d p n v q k,
  bytes d -> (p <= length d)%nat -> (p <= k)%nat -> from_stream m d p 0 = Ok (n, v, q) ->
  from_stream m (firstn k d) p 0 = if Nat.ltb k q then Err EIncomplete else Ok (n, v, q).
