(** Results, bit strings and byte strings.

    Everything the crate does to a byte stream happens on bits, most significant bit first
    (deku's [Msb0] order), so a bit string is a [list bool] and a byte is an [N] below 256. *)
From Coq Require Import List NArith ZArith Bool Lia.
Import ListNotations.
Open Scope N_scope.

(** Error values a [DekuError] can carry, as far as callers can tell them apart.
    [ETooMuchData] is the [DekuError::Parse("Too much data")] of
    dash7/src/app/action.rs:248, dash7/src/app/command.rs:179 and of the derived [TryFrom].
    [EFuel] is not an error of the code: it marks a loop of the model that ran out of the
    iterations it was given. Theorem [C12] shows it is never returned. *)
Inductive derr : Type :=
| EIncomplete            (* not enough bits in the input *)
| EParse                 (* DekuError::Parse *)
| ETooMuchData           (* DekuError::Parse, "Too much data" *)
| EInvalidParam          (* DekuError::InvalidParam *)
| EIo                    (* DekuError::Io *)
| EIdVariantNotFound     (* DekuError::IdVariantNotFound *)
| EAssertion             (* DekuError::Assertion *)
| EFuel.

(** A Rust call either returns [Ok], returns [Err], or panics. *)
Inductive res (A : Type) : Type :=
| Ok (a : A)
| Err (e : derr)
| Panic.
Arguments Ok {A} a.
Arguments Err {A} e.
Arguments Panic {A}.

Definition rbind {A B} (x : res A) (f : A -> res B) : res B :=
  match x with
  | Ok a => f a
  | Err e => Err e
  | Panic => Panic
  end.

(** The low [n] bits of [v], most significant first. *)
Fixpoint bits_of (n : nat) (v : N) : list bool :=
  match n with
  | O => []
  | S k => N.testbit v (N.of_nat k) :: bits_of k v
  end.

Definition b2n (b : bool) : N := if b then 1 else 0.

(** The number a bit string denotes, most significant bit first. *)
Definition N_of_bits (l : list bool) : N :=
  fold_left (fun a b => 2 * a + b2n b) l 0.

Fixpoint bits_of_bytes (l : list N) : list bool :=
  match l with
  | [] => []
  | b :: tl => bits_of 8 b ++ bits_of_bytes tl
  end.

(** Groups of eight bits; an incomplete last group is filled with zeros, which is what deku's
    [Writer::finalize] does. *)
Fixpoint bytes_of_bits (l : list bool) : list N :=
  match l with
  | [] => []
  | a :: b :: c :: d :: e :: f :: g :: h :: tl =>
      N_of_bits [a; b; c; d; e; f; g; h] :: bytes_of_bits tl
  | rest => [N_of_bits (rest ++ repeat false (8 - length rest))]
  end.

(** Big-endian and little-endian numbers of a byte string. *)
Definition N_of_be (l : list N) : N := fold_left (fun a b => 256 * a + b) l 0.
Definition N_of_le (l : list N) : N := N_of_be (rev l).

Fixpoint be_bytes (n : nat) (v : N) : list N :=
  match n with
  | O => []
  | S k => (v / 256 ^ N.of_nat k) mod 256 :: be_bytes k v
  end.
Definition le_bytes (n : nat) (v : N) : list N := rev (be_bytes n v).

(** First match in an association list keyed by numbers: how a Rust [match] on integer literals
    picks its arm. *)
Fixpoint assoc {A} (k : N) (l : list (N * A)) : option A :=
  match l with
  | [] => None
  | (k', a) :: tl => if N.eqb k k' then Some a else assoc k tl
  end.

(** Every Rust [u8] is below 256; a byte string is a list of those. *)
Definition byte (b : N) : Prop := b < 256.
Definition bytes (l : list N) : Prop := Forall byte l.
