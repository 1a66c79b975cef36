(** [from_reader] on a stream that has been read from before, and where it leaves the stream.

    utils.rs:47-61 and the derived from_reader make a fresh [Reader] on the stream they are given.
    The stream holds [d] and stands at byte [p]; [d_from_reader] and [u_from_reader] are the case
    [p = 0]. Returned are the bits read, the value, and the byte the stream stands at afterwards. *)
From Coq Require Import List NArith.
From Verif Require Import Base Deku.
Import ListNotations.

Definition from_stream {A} (m : reader A) (d : list N) (p off : nat) : res (nat * A * nat) :=
  rbind ((if Nat.eqb off 0 then m else skip_bits off ;;; m) (mkRd d p [] 0)) (fun x =>
    Ok (bread (snd x), fst x, pos (snd x))).
