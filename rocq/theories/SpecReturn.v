(** Vocabulary for standalone values: written with to_bytes, read back with the derived
    TryFrom<&[u8]> and from_bytes. *)
From Coq Require Import List NArith ZArith Bool Lia.
From Verif Require Import Base Deku SpecApi.
Import ListNotations.

(** The value is written as the bytes [l]; [l] alone is read back completely, and in front of any
    further bytes exactly [l] is consumed. *)
Definition transfers {A} (w : writer) (m : reader A) (l : list N) (v : A) : Prop :=
  round_trips_as w m l v /\ d_try_from m l = Ok v /\
  forall suf, d_from_bytes m (l ++ suf) 0 = Ok ((suf, 0%nat), v).

(** The least one can ask for: whatever is written is read as the value again. *)
Definition comes_back {A} (w : writer) (m : reader A) (v : A) : Prop :=
  exists l rest, to_bytes w = Ok l /\ d_from_bytes m l 0 = Ok (rest, v).
