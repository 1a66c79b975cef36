(** Vocabulary of the theorem statements about readers and writers. *)
From Coq Require Import List NArith ZArith Bool Lia.
From Verif Require Import Base Deku.
Import ListNotations.

(** Reader states that can occur: the position is inside the stream, at most one byte is waiting
    in the leftover and it was taken from the stream. *)
Definition reader_state (r : rd) : Prop :=
  (pos r <= length (data r) /\ length (left r) <= 8 /\ length (left r) <= 8 * pos r)%nat.

(** Wherever the bits [bs] come next in the stream, at whatever alignment and whatever follows,
    [m] returns [v] and has consumed exactly [bs]. *)
Definition parses {A} (m : reader A) (bs : list bool) (v : A) : Prop :=
  forall r rest, reader_state r -> view r = bs ++ rest ->
  exists r', m r = Ok (v, r') /\ reader_state r' /\ view r' = rest /\ data r' = data r.

(** The writer succeeds and the reader gives the value back. *)
Definition round_trips {A} (w : writer) (m : reader A) (v : A) : Prop :=
  exists bs, w = Ok bs /\ parses m bs v.

(** The same for a reader standing on a byte boundary: [m] reads the bytes [l] between arbitrary
    [pre] and [suf] and stops on the first byte of [suf]. *)
Definition parses_bytes {A} (m : reader A) (l : list N) (v : A) : Prop :=
  forall pre suf n, exists n',
    m (mkRd (pre ++ l ++ suf) (length pre) [] n)
    = Ok (v, mkRd (pre ++ l ++ suf) (length pre + length l) [] n').

(** The writer writes the bytes [l] and the reader, on a byte boundary, gives the value back. *)
Definition round_trips_as {A} (w : writer) (m : reader A) (l : list N) (v : A) : Prop :=
  to_bytes w = Ok l /\ bytes l /\ parses_bytes m l v.

(** Build configurations used in the examples. *)
Definition env_spec : Env := Build_Env Spec Little true.
Definition env_subiot : Env := Build_Env Subiot Big false.
Definition env_wizzilab : Env := Build_Env Wizzilab Little true.
