(** What becomes of a number sent as a VarInt (C72). *)
From Coq Require Import List NArith Bool.
From Verif Require Import Base Deku Types SpecLayout SpecApi.
Import ListNotations.
Open Scope N_scope.

(** The sender writes [v], asking for it to be rounded up or down; the receiver reads [r]. *)
Definition arrives (v : N) (up : bool) (r : N) : Prop :=
  exists b, to_bytes (write_varint (mkVarInt v up)) = Ok [b] /\ d_try_from read_varint [b] = Ok (mkVarInt r false).

(** The numbers a byte can stand for. *)
Definition exact_value (r : N) : Prop := exists e m, e <= 7 /\ m <= 31 /\ r = 4 ^ e * m.

(** Between 31 and 32 times a power of four from 4 to 4096. *)
Definition in_gap (k v : N) : Prop := 1 <= k <= 6 /\ 31 * 4 ^ k < v < 32 * 4 ^ k.
