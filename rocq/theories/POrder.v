(** C96: encoded numbers sort like the numbers. *)
From Coq Require Import List NArith.
From Verif Require Import Base Deku Types SpecApi SpecRounding SpecOrder LOrder.
Import ListNotations.
Open Scope N_scope.

(** Lengths, *)
Theorem C96_length : forall v w a b, v < 2 ^ 30 -> w < 2 ^ 30 ->
  to_bytes (write_length v) = Ok a -> to_bytes (write_length w) = Ok b -> (v < w <-> before a b).
Proof. exact length_order. Qed.
Print Assumptions C96_length.

(** whatever follows them, *)
Theorem C96_length_followed : forall v w a b s t, v < w -> w < 2 ^ 30 ->
  to_bytes (write_length v) = Ok a -> to_bytes (write_length w) = Ok b -> before (a ++ s) (b ++ t).
Proof. exact length_before. Qed.
Print Assumptions C96_length_followed.

(** and places in files: first by the file, then by the offset. *)
Theorem C96_file_offset : forall i v j w a b, i < 256 -> j < 256 -> v < 2 ^ 30 -> w < 2 ^ 30 ->
  to_bytes (write_file_offset (mkFileOffset i v)) = Ok a ->
  to_bytes (write_file_offset (mkFileOffset j w)) = Ok b ->
  (before a b <-> i < j \/ i = j /\ v < w).
Proof. exact offset_order. Qed.
Print Assumptions C96_file_offset.

(** A greater number never gets a smaller VarInt byte if it is rounded the same way, or up, *)
Theorem C96_varint : forall v w up up' a b, v <= w -> (up = true -> up' = true) ->
  to_bytes (write_varint (mkVarInt v up)) = Ok [a] -> to_bytes (write_varint (mkVarInt w up')) = Ok [b] ->
  a <= b.
Proof. exact varint_order. Qed.
Print Assumptions C96_varint.

(** but it may if the smaller one is rounded up and the greater one down, *)
Theorem C96_varint_refuted : ~ (forall v w up up' a b, v <= w ->
  to_bytes (write_varint (mkVarInt v up)) = Ok [a] -> to_bytes (write_varint (mkVarInt w up')) = Ok [b] ->
  a <= b).
Proof. exact varint_mixed_refuted. Qed.
Print Assumptions C96_varint_refuted.

(** exactly if no number between them can be sent as it is. *)
Theorem C96_varint_exact : forall v w a b, v <= w ->
  to_bytes (write_varint (mkVarInt v true)) = Ok [a] -> to_bytes (write_varint (mkVarInt w false)) = Ok [b] ->
  (b < a <-> ~ exists x, exact_value x /\ v <= x <= w).
Proof. exact varint_mixed. Qed.
Print Assumptions C96_varint_exact.

(** Numbers that can be sent as they are sort like their bytes, *)
Theorem C96_varint_sendable : forall v w up up' a b, exact_value v -> exact_value w ->
  to_bytes (write_varint (mkVarInt v up)) = Ok [a] -> to_bytes (write_varint (mkVarInt w up')) = Ok [b] ->
  (v < w <-> a < b).
Proof. exact varint_order_exact. Qed.
Print Assumptions C96_varint_sendable.

(** but bytes from elsewhere need not sort like the numbers read from them. *)
Theorem C96_varint_bytes_refuted : ~ (forall a b r s, d_try_from read_varint [a] = Ok (mkVarInt r false) ->
  d_try_from read_varint [b] = Ok (mkVarInt s false) -> a <= b -> r <= s).
Proof. exact bytes_refuted. Qed.
Print Assumptions C96_varint_bytes_refuted.

(** 63 and 64 take one byte and two; 33 rounded up comes after 34 rounded down. 124 and 125, both
    rounded down, arrive as 124 and 112 (C72), yet their bytes keep the order. *)
Example C96_example :
  to_bytes (write_length 63) = Ok [63] /\ to_bytes (write_length 64) = Ok [0x40; 64] /\ before [63] [0x40; 64] /\
  before [0x40; 64] [0x40; 65] /\
  to_bytes (write_varint (mkVarInt 33 true)) = Ok [41] /\ to_bytes (write_varint (mkVarInt 34 false)) = Ok [40] /\
  to_bytes (write_varint (mkVarInt 124 false)) = Ok [63] /\ to_bytes (write_varint (mkVarInt 125 false)) = Ok [71] /\
  d_try_from read_varint [31] = Ok (mkVarInt 31 false) /\ d_try_from read_varint [32] = Ok (mkVarInt 0 false).
Proof.
  repeat (split; [first [reflexivity | apply before_less; reflexivity
    | apply before_same, before_less; reflexivity]|]). reflexivity.
Qed.
