(** C01-C05: Length and VarInt. *)
From Coq Require Import List NArith ZArith Bool.
From Verif Require Import Base Deku Types SpecLayout SpecApi LTypes LNumbers.
Import ListNotations.
Open Scope N_scope.

(** C01. *)
Theorem C01_length_round_trip : forall v, v < 2 ^ 30 -> round_trips (write_length v) read_length v.
Proof. exact length_round_trip. Qed.
Print Assumptions C01_length_round_trip.

Theorem C01_length_too_large : forall v, 2 ^ 30 <= v < 2 ^ 32 -> write_length v = Err EInvalidParam.
Proof. exact length_too_large. Qed.
Print Assumptions C01_length_too_large.

Example C01_example : read_length (mkRd [0xFF; 0x45; 0x67; 0x89] 1 [] 8) = Ok (0x567, mkRd [0xFF; 0x45; 0x67; 0x89] 3 [] 24)
  /\ to_bytes (write_length 0x567) = Ok [0x45; 0x67]
  /\ write_length (2 ^ 30 - 1) <> Err EInvalidParam /\ write_length (2 ^ 30) = Err EInvalidParam.
Proof. split; [reflexivity|]. split; [reflexivity|]. split; [discriminate|reflexivity]. Qed.

(** C02. *)
Theorem C02_length_bytes : forall v, v < 2 ^ 30 ->
  exists k, k < 4 /\ v < 2 ^ (6 + 8 * k) /\ (forall j, j < k -> 2 ^ (6 + 8 * j) <= v) /\
    to_bytes (write_length v) = Ok (be_bytes (N.to_nat (1 + k)) (k * 2 ^ (6 + 8 * k) + v)).
Proof. exact length_bytes. Qed.
Print Assumptions C02_length_bytes.

Theorem C02_length_minimal : forall v l d r', v < 2 ^ 30 ->
  to_bytes (write_length v) = Ok l -> read_length (new_reader d) = Ok (v, r') ->
  (length l <= pos r' <= length d)%nat.
Proof. exact length_shortest. Qed.
Print Assumptions C02_length_minimal.

(** A longer encoding of the same value. *)
Example C02_example : to_bytes (write_length 5) = Ok [5] /\
  read_length (new_reader [0x40; 5]) = Ok (5, mkRd [0x40; 5] 2 [] 16) /\
  to_bytes (write_length 64) = Ok [0x40; 64].
Proof. repeat split. Qed.

(** C03. *)
Theorem C03_compress : forall v ceil, v <= 507904 ->
  exists e m, compress v ceil = inl (e, m) /\ e <= 7 /\ m <= 31 /\
    (ceil = false -> 4 ^ e * m <= v) /\ (ceil = true -> v <= 4 ^ e * m) /\
    (v < 4 ^ e * m + 4 ^ e /\ 4 ^ e * m < v + 4 ^ e) /\
    ((exists e' m', e' <= 7 /\ m' <= 31 /\ v = 4 ^ e' * m') -> 4 ^ e * m = v) /\
    (forall e', e' < e -> 4 ^ e' * 31 < v).
Proof. exact compress_in_range. Qed.
Print Assumptions C03_compress.

Theorem C03_compress_too_large : forall v ceil, 507904 < v -> compress v ceil = inr (ValueTooLarge v).
Proof. exact compress_too_large. Qed.
Print Assumptions C03_compress_too_large.

Theorem C03_no_unknown_error : forall v ceil, compress v ceil <> inr UnknownError.
Proof. exact compress_not_unknown. Qed.
Print Assumptions C03_no_unknown_error.

Example C03_example : compress 125 false = inl (2, 7) /\ compress 125 true = inl (2, 8) /\
  compress 507904 true = inl (7, 31) /\ compress 507905 true = inr (ValueTooLarge 507905).
Proof. repeat split. Qed.

(** C04. *)
Theorem C04_every_byte : forall b, b < 256 ->
  parses read_varint (bits_of 8 b) (mkVarInt (4 ^ (b / 32) * (b mod 32)) false) /\
  4 ^ (b / 32) * (b mod 32) <= varint_max.
Proof. exact varint_every_byte. Qed.
Print Assumptions C04_every_byte.

Theorem C04_reencode : forall r v r', reader_state r -> read_varint r = Ok (v, r') ->
  exists b, to_bytes (write_varint v) = Ok [b] /\ b < 256 /\ parses read_varint (bits_of 8 b) v.
Proof. exact varint_reencode_any. Qed.
Print Assumptions C04_reencode.

(** The byte may change: 0x20 (zero times four) is written back as 0x00. *)
Example C04_example :
  read_varint (mkRd [0x17; 0x20] 2 (bits_of 8 0x20) 8) = Ok (mkVarInt 0 false, mkRd [0x17; 0x20] 2 [] 16) /\
  to_bytes (write_varint (mkVarInt 0 false)) = Ok [0] /\
  read_varint (new_reader [0xFF]) = Ok (mkVarInt 507904 false, mkRd [0xFF] 1 [] 8).
Proof. repeat split. Qed.

(** C05 is false: an over-wide mantissa is reported as an over-wide exponent. *)
Theorem C05_decompress_refuted :
  ~ (forall e m, e < 256 -> m < 256 ->
     ((exists v, decompress e m = inl v) <-> e < 8 /\ m < 32) /\
     (8 <= e -> decompress e m = inr (ExponentTooLarge e)) /\
     (e < 8 -> 32 <= m -> decompress e m = inr (MantissaTooLarge m))).
Proof. exact decompress_refuted. Qed.
Print Assumptions C05_decompress_refuted.

(** What it does. *)
Theorem C05_decompress_exact : forall e m, e < 256 -> m < 256 ->
  ((exists v, decompress e m = inl v) <-> e < 8 /\ m < 32) /\
  (e < 8 -> m < 32 -> decompress e m = inl (4 ^ e * m)) /\
  (8 <= e -> decompress e m = inr (ExponentTooLarge e)) /\
  (e < 8 -> 32 <= m -> decompress e m = inr (ExponentTooLarge m)).
Proof. exact decompress_exact. Qed.
Print Assumptions C05_decompress_exact.

Example C05_example : decompress 3 17 = inl 1088 /\ decompress 8 17 = inr (ExponentTooLarge 8) /\
  decompress 3 32 = inr (ExponentTooLarge 32).
Proof. repeat split. Qed.
