(** VarInt, Length, FileOffset. *)
From Coq Require Import List NArith ZArith Bool Lia.
From Verif Require Import Base Deku Utils.
Import ListNotations.
Open Scope N_scope.

(** types.rs:9-15 VarIntError. *)
Inductive varint_error :=
| ValueTooLarge (v : N) | ExponentTooLarge (v : N) | MantissaTooLarge (v : N) | UnknownError.

(** types.rs:17-42 Into<DekuError> for VarIntError. *)
Definition varint_err (e : varint_error) : derr :=
  match e with
  | ValueTooLarge _ | ExponentTooLarge _ | MantissaTooLarge _ => EInvalidParam
  | UnknownError => EParse
  end.

(** types.rs:47-56 VarInt. *)
Record varint := mkVarInt { vi_value : N; vi_ceil : bool }.

(** types.rs:59 VarInt::MAX. *)
Definition varint_max : N := 507904.

(** types.rs:113-115 is_valid. *)
Definition varint_is_valid (n : N) : bool := n <=? varint_max.

(** types.rs:61-67 VarInt::new. *)
Definition varint_new (value : N) (ceil : bool) : varint + varint_error :=
  if negb (varint_is_valid value) then inr (ValueTooLarge value)
  else inl (mkVarInt value ceil).

(** types.rs:69-71 new_unchecked; types.rs:150-154 From<u32>; types.rs:144-148 Into<u32>. *)
Definition varint_new_unchecked (value : N) (ceil : bool) : varint := mkVarInt value ceil.
Definition varint_of_u32 (value : N) : varint := mkVarInt value false.
Definition u32_of_varint (v : varint) : N := vi_value v.

(** types.rs:73-83 decompress. *)
Definition decompress (exponent mantissa : N) : N + varint_error :=
  if 0 <? N.land exponent 248 then inr (ExponentTooLarge exponent)
  else if 0 <? N.land mantissa 224 then inr (ExponentTooLarge mantissa)
  else inl (4 ^ exponent * mantissa).

(** types.rs:93-105: one pass of the loop of [compress] for each [i] of the list. *)
Fixpoint compress_loop (value : N) (ceil : bool) (is : list N) : (N * N) + varint_error :=
  match is with
  | [] => inr UnknownError
  | i :: tl =>
      let exp := 4 ^ i in
      if value <=? exp * 31 then
        let mantissa := value / exp in
        let remainder := value mod exp in
        inl (i, if ceil && (0 <? remainder) then mantissa + 1 else mantissa)
      else compress_loop value ceil tl
  end.

(** types.rs:85-109 compress. The [as u8] casts of line 103 never truncate (lemma
    [compress_small]). *)
Definition compress (value : N) (ceil : bool) : (N * N) + varint_error :=
  if negb (varint_is_valid value) then inr (ValueTooLarge value)
  else compress_loop value ceil [0; 1; 2; 3; 4; 5; 6; 7].

(** types.rs:117-127 VarInt::read; the [ceil] field is skipped with default false (line 54). *)
Definition read_varint : reader varint :=
  exponent <- read_uint 3 ;;
  mantissa <- read_uint 5 ;;
  match decompress exponent mantissa with
  | inl v => ret (mkVarInt v false)
  | inr e => fail (varint_err e)
  end.

(** types.rs:129-141 VarInt::write. *)
Definition write_varint (v : varint) : writer :=
  match compress (vi_value v) (vi_ceil v) with
  | inl (exponent, mantissa) => write_uint 3 exponent +++ write_uint 5 mantissa
  | inr e => Err (varint_err e)
  end.

(** app/operation/length.rs:41-44 required_bits: [checked_ilog2().unwrap_or(0) + 1]. *)
Definition required_bits (value : N) : N := N.log2 value + 1.

(** app/operation/length.rs:46-57 Length::read. A Length is represented by its number. *)
Definition read_length : reader N :=
  size <- read_uint 2 ;;
  read_uint (N.to_nat (6 + size * 8)).

(** app/operation/length.rs:63-68: number of extra bytes. *)
Definition num_extra_bytes (value : N) : N :=
  let num_extra_bits := required_bits value - 6 in
  let q := num_extra_bits / 8 in
  if 0 <? num_extra_bits mod 8 then q + 1 else q.

(** app/operation/length.rs:59-81 Length::write. *)
Definition write_length (value : N) : writer :=
  let k := num_extra_bytes value in
  write_bitsize 32 2 k +++ write_bitsize 32 (N.to_nat (6 + k * 8)) value.

(** app/operation/length.rs:34-38 From<usize>: [as u32]. *)
Definition length_of_usize (n : nat) : N := N.of_nat n mod 2 ^ 32.

(** app/operation/file_offset.rs:7-10 FileOffset. *)
Record file_offset := mkFileOffset { fo_file_id : N; fo_offset : N }.
Definition read_file_offset : reader file_offset :=
  f <- read_u8 ;; o <- read_length ;; ret (mkFileOffset f o).
Definition write_file_offset (v : file_offset) : writer :=
  write_u8 (fo_file_id v) +++ write_length (fo_offset v).

(** utils.rs:84-108 write_length_prefixed and utils.rs:110-140 write_length_prefixed_ext,
    app/interface_final.rs:18-38 write_length_prefixed: the item into a buffer, the length of
    the buffer, the buffer. An error of [finalize] is dropped; finalize of a memory buffer does
    not fail. *)
Definition write_length_prefixed (item : writer) : writer :=
  rbind (to_bytes item) (fun buf =>
    write_length (length_of_usize (length buf)) +++ write_buf buf).
