(** Properties C90 and C91. *)
From Coq Require Import List NArith Bool String.
From Verif Require Import Base Deku Utils Types WellFormed Display Message SpecMessage LReader LMessage.
Import ListNotations.
Open Scope list_scope.
Open Scope N_scope.

(** C90: an error about a number that does not fit a variable length integer names the number and
    the largest one that would have been accepted. True of values. *)
Theorem C90_value : forall v ceil,
  (507904 < v -> exists t, names "VarInt: Value too large: " v 507904 t /\
    new_failure v ceil = Some (mkFailure EInvalidParam t) /\
    compress_failure v ceil = Some (mkFailure EInvalidParam t) /\
    write_varint_failure (mkVarInt v ceil) = Some (mkFailure EInvalidParam t)) /\
  largest (fun v => new_failure v ceil = None) 507904 /\ largest (fun v => compress_failure v ceil = None) 507904.
Proof. exact @value_both. Qed.
Print Assumptions C90_value.

(** The error that is modelled with its text is the one of the model without. *)
Theorem C90_kind : forall v, (forall f, write_varint_failure v = Some f -> write_varint v = Err (f_kind f)) /\
  (write_varint_failure v = None -> exists bs, write_varint v = Ok bs).
Proof. exact @write_failure_both. Qed.
Print Assumptions C90_kind.

(** False of exponents. *)
Theorem C90_refuted : ~ (forall e m f, e < 256 -> m < 32 -> decompress_failure e m = Some f ->
  exists what max, names what e max (f_text f) /\ largest (fun x => x < 256 /\ decompress_failure x m = None) max).
Proof. exact @wrong_limit. Qed.
Print Assumptions C90_refuted.

(** Exponents up to 7 and mantissas up to 31 are accepted; for all others, the text calls the
    number an exponent and gives 1 as the largest. *)
Theorem C90_exact : forall e m, e < 256 -> m < 256 ->
  ((8 <= e -> exists t, decompress_failure e m = Some (mkFailure EInvalidParam t) /\ names "VarInt: Exponent too large " e 1 t) /\
   (e < 8 -> 32 <= m -> exists t, decompress_failure e m = Some (mkFailure EInvalidParam t) /\ names "VarInt: Exponent too large " m 1 t) /\
   (e < 8 -> m < 32 -> decompress_failure e m = None)) /\
  (m < 32 -> largest (fun x => x < 256 /\ decompress_failure x m = None) 7) /\
  (e < 8 -> largest (fun x => x < 256 /\ decompress_failure e x = None) 31).
Proof. exact @decompress_all. Qed.
Print Assumptions C90_exact.

(** The text about mantissas names 7 as the largest, and is never given. *)
Theorem C90_mantissa : forall m,
  names "VarInt: Mantissa too large " m 7 (f_text (varint_failure (MantissaTooLarge m))) /\
  (forall x, decompress x m <> inr (MantissaTooLarge m)) /\ (forall v c, compress v c <> inr (MantissaTooLarge m)) /\
  (forall v c, varint_new v c <> inr (MantissaTooLarge m)).
Proof. exact @mantissa_message. Qed.
Print Assumptions C90_mantissa.

Example C90_example :
  new_failure 600000 false = Some (mkFailure EInvalidParam "VarInt: Value too large: 600000. Max: 507904") /\
  decompress_failure 9 5 = Some (mkFailure EInvalidParam "VarInt: Exponent too large 9. Max: 1") /\
  decompress_failure 7 5 = None /\
  decompress_failure 2 40 = Some (mkFailure EInvalidParam "VarInt: Exponent too large 40. Max: 1").
Proof. repeat split; reflexivity. Qed.

(** C91: a text that is not UTF-8 is reported with its bytes and the place where it stops being
    UTF-8. *)
Theorem C91_text : forall v t r, bytes v -> RWf r -> view r = bits_of_bytes v ++ t ->
  (is_utf8 v -> (exists r', read_string (List.length v) r = Ok (v, r')) /\ read_string_failure (List.length v) r = None) /\
  (~ is_utf8 v -> read_string (List.length v) r = Err EParse /\
    exists p k, stops_at v p k /\ read_string_failure (List.length v) r = Some (mkFailure EParse
      ("Could not parse bytes into string FromUtf8Error { bytes: [" ++ commas v
       ++ "], error: Utf8Error { valid_up_to: " ++ show_N (N.of_nat p) ++ ", error_len: " ++ optional k ++ " } }")%string)).
Proof. exact @text_message. Qed.
Print Assumptions C91_text.

(** There is only one such place. *)
Theorem C91_unique : forall v p k q j, stops_at v p k -> stops_at v q j -> p = q /\ k = j.
Proof. exact @stops_unique. Qed.
Print Assumptions C91_unique.

(** Six bytes of an application name: "ab", then a euro sign without its last byte, then "cd". *)
Example C91_example :
  read_string_failure 6 (new_reader [97; 98; 0xE2; 0x82; 99; 100]) =
    Some (mkFailure EParse "Could not parse bytes into string FromUtf8Error { bytes: [97, 98, 226, 130, 99, 100], error: Utf8Error { valid_up_to: 2, error_len: Some(2) } }") /\
  read_string_failure 4 (new_reader [97; 98; 0xE2; 0x82]) =
    Some (mkFailure EParse "Could not parse bytes into string FromUtf8Error { bytes: [97, 98, 226, 130], error: Utf8Error { valid_up_to: 2, error_len: None } }").
Proof. split; vm_compute; reflexivity. Qed.
