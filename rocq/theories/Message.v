(** The texts inside the errors of VarInt and of texts that are not UTF-8. *)
From Coq Require Import List NArith ZArith Bool String.
From Verif Require Import Base Deku Utils Types Display Cli Debug.
Import ListNotations.
Open Scope string_scope.

(** A [DekuError] with its text. *)
Record failure := mkFailure { f_kind : derr; f_text : string }.

(** types.rs:17-42 Into<DekuError> for VarIntError. [^] is the exclusive or of two integers, not a
    power (lines 29 and 36). *)
Definition varint_failure (e : varint_error) : failure :=
  match e with
  | ValueTooLarge v =>
      mkFailure EInvalidParam ("VarInt: Value too large: " ++ show_N v ++ ". Max: " ++ show_N varint_max)
  | ExponentTooLarge v =>
      mkFailure EInvalidParam ("VarInt: Exponent too large " ++ show_N v ++ ". Max: " ++ show_N (N.lxor 2 3))
  | MantissaTooLarge v =>
      mkFailure EInvalidParam ("VarInt: Mantissa too large " ++ show_N v ++ ". Max: " ++ show_N (N.lxor 2 5))
  | UnknownError => mkFailure EParse "VarInt: Unknown error"
  end.

Definition failure_of {A} (x : A + varint_error) : option failure :=
  match x with inl _ => None | inr e => Some (varint_failure e) end.
(** The error of [VarInt::new], [VarInt::compress] and [VarInt::decompress] (types.rs:61-109) turned
    into a [DekuError]. *)
Definition new_failure (value : N) (ceil : bool) : option failure := failure_of (varint_new value ceil).
Definition compress_failure (value : N) (ceil : bool) : option failure := failure_of (compress value ceil).
Definition decompress_failure (exponent mantissa : N) : option failure := failure_of (decompress exponent mantissa).
(** types.rs:129-141 VarInt::write, line 139. *)
Definition write_varint_failure (v : varint) : option failure := compress_failure (vi_value v) (vi_ceil v).

(** core::str::from_utf8: where the input stops being UTF-8 ([valid_up_to]) and how many bytes are to
    be left out there ([error_len]; none if the input ends within a character). *)
Fixpoint utf8_error (idx : N) (l : list N) : option (N * option N) :=
  (match l with
  | [] => None
  | a :: l1 =>
      if a <? 0x80 then utf8_error (idx + 1) l1
      else if in_range 0xC2 0xDF a then
        match l1 with
        | [] => Some (idx, None)
        | b :: l2 => if cont b then utf8_error (idx + 2) l2 else Some (idx, Some 1)
        end
      else if in_range 0xE0 0xEF a then
        match l1 with
        | [] => Some (idx, None)
        | b :: l2 =>
            if ((a =? 0xE0) && in_range 0xA0 0xBF b) || (in_range 0xE1 0xEC a && cont b)
               || ((a =? 0xED) && in_range 0x80 0x9F b) || (in_range 0xEE 0xEF a && cont b)
            then match l2 with
                 | [] => Some (idx, None)
                 | c :: l3 => if cont c then utf8_error (idx + 3) l3 else Some (idx, Some 2)
                 end
            else Some (idx, Some 1)
        end
      else if in_range 0xF0 0xF4 a then
        match l1 with
        | [] => Some (idx, None)
        | b :: l2 =>
            if ((a =? 0xF0) && in_range 0x90 0xBF b) || (in_range 0xF1 0xF3 a && cont b)
               || ((a =? 0xF4) && in_range 0x80 0x8F b)
            then match l2 with
                 | [] => Some (idx, None)
                 | c :: l3 =>
                     if cont c then
                       match l3 with
                       | [] => Some (idx, None)
                       | d :: l4 => if cont d then utf8_error (idx + 4) l4 else Some (idx, Some 3)
                       end
                     else Some (idx, Some 2)
                 end
            else Some (idx, Some 1)
        end
      else Some (idx, Some 1)
  end)%N.

(** utils.rs:149-153: the error of [String::from_utf8], with [{:?}] (std::string::FromUtf8Error,
    core::str::Utf8Error). *)
Definition d_from_utf8_error (v : list N) (p : N) (k : option N) : dv :=
  DStruct "FromUtf8Error"
    [("bytes", d_bytes v);
     ("error", DStruct "Utf8Error" [("valid_up_to", d_n p); ("error_len", d_opt d_n k)])].
Definition string_failure (v : list N) (e : N * option N) : failure :=
  mkFailure EParse ("Could not parse bytes into string "
                    ++ show_dv (fun _ => true) (d_from_utf8_error v (fst e) (snd e))).
(** utils.rs:143-154 read_string: the error it makes itself. *)
Definition read_string_failure (n : nat) (r : rd) : option failure :=
  match read_list n read_u8 r with
  | Ok (v, _) => option_map (string_failure v) (utf8_error 0 v)
  | _ => None
  end.
