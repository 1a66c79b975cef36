(** dash7/src/utils.rs: the crate's own entry points for hand-written readers. *)
From Coq Require Import List NArith ZArith Bool Lia.
From Verif Require Import Base Deku.
Import ListNotations.
Open Scope N_scope.

(** utils.rs:33-45 pad_rest. [rest] is the whole input slice and the bit offset parsing started
    at. Slicing past the end panics (line 44). *)
Definition pad_rest (rest : list N * nat) (bits_read : nat) : res (list N * nat) :=
  if Nat.leb (length (fst rest) * 8 + snd rest) bits_read then
    Ok ([], Nat.modulo bits_read 8)
  else
    let idx := if Nat.eqb (Nat.modulo bits_read 8) 0 then Nat.div bits_read 8
               else Nat.div (bits_read - Nat.modulo bits_read 8) 8 in
    if Nat.leb idx (length (fst rest)) then
      Ok (skipn idx (fst rest), Nat.modulo bits_read 8)
    else Panic.

(** utils.rs:47-61 from_reader. *)
Definition u_from_reader {A} (m : reader A) (d : list N) (off : nat) : res (nat * A) :=
  rbind (start m d off) (fun x => Ok (bread (snd x), fst x)).

(** utils.rs:63-82 from_bytes. The [println!] of lines 76-79 is in Output.v. *)
Definition u_from_bytes {A} (m : reader A) (d : list N) (off : nat)
  : res ((list N * nat) * A) :=
  rbind (start m d off) (fun x =>
    rbind (pad_rest (d, off) (bread (snd x))) (fun rest => Ok (rest, fst x))).

(** The [TryFrom<&[u8]>] of Action (app/action.rs:243-255) and Command
    (app/command.rs:174-186): from_bytes at offset 0, then the remaining slice must be empty. *)
Definition u_try_from {A} (m : reader A) (d : list N) : res A :=
  rbind (u_from_bytes m d 0) (fun x =>
    match fst (fst x) with
    | [] => Ok (snd x)
    | _ :: _ => Err ETooMuchData
    end).

(** [out_buf.to_writer(writer, ())] of a byte buffer. *)
Definition write_buf (l : list N) : writer := write_vec_u8 l.

(** UTF-8 well-formedness as decided by [String::from_utf8] (utils.rs:149): a sequence of
    1 to 4 byte groups. Transcribed from the byte-range table of the Unicode standard that the
    standard library implements. *)
Definition in_range (lo hi b : N) : bool := (lo <=? b) && (b <=? hi).
Definition cont (b : N) : bool := in_range 0x80 0xBF b.

Fixpoint utf8_valid (l : list N) : bool :=
  match l with
  | [] => true
  | a :: l1 =>
      if a <? 0x80 then utf8_valid l1
      else match l1 with
      | [] => false
      | b :: l2 =>
          if in_range 0xC2 0xDF a then cont b && utf8_valid l2
          else match l2 with
          | [] => false
          | c :: l3 =>
              if ((a =? 0xE0) && in_range 0xA0 0xBF b)
                 || (in_range 0xE1 0xEC a && cont b)
                 || ((a =? 0xED) && in_range 0x80 0x9F b)
                 || (in_range 0xEE 0xEF a && cont b)
              then cont c && utf8_valid l3
              else match l3 with
              | [] => false
              | d :: l4 =>
                  (((a =? 0xF0) && in_range 0x90 0xBF b)
                   || (in_range 0xF1 0xF3 a && cont b)
                   || ((a =? 0xF4) && in_range 0x80 0x8F b))
                  && cont c && cont d && utf8_valid l4
              end
          end
      end
  end.

(** A Rust [String] is represented by its UTF-8 bytes. *)
Definition rstring := list N.

(** utils.rs:143-154 read_string::<_, N>. *)
Definition read_string (n : nat) : reader rstring :=
  v <- read_list n read_u8 ;;
  if utf8_valid v then ret v else fail EParse.

(** utils.rs:157-167 write_string::<_, N>: an N byte buffer of zeros, overwritten with the first
    min(len, N) bytes. *)
Definition write_string (n : nat) (value : rstring) : writer :=
  let max_index := Nat.min (length value) n in
  write_vec_u8 (firstn max_index value ++ repeat 0 (n - max_index)).

(** utils.rs:169-199 read_array, its effect on the stream and its result. The memory effect of
    the drop guard is modelled in ReadArray.v. *)
Definition read_array {A} (n : nat) (m : reader A) : reader (list A) := read_list n m.

(** utils.rs:201-213 write_array. *)
Definition write_array {A} (w : A -> writer) (l : list A) : writer := write_list w l.
