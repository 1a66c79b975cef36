(** The part of the deku 0.18 runtime and of its derive macros that the crate relies on.

    deku is an external crate whose source is not in /repo; this file is the assumed behaviour
    (listed item by item in DESIGN.md, section "Trusted base"). Its uses in /repo are cited at
    each definition. *)
From Coq Require Import List NArith ZArith Bool Lia.
From Verif Require Import Base.
Import ListNotations.
Open Scope N_scope.

(** ** Build configuration

    [e_feat]: exactly one of the cargo features [_spec], [_subiot], [_wizzilab]
    (dash7/src/lib.rs:27).
    [e_host]: byte order of the machine; deku's default for fields without an [endian]
    attribute.
    [e_rewind]: how deku treats the id of an [id_pat] variant: [true] puts the id back into the
    stream before the fields of the variant are read, [false] hands the already read id to the
    first field. The two differ for variants without fields (dash7/src/session/mod.rs:32). Not
    knowing which one the pinned deku does, every theorem holds for both. *)
Inductive feature := Spec | Subiot | Wizzilab.
Inductive endian := Little | Big.

Class Env := { e_feat : feature; e_host : endian; e_rewind : bool }.

Definition is_wizzilab {E : Env} : bool :=
  match e_feat with Wizzilab => true | _ => false end.
Definition is_subiot {E : Env} : bool :=
  match e_feat with Subiot => true | _ => false end.

(** ** Reader

    deku::reader::Reader: the inner stream ([data], position [pos] in bytes), the bits already
    taken from the stream but not yet handed out ([left]) and the running total [bread]
    ([Reader::bits_read], used at dash7/src/utils.rs:60, 81). *)
Record rd := mkRd { data : list N; pos : nat; left : list bool; bread : nat }.

Definition new_reader (d : list N) : rd := mkRd d 0 [] 0.

Definition reader (A : Type) := rd -> res (A * rd).

Definition ret {A} (a : A) : reader A := fun r => Ok (a, r).
Definition fail {A} (e : derr) : reader A := fun _ => Err e.
Definition bind {A B} (m : reader A) (f : A -> reader B) : reader B :=
  fun r => match m r with
           | Ok (a, r') => f a r'
           | Err e => Err e
           | Panic => Panic
           end.
Notation "x <- m ;; k" := (bind m (fun x => k))
  (at level 61, m at next level, right associativity).
Notation "m ;;; k" := (bind m (fun _ => k)) (at level 61, right associativity).

(** Number of fresh bytes needed to hand out [n] bits. *)
Definition need (r : rd) (n : nat) : nat := Nat.div (n - length (left r) + 7) 8.

(** State after [n] bits were handed out. *)
Definition adv (r : rd) (n : nat) : rd :=
  let k := need r n in
  let all := left r ++ bits_of_bytes (firstn k (skipn (pos r) (data r))) in
  mkRd (data r) (pos r + k) (skipn n all) (bread r + n).

(** Reader::read_bits / read_bytes: leftover bits first, then fresh bytes; [Incomplete] if the
    stream has too few. *)
Definition read_bits (n : nat) : reader (list bool) := fun r =>
  let k := need r n in
  if Nat.leb (pos r + k) (length (data r)) then
    let all := left r ++ bits_of_bytes (firstn k (skipn (pos r) (data r))) in
    Ok (firstn n all, adv r n)
  else Err EIncomplete.

(** Reader::skip_bits: reads and discards (dash7/src/utils.rs:57, 73; action.rs:165; every
    [pad_bits_before]/[pad_bits_after]). *)
Definition skip_bits (n : nat) : reader unit := _ <- read_bits n ;; ret tt.

(** Unsigned integer of [n] bits, big-endian ([endian = "big"], or at most 8 bits). *)
Definition read_uint (n : nat) : reader N := l <- read_bits n ;; ret (N_of_bits l).

Definition read_u8 : reader N := read_uint 8.
Definition read_u16be : reader N := read_uint 16.
Definition read_u32be : reader N := read_uint 32.
Definition read_u64be : reader N := read_uint 64.

(** bool with [bits = 1]. *)
Definition read_bool : reader bool := x <- read_uint 1 ;; ret (negb (x =? 0)).

(** Unsigned integer of [k] bytes without [endian] attribute: host byte order. *)
Definition of_host {E : Env} (l : list N) : N :=
  match e_host with Little => N_of_le l | Big => N_of_be l end.
Definition read_native {E : Env} (k : nat) : reader N :=
  l <- read_bits (8 * k) ;; ret (of_host (bytes_of_bits l)).

(** i8: two's complement. *)
Definition i8_of_u8 (n : N) : Z := if n <? 128 then Z.of_N n else (Z.of_N n - 256)%Z.
Definition u8_of_i8 (z : Z) : N := Z.to_N (z mod 256)%Z.
Definition read_i8 : reader Z := x <- read_u8 ;; ret (i8_of_u8 x).

(** Reading [n] items one after the other ([count = "n"] on a [Vec], [[T; n]]). *)
Fixpoint read_list {A} (n : nat) (m : reader A) : reader (list A) :=
  match n with
  | O => ret []
  | S k => x <- m ;; xs <- read_list k m ;; ret (x :: xs)
  end.

(** Bits not handed out yet. *)
Definition view (r : rd) : list bool := left r ++ bits_of_bytes (skipn (pos r) (data r)).

(** [Vec<u8>] with [count = "n"]. The test against the remaining input only keeps [n] from being
    turned into a unary number when it cannot be satisfied; [read_vec_u8_unguarded] shows that
    it changes nothing. Allocation of the [Vec] is not modelled. *)
Definition read_vec_u8 (n : N) : reader (list N) := fun r =>
  if N.leb (8 * n) (N.of_nat (length (view r))) then read_list (N.to_nat n) read_u8 r
  else Err EIncomplete.

(** [Option] or [Vec] with [cond]: the default when the condition is false. *)
Definition read_cond {A} (c : bool) (m : reader A) : reader (option A) :=
  if c then x <- m ;; ret (Some x) else ret None.

(** Enum whose id is an integer of [n] bits read from the stream. [DekuError::Parse] if no
    variant has that id. *)
Definition read_enum {A} (n : nat) (of_id : N -> option A) : reader A :=
  x <- read_uint n ;;
  match of_id x with Some v => ret v | None => fail EParse end.

(** Reader::end: true iff nothing is left; otherwise it may take one byte from the stream into
    the leftover, which does not count as read (dash7/src/app/command.rs:53). *)
Definition at_end : reader bool := fun r =>
  match left r with
  | _ :: _ => Ok (false, r)
  | [] =>
      match nth_error (data r) (pos r) with
      | Some b => Ok (false, mkRd (data r) (S (pos r)) (bits_of 8 b) (bread r))
      | None => Ok (true, r)
      end
  end.

(** Seek for Reader, relative, one byte back (dash7/src/app/action.rs:171): forgets the leftover
    and moves the inner stream; [bits_read] stays. Seeking before the start is an error that the
    caller ignores. *)
Definition seek_back1 : reader unit := fun r =>
  match pos r with
  | O => Ok (tt, mkRd (data r) O [] (bread r))
  | S p => Ok (tt, mkRd (data r) p [] (bread r))
  end.

(** Seek::stream_position, i.e. seek(Current(0)): also forgets the leftover
    (dash7/src/app/command.rs:46). *)
Definition stream_position : reader nat := fun r =>
  Ok (pos r, mkRd (data r) (pos r) [] (bread r)).

(** Reader::seek_last_read after an 8-bit id: like one byte back, and [bits_read] is put back. *)
Definition seek_last_read8 : reader unit := fun r =>
  match pos r with
  | O => Err EIo
  | S p => Ok (tt, mkRd (data r) p [] (bread r - 8))
  end.

(** First field, of type u8, of an [id_pat] variant whose 8-bit id was just read. *)
Definition read_id_field {E : Env} (id : N) : reader N :=
  if e_rewind then seek_last_read8 ;;; read_u8 else ret id.

(** [id_pat] variant without fields whose 8-bit id was just read. *)
Definition read_id_unit {E : Env} : reader unit :=
  if e_rewind then seek_last_read8 else ret tt.

(** ** Writer

    deku::writer::Writer only ever appends, so a writer is the bit string it appends. *)
Definition writer := res (list bool).

Definition wnil : writer := Ok [].
Definition wseq (a b : writer) : writer :=
  rbind a (fun x => rbind b (fun y => Ok (x ++ y))).
Infix "+++" := wseq (at level 60, right associativity).

(** u* with [BitSize n] out of a [w]-bit type: an error if [n] exceeds the type, otherwise the
    low [n] bits; higher bits are dropped silently. *)
Definition write_bitsize (w n : nat) (v : N) : writer :=
  if Nat.ltb w n then Err EInvalidParam else Ok (bits_of n v).

(** The same where [n] never exceeds the type. *)
Definition write_uint (n : nat) (v : N) : writer := Ok (bits_of n v).
Definition write_u8 := write_uint 8.
Definition write_u16be := write_uint 16.
Definition write_u32be := write_uint 32.
Definition write_u64be := write_uint 64.
Definition write_bool (b : bool) : writer := Ok [b].
Definition write_pad (n : nat) : writer := Ok (repeat false n).
Definition to_host {E : Env} (k : nat) (v : N) : list N :=
  match e_host with Little => le_bytes k v | Big => be_bytes k v end.
Definition write_native {E : Env} (k : nat) (v : N) : writer :=
  Ok (bits_of_bytes (to_host k v)).
Definition write_i8 (z : Z) : writer := write_u8 (u8_of_i8 z).

Fixpoint write_list {A} (w : A -> writer) (l : list A) : writer :=
  match l with
  | [] => wnil
  | x :: xs => w x +++ write_list w xs
  end.
Definition write_vec_u8 (l : list N) : writer := write_list write_u8 l.
Definition write_opt {A} (w : A -> writer) (o : option A) : writer :=
  match o with Some x => w x | None => wnil end.

(** DekuContainerWrite::to_bytes: write, then [finalize]. *)
Definition to_bytes (w : writer) : res (list N) := rbind w (fun b => Ok (bytes_of_bits b)).

(** ** Derived containers *)

(** What every entry point does first: a fresh reader, [off] bits skipped. *)
Definition start {A} (m : reader A) (d : list N) (off : nat) : res (A * rd) :=
  (if Nat.eqb off 0 then m else skip_bits off ;;; m) (new_reader d).

(** Derived DekuContainerRead::from_reader: number of bits read and value. *)
Definition d_from_reader {A} (m : reader A) (d : list N) (off : nat) : res (nat * A) :=
  rbind (start m d off) (fun x => Ok (bread (snd x), fst x)).

(** Derived DekuContainerRead::from_bytes: the remaining slice is cut at [bits_read / 8]; a
    slice index past the end panics. *)
Definition d_from_bytes {A} (m : reader A) (d : list N) (off : nat)
  : res ((list N * nat) * A) :=
  rbind (start m d off) (fun x =>
    let n := bread (snd x) in
    let idx := Nat.div n 8 in
    if Nat.leb idx (length d) then Ok ((skipn idx d, Nat.modulo n 8), fst x) else Panic).

(** Derived TryFrom<&[u8]>: whole input, or "Too much data". *)
Definition d_try_from {A} (m : reader A) (d : list N) : res A :=
  rbind (d_from_reader m d 0) (fun x =>
    if Nat.eqb (Nat.div (fst x) 8) (length d) then Ok (snd x) else Err ETooMuchData).
