(** dash7-cli/src/parse.rs. Command line argument parsing (clap) is not modelled: the arguments
    are the three fields of ParseArgs. What is printed is the list of values handed to
    [println!]; Output.v adds the lines of the library. *)
From Coq Require Import List NArith ZArith Bool Lia.
From Verif Require Import Base Deku Utils Types Physical Link Network Session Data Query
  Interface File Operation Action Command Frames.
Import ListNotations.
Open Scope N_scope.

(** parse.rs:9-21 ParseType. *)
Inductive parse_type := PForeground | PBackground | PAlp | PSerial | PSystemfile.

(** A value printed on success. *)
Inductive printed :=
| PrFrame (f : fframe) | PrBackground (f : bframe) | PrCommand (c : command)
| PrFile (rest : list N * nat) (f : file).

(** parse.rs:35-37 remove_whitespace. A string is its list of Unicode scalar values;
    [char::is_whitespace] is the Unicode White_Space property. *)
Definition is_whitespace (c : N) : bool :=
  in_range 0x09 0x0D c || (c =? 0x20) || (c =? 0x85) || (c =? 0xA0) || (c =? 0x1680)
  || in_range 0x2000 0x200A c || (c =? 0x2028) || (c =? 0x2029) || (c =? 0x202F)
  || (c =? 0x205F) || (c =? 0x3000).
Definition remove_whitespace (s : list N) : list N := filter (fun c => negb (is_whitespace c)) s.

(** hex::decode (crate hex 0.4), used at parse.rs:98: the string's UTF-8 bytes, an even number
    of them, each pair two hex digits of either case. *)
Definition hex_val (c : N) : option N :=
  if in_range 0x30 0x39 c then Some (c - 0x30)
  else if in_range 0x41 0x46 c then Some (c - 0x41 + 10)
  else if in_range 0x61 0x66 c then Some (c - 0x61 + 10)
  else None.
Fixpoint hex_pairs (l : list N) : option (list N) :=
  match l with
  | [] => Some []
  | a :: b :: tl =>
      match hex_val a, hex_val b, hex_pairs tl with
      | Some x, Some y, Some r => Some (16 * x + y :: r)
      | _, _, _ => None
      end
  | [_] => None
  end.
(** UTF-8 encoding of one scalar value. *)
Definition utf8_encode1 (c : N) : list N :=
  if c <? 0x80 then [c]
  else if c <? 0x800 then [0xC0 + c / 64; 0x80 + c mod 64]
  else if c <? 0x10000 then [0xE0 + c / 4096; 0x80 + (c / 64) mod 64; 0x80 + c mod 64]
  else [0xF0 + c / 262144; 0x80 + (c / 4096) mod 64; 0x80 + (c / 64) mod 64; 0x80 + c mod 64].
Definition hex_decode (s : list N) : option (list N) := hex_pairs (flat_map utf8_encode1 s).

(** parse.rs:39-65: one parser per kind; the result is what gets printed. *)
Definition parse_foreground_frame {E : Env} (d : list N) : res printed :=
  rbind (fframe_try_from d) (fun f => Ok (PrFrame f)).
Definition parse_background_frame {E : Env} (d : list N) : res printed :=
  rbind (bframe_try_from d) (fun f => Ok (PrBackground f)).
Definition parse_alp_command {E : Env} (d : list N) : res printed :=
  rbind (command_try_from d) (fun c => Ok (PrCommand c)).
Definition parse_serial (d : list N) : res printed := Err EAssertion.
Definition parse_file {E : Env} (d : list N) (id : file_id) : res printed :=
  rbind (file_from_bytes d 0 id 0) (fun x => Ok (PrFile (fst x) (snd x))).

(** A panic anywhere ends the program; [is_ok()] discards an error. *)
Definition or_else (x : res printed) (k : res (list printed)) : res (list printed) :=
  match x with
  | Ok p => Ok [p]
  | Err _ => k
  | Panic => Panic
  end.

(** parse.rs:67-75 parse_any_file: the first id that parses, [Ok] in any case. *)
Fixpoint parse_any_file_loop {E : Env} (d : list N) (ids : list N) : res (list printed) :=
  match ids with
  | [] => Ok []
  | i :: tl =>
      match file_id_try_from i with
      | Ok id => or_else (parse_file d id) (parse_any_file_loop d tl)
      | Err e => Err e
      | Panic => Panic
      end
  end.
(** [0..=0x2Eu8] *)
Definition all_file_ids : list N := map N.of_nat (seq 0 47).
Definition parse_any_file {E : Env} (d : list N) : res (list printed) :=
  parse_any_file_loop d all_file_ids.

(** parse.rs:77-95 parse_any. *)
Definition parse_any {E : Env} (d : list N) : res (list printed) :=
  or_else (parse_foreground_frame d)
    (or_else (parse_background_frame d)
      (or_else (parse_alp_command d)
        (or_else (parse_serial d)
          (match parse_any_file d with
           | Ok l => Ok l
           | Err _ => Err EParse
           | Panic => Panic
           end)))).

(** parse.rs:97-120 main: [expect] turns every error into a panic (a failing exit). *)
Definition expect {A} (x : res A) : res A :=
  match x with Ok a => Ok a | _ => Panic end.
Definition single (x : res printed) : res (list printed) := rbind x (fun p => Ok [p]).
Definition cli_main {E : Env} (t : option parse_type) (fid : option N) (hex : list N)
  : res (list printed) :=
  match hex_decode (remove_whitespace hex) with
  | None => Panic
  | Some d =>
      match t with
      | Some PForeground => expect (single (parse_foreground_frame d))
      | Some PBackground => expect (single (parse_background_frame d))
      | Some PAlp => expect (single (parse_alp_command d))
      | Some PSerial => expect (single (parse_serial d))
      | Some PSystemfile =>
          match fid with
          | Some i => rbind (expect (file_id_try_from i)) (fun id => expect (single (parse_file d id)))
          | None => expect (parse_any_file d)
          end
      | None => expect (parse_any d)
      end
  end.
