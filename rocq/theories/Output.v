(** Everything a parser or the command line tool writes to standard output: besides what the tool
    prints, the [println!] that dash7/src/utils.rs:76-79 runs whenever [from_bytes] has read a
    value. Debug.v says how values are written. *)
From Coq Require Import List NArith ZArith Bool String Ascii.
From Verif Require Import Base Deku Utils Types Physical Link Network Session Data Query
  Interface File Operation Action Command Frames Display Cli Debug.
Import ListNotations.
Open Scope string_scope.

(** The three types whose [from_bytes] is the one of utils.rs. *)
Inductive value := VAction (a : action) | VCommand (c : command) | VFile (f : file).

(** One [println!]: the value read, [bits_read] and the argument of [from_bytes] (utils.rs:76-79),
    or a result of the tool (dash7-cli/src/parse.rs:41, 47, 53, 63). *)
Inductive line :=
| LnRead (v : value) (bits : nat) (d : list N) (off : nat)
| LnShown (p : Cli.printed).

(** A call: what it writes and what it returns. *)
Definition io (A : Type) : Type := list line * res A.
Definition silent {A} (x : res A) : io A := ([], x).
Definition say (l : line) : io unit := ([l], Ok tt).
Definition io_bind {A B} (x : io A) (f : A -> io B) : io B :=
  match snd x with
  | Ok a => let y := f a in ((fst x ++ fst y)%list, snd y)
  | Err e => (fst x, Err e)
  | Panic => (fst x, Panic)
  end.

(** ** dash7 *)

(** utils.rs:63-82 from_bytes: the line is written after the value was read and before the rest is
    cut off. *)
Definition from_bytes_io {A} (v : A -> value) (m : reader A) (d : list N) (off : nat)
  : io ((list N * nat) * A) :=
  io_bind (silent (start m d off)) (fun x =>
    io_bind (say (LnRead (v (fst x)) (bread (snd x)) d off)) (fun _ =>
      silent (rbind (pad_rest (d, off) (bread (snd x))) (fun rest => Ok (rest, fst x))))).
(** app/action.rs:243-255 and app/command.rs:174-186: [TryFrom<&[u8]>] calls [from_bytes]. *)
Definition try_from_io {A} (v : A -> value) (m : reader A) (d : list N) : io A :=
  io_bind (from_bytes_io v m d 0) (fun x =>
    silent (match fst (fst x) with [] => Ok (snd x) | _ :: _ => Err ETooMuchData end)).

(** app/action.rs:243-268. *)
Definition action_from_bytes_io {E : Env} := from_bytes_io VAction read_action.
Definition action_try_from_io {E : Env} := try_from_io VAction read_action.
(** app/command.rs:72-74, 174-186. *)
Definition command_from_bytes_io {E : Env} := from_bytes_io VCommand (read_command 0).
Definition command_try_from_io {E : Env} := try_from_io VCommand (read_command 0).
(** file/mod.rs:215-221. *)
Definition file_from_bytes_io {E : Env} (d : list N) (off : nat) (id : file_id) (length : N) :=
  from_bytes_io VFile (read_file id length) d off.

(** ** dash7-cli/src/parse.rs *)

(** parse.rs:39-65. *)
Definition parse_foreground_frame_io {E : Env} (d : list N) : io unit :=
  io_bind (silent (fframe_try_from d)) (fun f => say (LnShown (PrFrame f))).
Definition parse_background_frame_io {E : Env} (d : list N) : io unit :=
  io_bind (silent (bframe_try_from d)) (fun f => say (LnShown (PrBackground f))).
Definition parse_alp_command_io {E : Env} (d : list N) : io unit :=
  io_bind (command_try_from_io d) (fun c => say (LnShown (PrCommand c))).
Definition parse_serial_io (d : list N) : io unit := silent (Err EAssertion).
Definition parse_file_io {E : Env} (d : list N) (id : file_id) : io unit :=
  io_bind (file_from_bytes_io d 0 id 0) (fun x => say (LnShown (PrFile (fst x) (snd x)))).

(** [if x.is_ok() { return Ok(()); } k]: what [x] wrote stays. *)
Definition or_else_io (x k : io unit) : io unit :=
  match snd x with
  | Err _ => ((fst x ++ fst k)%list, snd k)
  | _ => x
  end.
(** parse.rs:67-75 parse_any_file. *)
Fixpoint parse_any_file_io {E : Env} (d : list N) (ids : list N) : io unit :=
  match ids with
  | [] => silent (Ok tt)
  | i :: tl =>
      io_bind (silent (file_id_try_from i)) (fun id =>
        or_else_io (parse_file_io d id) (parse_any_file_io d tl))
  end.
(** parse.rs:77-95 parse_any. *)
Definition parse_any_io {E : Env} (d : list N) : io unit :=
  or_else_io (parse_foreground_frame_io d)
    (or_else_io (parse_background_frame_io d)
      (or_else_io (parse_alp_command_io d)
        (or_else_io (parse_serial_io d)
          (or_else_io (parse_any_file_io d all_file_ids) (silent (Err EParse)))))).
(** parse.rs:97-120 main. *)
Definition expect_io {A} (x : io A) : io A := (fst x, expect (snd x)).
Definition cli_io {E : Env} (t : option parse_type) (fid : option N) (hex : list N) : io unit :=
  match hex_decode (remove_whitespace hex) with
  | None => silent Panic
  | Some d =>
      match t with
      | Some PForeground => expect_io (parse_foreground_frame_io d)
      | Some PBackground => expect_io (parse_background_frame_io d)
      | Some PAlp => expect_io (parse_alp_command_io d)
      | Some PSerial => expect_io (parse_serial_io d)
      | Some PSystemfile =>
          match fid with
          | Some i => io_bind (silent (expect (file_id_try_from i))) (fun id => expect_io (parse_file_io d id))
          | None => expect_io (parse_any_file_io d all_file_ids)
          end
      | None => expect_io (parse_any_io d)
      end
  end.

(** ** The text *)

Definition d_value {E : Env} (v : value) : dv :=
  match v with VAction a => d_action a | VCommand c => d_command c | VFile f => d_file f end.
Definition line_text {E : Env} (plain : N -> bool) (l : line) : string :=
  match l with
  | LnRead v bits d off =>
      "value " ++ show_dv plain (d_value v) ++ ", reader.bits_read " ++ show_N (N.of_nat bits) ++ "  "
      ++ show_dv plain (DTuple "" [d_bytes d; d_n (N.of_nat off)]) ++ nl
  | LnShown p => printed_text plain p
  end.
Fixpoint stdout {E : Env} (plain : N -> bool) (l : list line) : string :=
  match l with [] => "" | x :: tl => line_text plain x ++ stdout plain tl end.
