(** What should be on standard output (C70, C71). *)
From Coq Require Import List NArith ZArith Bool String Ascii.
From Verif Require Import Base Deku Utils Types Physical Link Network Session Data Query
  Interface File Operation Action Command Frames Cli Display Debug Output SpecDebug.
Import ListNotations.
Open Scope nat_scope.

(** The line the library writes, if a value was read: [x] is what [from_reader], which writes
    nothing, returns for the same input. *)
Definition written {A} (v : A -> value) (x : res (nat * A)) (d : list N) (off : nat) : list line :=
  match x with Ok (n, a) => [LnRead (v a) n d off] | _ => [] end.

(** The results among the lines. *)
Fixpoint results (l : list line) : list Cli.printed :=
  match l with [] => [] | LnShown p :: tl => p :: results tl | LnRead _ _ _ _ :: tl => results tl end.

(** What a run of the tool with the bytes [d] writes. *)
Definition frame_lines {E : Env} (d : list N) : list line :=
  match fframe_try_from d with Ok f => [LnShown (PrFrame f)] | _ => [] end.
Definition background_lines {E : Env} (d : list N) : list line :=
  match bframe_try_from d with Ok f => [LnShown (PrBackground f)] | _ => [] end.
Definition command_lines {E : Env} (d : list N) : list line :=
  (written VCommand (command_from_reader d 0) d 0
  ++ match command_try_from d with Ok c => [LnShown (PrCommand c)] | _ => [] end)%list.
Definition file_lines {E : Env} (i : N) (d : list N) : list line :=
  match file_id_try_from i with
  | Ok id =>
      (written VFile (d_from_reader (read_file id 0) d 0) d 0
      ++ match file_from_bytes d 0 id 0 with Ok (rest, f) => [LnShown (PrFile rest f)] | _ => [] end)%list
  | _ => []
  end.
(** Without a file id: a UID if there are eight bytes, an unknown file of length 0 otherwise. *)
Definition any_file_lines (d : list N) : list line :=
  if 8 <=? List.length d then
    let f := FUId (UId (N_of_be (firstn 8 d))) in [LnRead (VFile f) 64 d 0; LnShown (PrFile (skipn 8 d, 0) f)]
  else [LnRead (VFile (FOther [])) 0 d 0; LnShown (PrFile (d, 0) (FOther []))].
(** Without a type: the first kind that gives a result; a command that was read and then refused
    because of the bytes behind it leaves its line. *)
Definition any_lines {E : Env} (d : list N) : list line :=
  match results (frame_lines d), results (background_lines d), results (command_lines d) with
  | _ :: _, _, _ => frame_lines d
  | _, _ :: _, _ => background_lines d
  | _, _, _ :: _ => command_lines d
  | _, _, [] => (command_lines d ++ any_file_lines d)%list
  end.
Definition tool_lines {E : Env} (t : option parse_type) (fid : option N) (d : list N) : list line :=
  match t, fid with
  | Some PForeground, _ => frame_lines d
  | Some PBackground, _ => background_lines d
  | Some PAlp, _ => command_lines d
  | Some PSerial, _ => []
  | Some PSystemfile, Some i => file_lines i d
  | Some PSystemfile, None => any_file_lines d
  | None, _ => any_lines d
  end.

(** Frames and files are shown on one line. *)
Definition one_line_result (p : Cli.printed) : bool :=
  match p with PrCommand _ => false | _ => true end.
Definition is_frame (p : Cli.printed) : bool :=
  match p with PrFrame _ | PrBackground _ => true | _ => false end.
