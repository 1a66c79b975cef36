(** C70 and C71: what is written to standard output. *)
From Coq Require Import List NArith ZArith Bool String Ascii.
From Verif Require Import Base Deku Utils Types Physical Link Network Session Data Query
  Interface File Operation Action Command Display Frames Cli Debug Output SpecApi SpecAccess SpecErr SpecDebug SpecCli
  SpecOutput LOutput.
Import ListNotations.
Open Scope string_scope.

(** A file is not shown on one line, *)
Theorem C70_one_line_refuted : forall (E : Env) (plain : N -> bool),
  ~ (forall t fid a p, cli_main t fid a = Ok [p] -> one_line_result p = true ->
     exists s, stdout plain (fst (cli_io t fid a)) = s ++ nl /\ one_line s).
Proof. exact @one_line_refuted. Qed.
Print Assumptions C70_one_line_refuted.

(** and the same command is not always shown in the same way. *)
Theorem C70_same_result_refuted : forall (E : Env) (plain : N -> bool),
  ~ (forall t fid a b l, cli_main t fid a = Ok l -> cli_main t fid b = Ok l ->
     stdout plain (fst (cli_io t fid a)) = stdout plain (fst (cli_io t fid b))).
Proof. exact @same_results_refuted. Qed.
Print Assumptions C70_same_result_refuted.

(** The output of a run that parses something is one line exactly if that is a frame. *)
Theorem C70_one_line_exact : forall (E : Env) (plain : N -> bool) (t : option parse_type) (fid : option N) (a : list N)
    (p : Cli.printed),
  (forall i, fid = Some i -> (i < 256)%N) -> cli_main t fid a = Ok [p] ->
  ((exists s, stdout plain (fst (cli_io t fid a)) = s ++ nl /\ one_line s) <-> is_frame p = true).
Proof. exact @one_line_exact. Qed.
Print Assumptions C70_one_line_exact.

(** Exactly these lines are written, *)
Theorem C70_lines_exact : forall (E : Env) (t : option parse_type) (fid : option N) (s bs : list N),
  spells s bs -> fst (cli_io t fid s) = tool_lines t fid bs.
Proof. exact @tool_lines_exact. Qed.
Print Assumptions C70_lines_exact.

(** nothing at all if the text is not hexadecimal, *)
Theorem C70_no_input : forall (E : Env) (t : option parse_type) (fid : option N) (s : list N),
  (forall bs, ~ spells s bs) -> cli_io t fid s = ([], Panic).
Proof. exact @not_spelled. Qed.
Print Assumptions C70_no_input.

(** and the results among the lines are those of C39 and C40. *)
Theorem C70_results : forall (E : Env) (t : option parse_type) (fid : option N) (s : list N),
  cli_main t fid s =
  match snd (cli_io t fid s) with Ok _ => Ok (results (fst (cli_io t fid s))) | Err e => Err e | Panic => Panic end.
Proof. exact @cli_agrees. Qed.
Print Assumptions C70_results.

(** Two runs, whatever their options and whether or not they succeed, print the same text exactly
    if all their lines are the same, *)
Theorem C70_tool_output : forall (E : Env) (plain : N -> bool) (t : option parse_type) (fid : option N) (a : list N)
    (t' : option parse_type) (fid' : option N) (b : list N),
  (forall i, fid = Some i -> (i < 256)%N) -> (forall i, fid' = Some i -> (i < 256)%N) ->
  stdout plain (fst (cli_io t fid a)) = stdout plain (fst (cli_io t' fid' b))
  <-> fst (cli_io t fid a) = fst (cli_io t' fid' b).
Proof. exact @run_same. Qed.
Print Assumptions C70_tool_output.

(** and only for the same input if one of them has a line of the library. *)
Theorem C70_input : forall (E : Env) (plain : N -> bool) (t : option parse_type) (fid : option N) (a bs : list N)
    (t' : option parse_type) (fid' : option N) (b bs' : list N) (v : value) (n : nat) (x : list N) (off : nat),
  (forall i, fid = Some i -> (i < 256)%N) -> (forall i, fid' = Some i -> (i < 256)%N) ->
  spells a bs -> spells b bs' -> In (LnRead v n x off) (fst (cli_io t fid a)) ->
  stdout plain (fst (cli_io t fid a)) = stdout plain (fst (cli_io t' fid' b)) -> bs = bs'.
Proof. exact @run_input. Qed.
Print Assumptions C70_input.

(** Whatever comes in, no control character but line feed and tab goes out. *)
Theorem C70_tool_output_plain : forall (E : Env) (plain : N -> bool) (t : option parse_type) (fid : option N) (a : list N),
  (forall i, fid = Some i -> (i < 256)%N) -> plain_text (stdout plain (fst (cli_io t fid a))).
Proof. exact @run_plain. Qed.
Print Assumptions C70_tool_output_plain.

(** "010203040506" as a background frame, on either kind of host; "3E" as anything and as a
    command; "33D700" as anything: a command is read, refused for the byte behind it, and its line
    stays in front of that of the file. *)
Example C70_example :
  let run (E : Env) t a := stdout (fun _ => false) (fst (cli_io t None (map N_of_ascii (list_ascii_of_string a)))) in
  run env_spec (Some PBackground) "01 02 0304 0506"
  = "BackgroundFrame { subnet: 1, control: BackgroundFrameControl { address_type: NbId, tag_id: 2 }, payload: 1027, crc16: 1541 }" ++ nl
  /\ run env_subiot None "010203040506"
  = "BackgroundFrame { subnet: 1, control: BackgroundFrameControl { address_type: NbId, tag_id: 2 }, payload: 772, crc16: 1286 }" ++ nl
  /\ run env_wizzilab None "3E" = "value Other([]), reader.bits_read 0  ([62], 0)" ++ nl ++ "(([62], 0), Other([]))" ++ nl
  /\ run env_wizzilab (Some PAlp) "3E" = ""
  /\ run env_spec None "33D700"
  = "value Command { actions: [IndirectForward(IndirectForward { header: IndirectForwardHeader { overloaded: false, response: false }, opcode: OpCode(51), configuration: None })] }, reader.bits_read 16  ([51, 215, 0], 0)" ++ nl
  ++ "value Other([]), reader.bits_read 0  ([51, 215, 0], 0)" ++ nl ++ "(([51, 215, 0], 0), Other([]))" ++ nl.
Proof. vm_compute. repeat split. Qed.

(** C71: parsing does write. *)
Theorem C71_silent_refuted : forall (E : Env), ~ (forall d, fst (command_try_from_io d) = []).
Proof. exact @not_silent. Qed.
Print Assumptions C71_silent_refuted.

(** One line for every value read, with the value, the number of bits and the whole input, whether
    or not the call then fails; what is returned does not depend on it. *)
Theorem C71_lines_exact : forall (E : Env) (d : list N) (off : nat),
  action_from_bytes_io d off = (written VAction (action_from_reader d off) d off, action_from_bytes d off) /\
  action_try_from_io d = (written VAction (action_from_reader d 0) d 0, action_try_from d) /\
  command_from_bytes_io d off = (written VCommand (command_from_reader d off) d off, command_from_bytes d off) /\
  command_try_from_io d = (written VCommand (command_from_reader d 0) d 0, command_try_from d) /\
  forall id n, file_from_bytes_io d off id n
    = (written VFile (d_from_reader (read_file id n) d off) d off, file_from_bytes d off id n).
Proof. exact @lines_exact. Qed.
Print Assumptions C71_lines_exact.

(** A call that fails has written a line exactly if the error is about bytes left over. *)
Theorem C71_failed_action : forall (E : Env) (d : list N) (e : derr),
  bytes d -> snd (action_try_from_io d) = Err e -> (fst (action_try_from_io d) <> [] <-> e = ETooMuchData).
Proof. exact @failed_action_writes. Qed.
Print Assumptions C71_failed_action.
Theorem C71_failed_command : forall (E : Env) (d : list N) (e : derr),
  bytes d -> snd (command_try_from_io d) = Err e -> (fst (command_try_from_io d) <> [] <-> e = ETooMuchData).
Proof. exact @failed_command_writes. Qed.
Print Assumptions C71_failed_command.

(** A command refused for the byte behind it, one cut short, and a file that is accepted. *)
Example C71_example :
  let c := AIndirectForward (mkIndirectForward false false 51 None) in
  @command_try_from_io env_spec [0x33; 0xD7; 1]%N = ([LnRead (VCommand [c]) 16 [0x33; 0xD7; 1]%N 0], Err ETooMuchData) /\
  @command_try_from_io env_spec [0x20; 4; 0; 2; 0x55]%N = ([], Err EIncomplete) /\
  @file_from_bytes_io env_spec [1; 2]%N 0 FidUId 8 = ([], Err EIncomplete) /\
  @stdout env_spec (fun _ => false) (fst (@file_from_bytes_io env_spec [1; 2; 3; 4; 5; 6; 7; 8]%N 0 FidUId 8))
  = "value UId(UId(72623859790382856)), reader.bits_read 64  ([1, 2, 3, 4, 5, 6, 7, 8], 0)" ++ nl.
Proof. vm_compute. repeat split. Qed.
