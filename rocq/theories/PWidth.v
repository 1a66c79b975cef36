(** C93: how much text is printed for an input. *)
From Coq Require Import List NArith ZArith Bool String Ascii.
From Verif Require Import Base Deku Utils Types Physical Link Network Session Data Query
  Interface File Operation Action Command Display Frames Cli Debug Output Position SpecApi SpecDebug SpecDecode SpecCli LWidthTop.
Import ListNotations.
Open Scope nat_scope.

(** An action is printed with at most 99 bytes a byte taken and 47 more, wherever it was read, *)
Theorem C93_action : forall (plain : N -> bool) (E : Env) d p n a q, bytes d -> p <= List.length d ->
  from_stream read_action d p 0 = Ok (n, a, q) -> String.length (show_dv plain (d_action a)) <= 99 * (q - p) + 47.
Proof. exact @action_width. Qed.
Print Assumptions C93_action.

(** a command with at most 102 and 77 more, *)
Theorem C93_command : forall (plain : N -> bool) (E : Env) d c, bytes d -> command_try_from d = Ok c ->
  String.length (show_command (derived plain) c) <= 102 * List.length d + 77.
Proof. exact @command_width. Qed.
Print Assumptions C93_command.

(** which is reached at every length, *)
Theorem C93_command_reached : forall (plain : N -> bool) (E : Env) k, exists c, command_try_from (repeat 63%N k ++ [51%N]) = Ok c /\
  String.length (show_command (derived plain) c) = 102 * List.length (repeat 63%N k ++ [51%N])%list + 77.
Proof. exact @command_reached. Qed.
Print Assumptions C93_command_reached.

(** a frame with at most 101, wherever it was read, *)
Theorem C93_frame : forall (plain : N -> bool) (E : Env) d p n v q, bytes d -> p <= List.length d ->
  from_stream read_fframe d p 0 = Ok (n, v, q) -> String.length (show_dv plain (d_fframe v)) <= 101 * (q - p).
Proof. exact @frame_width. Qed.
Print Assumptions C93_frame.

(** and a background frame, always of 6 bytes, with at most 129 altogether. *)
Theorem C93_background : forall (plain : N -> bool) (E : Env) d v, bytes d -> bframe_try_from d = Ok v ->
  String.length (show_dv plain (d_bframe v)) <= 129 /\ List.length d = 6.
Proof. exact @bframe_width. Qed.
Print Assumptions C93_background.

(** All the tool writes, the lines of the library included, stays below 209 bytes for a byte of input and 184 more. *)
Theorem C93_tool : forall (plain : N -> bool) (E : Env) t fid s bs, spells s bs -> (forall i, fid = Some i -> (i < 256)%N) ->
  String.length (stdout plain (fst (cli_io t fid s))) <= 209 * List.length bs + 184.
Proof. exact @tool_width. Qed.
Print Assumptions C93_tool.

(** One byte gives an action of 146 bytes of text, which is the bound; six bytes a background frame of 129, also the bound; and
    the tool writes 388 for that one byte, of 393 allowed. *)
Example C93_example :
  (exists n a, from_stream (@read_action env_spec) [51%N] 0 0 = Ok (n, a, 1) /\
     String.length (show_dv (fun _ => false) (@d_action env_spec a)) = 146) /\
  (exists v, @bframe_try_from env_spec [255; 63; 255; 255; 255; 255]%N = Ok v /\ String.length (show_dv (fun _ => false) (d_bframe v)) = 129) /\
  String.length (@stdout env_spec (fun _ => false) (fst (@cli_io env_spec (Some PAlp) None [51; 51]%N))) = 388.
Proof.
  split; [|split].
  - let x := eval vm_compute in (from_stream (@read_action env_spec) [51%N] 0 0) in match x with Ok (?n, ?a, _) => exists n, a end.
    split; vm_compute; reflexivity.
  - let x := eval vm_compute in (@bframe_try_from env_spec [255; 63; 255; 255; 255; 255]%N) in match x with Ok ?v => exists v end.
    split; vm_compute; reflexivity.
  - vm_compute. reflexivity.
Qed.
