(** What the accessors of a command should return. *)
From Coq Require Import List NArith ZArith Bool Lia String.
From Verif Require Import Base Deku Utils Types Physical Link Network Session Data Query
  Interface File Operation Action Command Display.
Import ListNotations.
Open Scope list_scope.

Definition request_of (a : action) : option request_tag :=
  match a with ARequestTag t => Some t | _ => None end.
Definition response_of (a : action) : option response_tag :=
  match a with AResponseTag t => Some t | _ => None end.
Definition status_of (a : action) : option interface_status :=
  match a with
  | AStatus (mkStatusOperand _ _ (StatusInterface (mkItfStatusOp _ s))) => Some s
  | _ => None
  end.

(** [x] is what the first action selected by [sel] holds; [None] if there is no such action. *)
Definition first_is {B} (sel : action -> option B) (c : command) (x : option B) : Prop :=
  match x with
  | None => forall a, In a c -> sel a = None
  | Some b => exists pre a post, c = pre ++ a :: post /\ sel a = Some b /\ forall a', In a' pre -> sel a' = None
  end.

(** The text for a command with this tag, this first response tag, these actions, this status. *)
Open Scope string_scope.
Definition completion (t : option response_tag) : string :=
  match t with
  | None => "executing"
  | Some t =>
      match rt_eop t, rt_error t with
      | false, _ => "executing"
      | true, false => "completed, without error"
      | true, true => "completed, with error"
      end
  end.
Definition action_line (g : debug) (a : action) : string := tab ++ tab ++ dbg_action g a ++ nl.
Fixpoint action_lines (g : debug) (c : list action) : string :=
  match c with [] => "" | a :: tl => action_line g a ++ action_lines g tl end.
Definition printed (g : debug) (tag : option N) (resp : option response_tag) (acts : list action)
  (st : option interface_status) : string :=
  "Command " ++ match tag with None => "" | Some i => "with tag " ++ show_N i ++ " " end
  ++ "(" ++ completion resp ++ ")"
  ++ match acts, st with
     | [], None => ""
     | [], Some s => tab ++ "interface status: " ++ show_interface_status g s ++ nl
     | _, None => nl ++ tab ++ "actions:" ++ nl ++ action_lines g acts
     | _, Some s => nl ++ tab ++ "actions:" ++ nl ++ action_lines g acts
                    ++ nl ++ tab ++ "interface status: " ++ show_interface_status g s ++ nl
     end.
