(** dash7/src/app/command.rs, without Display (Display.v). *)
From Coq Require Import List NArith ZArith Bool Lia.
From Verif Require Import Base Deku Utils Types Physical Link Network Session Data Query
  Interface File Operation Action.
Import ListNotations.
Open Scope N_scope.

(** app/command.rs:24-32 Command is its list of actions. *)
Definition command := list action.

(** app/command.rs:54: the last action pushed so far is an IndirectForward. *)
Definition last_is_indirect (acc : list action) : bool :=
  match rev acc with
  | AIndirectForward _ :: _ => true
  | _ => false
  end.

(** app/command.rs:42-51 valid_length. *)
Definition valid_length (l : N) : reader bool :=
  if l =? 0 then ret true
  else p <- stream_position ;; ret (N.of_nat p <? l).

(** app/command.rs:53-60: the loop, with a bound on the number of passes; [acc] is
    [command.actions]. *)
Fixpoint read_actions {E : Env} (fuel : nat) (length : N) (acc : list action)
  : reader (list action) :=
  match fuel with
  | O => fail EFuel
  | S fuel' =>
      ok <- valid_length length ;;
      if ok then
        e <- at_end ;;
        if e then ret acc
        else if last_is_indirect acc then ret acc
        else a <- read_action ;; read_actions fuel' length (acc ++ [a])
      else ret acc
  end.

(** app/command.rs:34-62 DekuReader<u32> for Command. One more pass than there are bytes is
    always enough (theorem [C12]). *)
Definition read_command {E : Env} (length : N) : reader command :=
  fun r => read_actions (S (List.length (data r))) length [] r.

(** app/command.rs:87-97 DekuWriter for Command. *)
Definition write_command {E : Env} (c : command) : writer := write_list write_action c.

(** app/command.rs:65-83 from_reader, from_bytes, to_bytes; 174-186 TryFrom. *)
Definition command_from_reader {E : Env} (d : list N) (off : nat) :=
  u_from_reader (read_command 0) d off.
Definition command_from_bytes {E : Env} (d : list N) (off : nat) :=
  u_from_bytes (read_command 0) d off.
Definition command_to_bytes {E : Env} (c : command) : res (list N) := to_bytes (write_command c).
Definition command_try_from {E : Env} (d : list N) : res command := u_try_from (read_command 0) d.

(** app/command.rs:105-114 interface_status. *)
Fixpoint interface_status_of (c : command) : option interface_status :=
  match c with
  | [] => None
  | AStatus s :: tl =>
      match so_status s with
      | StatusInterface i => Some (iso_status i)
      | _ => interface_status_of tl
      end
  | _ :: tl => interface_status_of tl
  end.

(** app/command.rs:117-128 actions_without_interface_status. *)
Fixpoint actions_without_interface_status (c : command) : list action :=
  match c with
  | [] => []
  | a :: tl =>
      match a with
      | AStatus s =>
          match so_status s with
          | StatusInterface _ => actions_without_interface_status tl
          | _ => a :: actions_without_interface_status tl
          end
      | _ => a :: actions_without_interface_status tl
      end
  end.

(** app/command.rs:130-137 request_tag, 139-141 request_id. *)
Fixpoint request_tag_of (c : command) : option request_tag :=
  match c with
  | [] => None
  | ARequestTag t :: _ => Some t
  | _ :: tl => request_tag_of tl
  end.
Definition request_id (c : command) : option N := option_map rq_id (request_tag_of c).

(** app/command.rs:143-150 response_tag, 152-154 response_id. *)
Fixpoint response_tag_of (c : command) : option response_tag :=
  match c with
  | [] => None
  | AResponseTag t :: _ => Some t
  | _ :: tl => response_tag_of tl
  end.
Definition response_id (c : command) : option N := option_map rt_id (response_tag_of c).

(** app/command.rs:156-158 tag_id. *)
Definition tag_id (c : command) : option N :=
  match request_id c with Some i => Some i | None => response_id c end.

(** app/command.rs:160-171 is_last_response. *)
Fixpoint is_last_response (c : command) : bool :=
  match c with
  | [] => false
  | AResponseTag t :: _ => rt_eop t
  | _ :: tl => is_last_response tl
  end.
