(** Display for Command (app/command.rs:195-238) and for the interface status
    (session/mod.rs:166-180, 215-237). Derived Debug output enters as a function argument;
    Debug.v supplies it. *)
From Coq Require Import List NArith ZArith Bool Lia String Ascii DecimalString.
From Verif Require Import Base Deku Utils Types Physical Link Network Session Data Query
  Interface File Operation Action Command.
Import ListNotations.
Open Scope string_scope.

(** Debug output of the types that derive it. *)
Record debug := mkDebug {
  dbg_action : action -> string; dbg_channel : channel -> string;
  dbg_addressee : addressee -> string; dbg_bytes : list N -> string;
  dbg_itf_type : interface_type -> string }.

(** Display/Debug of an unsigned integer and Debug of a bool. *)
Definition show_N (n : N) : string := NilZero.string_of_uint (N.to_uint n).
Definition show_bool (b : bool) : string := if b then "true" else "false".

(** A line feed and a tab, as written [\n] and [\t] in Rust. *)
Definition nl : string := String (ascii_of_nat 10) "".
Definition tab : string := String (ascii_of_nat 9) "".

(** session/mod.rs:215-237 Display for Dash7InterfaceStatus. *)
Definition show_dash7_status (g : debug) (s : dash7_interface_status) : string :=
  "Dash7InterfaceStatus { "
  ++ "channel: " ++ dbg_channel g (ds_channel s) ++ ", "
  ++ "rx_level: " ++ show_N (ds_rx_level s) ++ ", "
  ++ "link_budget: " ++ show_N (ds_link_budget s) ++ ", "
  ++ "target_rx_level: " ++ show_N (ds_target_rx_level s) ++ ", "
  ++ "nls: " ++ show_bool (ds_nls s) ++ ", "
  ++ "missed: " ++ show_bool (ds_missed s) ++ ", "
  ++ "retry: " ++ show_bool (ds_retry s) ++ ", "
  ++ "unicast: " ++ show_bool (ds_unicast s) ++ ", "
  ++ "fifo_token: " ++ show_N (ds_fifo_token s) ++ ", "
  ++ "sequence_number: " ++ show_N (ds_seq s) ++ ", "
  ++ "response_timeout: " ++ show_N (vi_value (ds_timeout s)) ++ ", "
  ++ "addressee: " ++ dbg_addressee g (ds_addressee s) ++ ", "
  ++ " }".

(** session/mod.rs:166-180 Display for InterfaceStatus. *)
Definition show_interface_status (g : debug) (s : interface_status) : string :=
  match s with
  | IsDash7 d => show_dash7_status g d
  | IsOther l => "OtherInterfaceStatus{ " ++ dbg_bytes g l ++ " }"
  | IsHost | IsSerial => dbg_itf_type g (interface_status_kind s) ++ "InterfaceStatus{}"
  end.

(** app/command.rs:203-215: the completion status. *)
Definition command_status (c : command) : string :=
  match response_tag_of c with
  | Some t =>
      if rt_eop t then
        if rt_error t then "completed, with error" else "completed, without error"
      else "executing"
  | None => "executing"
  end.

(** app/command.rs:195-238 Display for Command. *)
Definition show_command (g : debug) (c : command) : string :=
  let actions := actions_without_interface_status c in
  "Command "
  ++ (match tag_id c with Some t => "with tag " ++ show_N t ++ " " | None => "" end)
  ++ "(" ++ command_status c ++ ")"
  ++ (if Nat.ltb 0 (List.length actions) then
        nl ++ tab ++ "actions:" ++ nl
        ++ concat "" (map (fun a => tab ++ tab ++ dbg_action g a ++ nl) actions)
      else "")
  ++ (match interface_status_of c with
      | Some s =>
          (if Nat.ltb 0 (List.length actions) then nl else "")
          ++ tab ++ "interface status: " ++ show_interface_status g s ++ nl
      | None => ""
      end).
