(** Which values exist in a build of the crate, what it means for text to be one line, and what of a
    command is printed. *)
From Coq Require Import List NArith ZArith Bool String Ascii.
From Verif Require Import Base Deku Utils Types Physical Link Network Session Data Query
  Interface File Operation Action Command Frames Cli WellFormed SpecAccess.
Import ListNotations.
Open Scope N_scope.

(** The model has one record per struct for all builds. Fields a build does not have are at their
    default. *)
Definition real_addressee {E : Env} (a : addressee) : Prop :=
  match e_feat with Wizzilab => True | _ => ad_group a = GcAny /\ ad_use_vid a = false end.
Definition real_dash7_config {E : Env} (c : dash7_config) : Prop :=
  match e_feat with Subiot => dc_exec_delay c = mkVarInt 0 false | _ => True end
  /\ real_addressee (dc_addressee c).
Definition real_interface_config {E : Env} (c : interface_config) : Prop :=
  match c with IcDash7 d => real_dash7_config d | _ => True end.
Definition real_indirect {E : Env} (c : indirect_interface) : Prop :=
  match c with IiDash7 a => real_addressee a | _ => True end.
Definition real_interface_status {E : Env} (s : interface_status) : Prop :=
  match s with IsDash7 d => real_addressee (ds_addressee d) | _ => True end.
Definition real_tx_status {E : Env} (s : interface_tx_status) : Prop :=
  match s with TxDash7 d => real_addressee (tx_addressee d) | _ => True end.
(** There are fifteen access profiles, and a Rust [String] is UTF-8. *)
Definition real_file (f : file) : Prop :=
  match f with
  | FAccessProfile i _ => i < 15
  | FFirmwareVersion v => is_utf8 (fw_app v) /\ is_utf8 (fw_sha v)
  | _ => True
  end.
Definition real_action {E : Env} (a : action) : Prop :=
  match a with
  | AWriteFileData v | AWriteFileDataFlush v | AReturnFileData v => real_file (fd_data v)
  | AStatus v =>
      match so_status v with StatusInterface s => real_interface_status (iso_status s) | _ => True end
  | ATxStatus v => real_tx_status (txo_status v)
  | AForward v => real_interface_config (fw_config v)
  | AIndirectForward v => match if_config v with Some c => real_indirect c | None => True end
  | _ => True
  end.
Definition real_frame {E : Env} (f : fframe) : Prop :=
  Forall real_action (tf_command (nf_frame (ff_frame f))).

(** No control character: neither a line break nor the start of a terminal escape sequence. *)
Definition one_line (s : string) : Prop :=
  forall c, In c (list_ascii_of_string s) -> 32 <= N_of_ascii c /\ N_of_ascii c <> 127.
(** No control character other than line feed and tab. *)
Definition plain_text (s : string) : Prop :=
  forall c, In c (list_ascii_of_string s) ->
    (32 <= N_of_ascii c /\ N_of_ascii c <> 127) \/ N_of_ascii c = 9 \/ N_of_ascii c = 10.

(** ** What Display for Command shows *)

(** The actions that are no interface status. *)
Definition listed (c : command) : list action :=
  filter (fun a => match status_of a with None => true | Some _ => false end) c.
(** Of a VarInt only the number is shown, not how it was to be rounded. *)
Definition without_rounding (s : interface_status) : interface_status :=
  match s with
  | IsDash7 d =>
      IsDash7 (mkDash7Status (ds_channel d) (ds_rx_level d) (ds_link_budget d) (ds_target_rx_level d)
                 (ds_nls d) (ds_missed d) (ds_retry d) (ds_unicast d) (ds_fifo_token d) (ds_seq d)
                 (mkVarInt (vi_value (ds_timeout d)) false) (ds_addressee d))
  | _ => s
  end.
(** Two commands that list the same actions and have the same first interface status. *)
Definition shown_alike (c d : command) : Prop :=
  listed c = listed d /\
  exists s t, first_is status_of c s /\ first_is status_of d t /\
              option_map without_rounding s = option_map without_rounding t.

(** ** What the tool prints *)
Definition printed_alike (p q : Cli.printed) : Prop :=
  match p, q with
  | PrCommand c, PrCommand d => shown_alike c d
  | PrCommand _, _ | _, PrCommand _ => False
  | _, _ => p = q
  end.

(** A text of which there is only one per value, on one line. *)
Definition faithful {A} (text : A -> string) (real : A -> Prop) : Prop :=
  (forall a b, real a -> real b -> text a = text b -> a = b) /\ (forall a, real a -> one_line (text a)).
Definition always {A} (a : A) : Prop := True.
