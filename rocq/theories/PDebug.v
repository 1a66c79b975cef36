(** C68 and C69: the text of parsed values. *)
From Coq Require Import List NArith ZArith Bool String Ascii.
From Verif Require Import Base Deku Utils Types Physical Link Network Session Data Query
  Interface File Operation Action Command Display Frames Cli Debug SpecApi SpecAccess SpecDebug LDebugTop.
Import ListNotations.
Open Scope string_scope.

Theorem C68_debug_text : forall (E : Env) (plain : N -> bool),
  let text {A} (d : A -> dv) (a : A) := show_dv plain (d a) in
  faithful (text d_fframe) real_frame /\ faithful (text d_bframe) always /\
  faithful (text d_command) (Forall real_action) /\ faithful (text d_action) real_action /\
  faithful (text d_file) real_file /\ faithful (text d_file_header) always /\
  faithful (text d_query) always /\ faithful (text d_interface_config) real_interface_config /\
  faithful (text d_indirect_interface) real_indirect /\
  faithful (text d_interface_status) real_interface_status /\
  faithful (text d_itf_tx_status) real_tx_status /\ faithful (text d_addressee) real_addressee /\
  faithful (text d_channel) always /\ faithful (text d_varint) always /\ faithful (text d_length) always.
Proof. exact @debug_faithful. Qed.
Print Assumptions C68_debug_text.

(** Everything the parsers return is one of these values. *)
Theorem C68_debug_text_parsed : forall (E : Env) (d : list N),
  (forall f, fframe_try_from d = Ok f -> real_frame f) /\
  (forall c, command_try_from d = Ok c -> Forall real_action c) /\
  (forall a, action_try_from d = Ok a -> real_action a) /\
  (forall i id x, (i < 256)%N -> file_id_try_from i = Ok id -> file_from_bytes d 0 id 0 = Ok x -> real_file (snd x)).
Proof. exact @parsed_values_real. Qed.
Print Assumptions C68_debug_text_parsed.

Definition ascii_only (_ : N) : bool := false.
(** A firmware name with a quote, a line feed, an escape character and a letter outside ASCII; an
    addressee with and without the fields of the wizzilab build; a query with all its parts. *)
Example C68_example :
  let adr := mkAddressee GcAny AtUId false NlsAesCcm32 (mkAccessClass 1 2) (UId 77) (NsAesCcm32 [1; 2; 3; 4; 5]%N) in
  show_dv ascii_only (d_file (FFirmwareVersion (mkFirmware 1 2 [0x41; 0x22; 0x0A; 0x1B; 0xC3; 0xA9] [0x5C; 0x62])))
  = "FirmwareVersion(FirmwareVersion { major: 1, minor: 2, application_name: ""A\""\n\u{1b}\u{e9}"", git_sha1: ""\\b"" })"
  /\ show_dv ascii_only (d_addressee (E := env_spec) adr)
  = "Addressee { address_type: UId, nls_method: AesCcm32, access_class: AccessClass { specifier: 1, mask: 2 }, address: UId(77), nls_state: AesCcm32([1, 2, 3, 4, 5]) }"
  /\ show_dv ascii_only (d_addressee (E := env_wizzilab) adr)
  = "Addressee { group_condition: Any, address_type: UId, use_vid: false, nls_method: AesCcm32, access_class: AccessClass { specifier: 1, mask: 2 }, address: UId(77), nls_state: AesCcm32([1, 2, 3, 4, 5]) }"
  /\ show_dv ascii_only (d_query (QCmpValue (mkCmpValue false (mkArithParams false CmpLt) 1 [] [7] (mkFileOffset 1 2))))
  = "ComparisonWithValue(ComparisonWithValue { mask_present: false, params: ArithmeticQueryParams { signed: false, comparison_type: LessThan }, length: Length(1), mask: [], value: [7], file: FileOffset { file_id: 1, offset: Length(2) } })"
  /\ show_dv ascii_only (d_file (FEngineeringMode (mkEngMode EmOff 1 2 (mkChannel (mkChannelHeader Band433 LoRate Pn9) 3) (-7))))
  = "EngineeringMode(EngineeringMode { mode: Off, flags: 1, timeout: 2, channel: Channel { header: ChannelHeader { channel_band: Band433, channel_class: LoRate, channel_coding: Pn9 }, index: 3 }, eirp: -7 })".
Proof. vm_compute. repeat split. Qed.

(** Display for Command loses where the interface status stood, all interface statuses but the
    first, and how a timeout was to be rounded. *)
Theorem C69_display_refuted : forall (E : Env) (plain : N -> bool),
  ~ (forall a b c d, command_try_from a = Ok c -> command_try_from b = Ok d ->
      show_command (derived plain) c = show_command (derived plain) d -> c = d).
Proof. exact @command_shown_refuted. Qed.
Print Assumptions C69_display_refuted.

(** It loses nothing else. *)
Theorem C69_display_exact : forall (E : Env) (plain : N -> bool) (c d : command),
  Forall real_action c -> Forall real_action d ->
  show_command (derived plain) c = show_command (derived plain) d <-> shown_alike c d.
Proof. exact @command_shown. Qed.
Print Assumptions C69_display_exact.

(** 00 62 00 00, 62 00 00 00 and 00 62 00 00 62 01 00 print the same. *)
Example C69_example : forall (E : Env),
  let text a := match command_try_from a with Ok c => show_command (derived ascii_only) c | _ => "" end in
  text [0; 0x62; 0; 0]%N = "Command (executing)" ++ nl ++ tab ++ "actions:" ++ nl
    ++ tab ++ tab ++ "Nop(Nop { header: ActionHeader { group: false, response: false }, opcode: OpCode(0) })" ++ nl
    ++ nl ++ tab ++ "interface status: HostInterfaceStatus{}" ++ nl
  /\ text [0; 0x62; 0; 0]%N = text [0x62; 0; 0; 0]%N
  /\ text [0; 0x62; 0; 0]%N = text [0; 0x62; 0; 0; 0x62; 1; 0]%N
  /\ text [0; 0x62; 0; 0]%N <> text [0; 0x62; 1; 0]%N
  /\ text [0; 0x62; 0; 0]%N <> text [0; 0; 0x62; 0; 0]%N.
Proof. intros [[] [] []]; vm_compute; repeat split; discriminate. Qed.
