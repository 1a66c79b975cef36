(** C64: which error is reported. *)
From Coq Require Import List NArith ZArith Bool.
From Verif Require Import Base Deku Utils Types Physical Link Network Session Data Query Interface File
  Operation Action Command WellFormed SpecApi SpecDecode SpecLive SpecErr LErrTop.
Import ListNotations.
Open Scope N_scope.

Theorem C64_types : forall E : Env,
  names_errors read_length /\ names_errors read_varint /\ names_errors read_file_offset /\ names_errors read_channel_header /\
  names_errors read_channel /\ names_errors read_channel_status /\ names_errors read_sub_band /\ names_errors read_sub_profile /\
  names_errors read_access_profile /\ names_errors read_addressee /\ names_errors read_qos /\ names_errors read_dash7_status /\
  names_errors read_dash7_tx_status /\ names_errors read_final_status_code /\ names_errors read_file_header /\
  names_errors read_query /\ names_errors read_dash7_config /\ names_errors read_lorawan_config /\ names_errors read_itf_final_op /\
  names_errors read_interface_config /\ names_errors read_indirect_interface.
Proof. exact @names_types. Qed.
Print Assumptions C64_types.

(** All files but the firmware version. *)
Theorem C64_file : forall (E : Env) b n, b < 256 -> b <> 2 -> n < 2 ^ 30 -> names_errors (read_file (file_id_of b) n).
Proof. exact @names_file. Qed.
Print Assumptions C64_file.

Theorem C64_version_refuted : forall (E : Env) n, ~ names_errors (read_file (file_id_of 2) n).
Proof. exact @names_version. Qed.
Print Assumptions C64_version_refuted.

Theorem C64_status_refuted : forall E : Env, ~ names_errors read_itf_status_op.
Proof. exact @names_status. Qed.
Print Assumptions C64_status_refuted.

(** Together with C63, which says when it is [Incomplete]. *)
Theorem C64_action : forall (E : Env) d e, bytes d -> action_from_bytes d 0 = Err e ->
  (e = EInvalidParam <-> action_unknown d) /\ (e = EIncomplete \/ e = EInvalidParam \/ e = EParse).
Proof. exact @action_names. Qed.
Print Assumptions C64_action.

Theorem C64_command : forall (E : Env) d e, bytes d -> command_try_from d = Err e ->
  (e = ETooMuchData <-> dec_command d <> None) /\ (e = EInvalidParam <-> command_unknown d)
  /\ (e = ETooMuchData \/ e = EIncomplete \/ e = EInvalidParam \/ e = EParse).
Proof. exact @command_names. Qed.
Print Assumptions C64_command.

(** A tag, then opcode 3; a tag, then an engineering mode file with an unknown method; a tag cut
    short; bytes behind an indirect forward. Band 7 (unassigned) of a channel; a channel of two bytes. *)
Example C64_example : forall E : Env,
  command_try_from [0xB4; 7; 0x43; 1] = Err EInvalidParam /\
  command_try_from [0xB4; 7; 4; 5; 0; 9; 99; 0; 0; 0; 0; 0; 0; 0; 0] = Err EParse /\
  command_try_from [0xB4; 7; 0x34] = Err EIncomplete /\
  command_try_from [0x33; 0x40; 0xAA; 0xBB] = Err ETooMuchData /\
  d_try_from read_channel [0x70; 0; 0] = Err EParse /\
  d_try_from read_channel [0x70] = Err EParse /\
  d_try_from read_channel [0x20; 0] = Err EIncomplete /\
  d_try_from read_channel [0x20; 0; 0; 0] = Err ETooMuchData.
Proof. intros [[] [] []]; repeat split; vm_compute; reflexivity. Qed.
