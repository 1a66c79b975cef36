(** Property C45: default values. *)
From Coq Require Import List NArith ZArith Bool Lia.
From Verif Require Import Base Deku Utils Types Physical Link Network Session Data Query
  Interface File Operation Action Command Frames Defaults SpecApi SpecReturn SpecAction SpecDefaults
  LDefaults.
Import ListNotations.
Open Scope N_scope.

(** C45 as stated, "every default value round-trips", fails in every build: the default of FileData
    names file 0 (the unique identifier, eight bytes) and has an empty payload. *)
Theorem C45_refuted : forall (E : Env), Forall (fun a =>
  exists l, action_to_bytes a = Ok l /\ action_try_from l = Err EIncomplete)
  default_file_actions.
Proof. exact @file_actions_fail. Qed.
Print Assumptions C45_refuted.

(** So do the LoRaWAN configurations: the default keys are empty. *)
Theorem C45_lorawan_refuted : forall (E : Env), Forall cut_short
  [Item write_otaa read_otaa def_otaa; Item write_abp read_abp def_abp;
   Item write_interface_config read_interface_config (IcOtaa def_otaa);
   Item write_interface_config read_interface_config (IcAbp def_abp)].
Proof. exact @keys_cut. Qed.
Print Assumptions C45_lorawan_refuted.

(** And the frames with a command: what follows the empty command, the padding bit or the CRC, is
    taken for further actions. *)
Theorem C45_frames_refuted : forall (E : Env), Forall cut_short
  [Item write_tframe (read_tframe def_length) def_tframe; Item write_fframe read_fframe def_fframe].
Proof. exact @frames_cut. Qed.
Print Assumptions C45_frames_refuted.

Theorem C45_network_frame : forall (E : Env),
  survives (Item write_nframe (read_nframe def_length) def_nframe) <-> e_feat <> Wizzilab.
Proof. exact @nframe_default. Qed.
Print Assumptions C45_network_frame.

(** All other default values come back. *)
Theorem C45_small : forall (E : Env), Forall survives small_defaults.
Proof. exact @small_survive. Qed.
Print Assumptions C45_small.

Theorem C45_queries : Forall survives query_defaults.
Proof. exact query_survive. Qed.
Print Assumptions C45_queries.

Theorem C45_large : forall (E : Env), Forall survives large_defaults.
Proof. exact @large_survive. Qed.
Print Assumptions C45_large.

(** Default operands come back with the opcode of the action instead of the default opcode, so
    unchanged only in Nop. *)
Theorem C45_actions : forall (E : Env), Forall (fun a =>
  exists l, action_to_bytes a = Ok l /\ action_try_from l = Ok (with_opcode (opcode_of a) a))
  default_actions.
Proof. exact @actions_survive. Qed.
Print Assumptions C45_actions.

Theorem C45_actions_changed : Forall (fun a =>
  with_opcode (opcode_of a) a = a <-> a = ANop def_nop) default_actions.
Proof. exact actions_changed. Qed.
Print Assumptions C45_actions_changed.

Theorem C45_cut_short : forall i, cut_short i -> ~ survives i.
Proof. exact not_survive. Qed.
Print Assumptions C45_cut_short.

(** What the default values are: their wire form, all zero but for the address type (code 1) and the
    ids of variants. *)
Theorem C45_wire_form : forall (E : Env),
  Forall2 spelled small_defaults small_spelling /\ Forall2 spelled query_defaults query_spelling /\
  Forall2 spelled large_defaults large_spelling /\
  Forall2 spelled [Item write_otaa read_otaa def_otaa; Item write_abp read_abp def_abp] [(24, 0); (88, 0)] /\
  Forall2 spelled [Item write_tframe (read_tframe def_length) def_tframe; Item write_nframe (read_nframe def_length) def_nframe;
                   Item write_fframe read_fframe def_fframe]
    match e_feat with
    | Wizzilab => [(23, 0); (39, 0x800000000); (79, 0x200800000000 * 0x10000)]
    | _ => [(23, 0); (40, 0x1000000000); (80, 0x401000000000 * 0x10000)]
    end /\
  Forall2 (fun a l => action_to_bytes a = Ok l) default_actions action_spelling.
Proof. exact @all_spelled. Qed.
Print Assumptions C45_wire_form.

Example C45_example : forall (E : Env),
  to_bytes (write_interface_config (IcOtaa def_otaa)) = Ok [3; 0; 0; 0] /\
  action_to_bytes (AWriteFileData def_file_data) = Ok [4; 0; 0; 0] /\
  action_to_bytes (ACopyFile def_copy_file) = Ok [23; 0; 0] /\
  action_try_from [23; 0; 0] = Ok (ACopyFile (mkCopyFile (mkHeader false false) 23 0 0)) /\
  length small_defaults = 33%nat /\ length query_defaults = 16%nat /\ length large_defaults = 22%nat /\
  length default_actions = 24%nat.
Proof. intros [[] [] []]; repeat split. Qed.
