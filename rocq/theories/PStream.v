(** C53: parsing input that arrives piece by piece (see [incremental] in SpecStream.v). *)
From Coq Require Import List NArith ZArith Bool.
From Verif Require Import Base Deku Utils Types Physical Link Network Session Data Query Interface File
  Operation Action Command WellFormed SpecApi SpecStream Samples LNice LStream.
Import ListNotations.
Open Scope N_scope.

(** From any bit on. *)
Theorem C53_action : forall (E : Env) off, incremental (fun d => action_from_reader d off).
Proof. exact @incremental_action. Qed.
Print Assumptions C53_action.

Theorem C53_types : forall (E : Env) off,
  incremental (fun d => d_from_reader read_length d off) /\ incremental (fun d => d_from_reader read_varint d off) /\
  incremental (fun d => d_from_reader read_file_offset d off) /\ incremental (fun d => d_from_reader read_channel_header d off) /\
  incremental (fun d => d_from_reader read_channel d off) /\ incremental (fun d => d_from_reader read_channel_status d off) /\
  incremental (fun d => d_from_reader read_sub_band d off) /\ incremental (fun d => d_from_reader read_sub_profile d off) /\
  incremental (fun d => d_from_reader read_access_profile d off) /\ incremental (fun d => d_from_reader read_addressee d off) /\
  incremental (fun d => d_from_reader read_qos d off) /\ incremental (fun d => d_from_reader read_dash7_status d off) /\
  incremental (fun d => d_from_reader read_dash7_tx_status d off) /\ incremental (fun d => d_from_reader read_final_status_code d off) /\
  incremental (fun d => d_from_reader read_file_header d off) /\ incremental (fun d => d_from_reader read_query d off) /\
  incremental (fun d => d_from_reader read_dash7_config d off) /\ incremental (fun d => d_from_reader read_lorawan_config d off) /\
  incremental (fun d => d_from_reader read_itf_final_op d off).
Proof. exact @incremental_types. Qed.
Print Assumptions C53_types.

Theorem C53_file : forall (E : Env) id n off, id < 256 -> wf_length n ->
  incremental (fun d => d_from_reader (read_file (file_id_of id) n) d off).
Proof. exact @incremental_file. Qed.
Print Assumptions C53_file.

Theorem C53_interfaces : forall E : Env,
  incremental (fun d => d_from_reader read_interface_config d 0) /\ incremental (fun d => d_from_reader read_indirect_interface d 0) /\
  incremental (fun d => d_from_reader read_interface_type d 0) /\ incremental (fun d => d_from_reader read_itf_status_op d 0).
Proof. exact @incremental_aligned. Qed.
Print Assumptions C53_interfaces.

(** File data cut short, whole, and with the beginning of another action behind it; a bad opcode
    is known at once. A whole command read in pieces is different: more bytes, more actions. *)
Example C53_example : forall E : Env,
  action_from_reader [0x20; 0x40; 5; 2; 9] 0 = Err EIncomplete /\
  action_from_reader [0x20; 0x40; 5; 2; 9; 8] 0 =
    action_from_reader [0x20; 0x40; 5; 2; 9; 8; 0x34] 0 /\
  action_from_reader [0x20; 0x40; 5; 2; 9; 8] 0 =
    Ok (56%nat, AReturnFileData (mkFileData (mkHeader false false) 32 (mkFileOffset 0x40 5) (FOther [9; 8]))) /\
  (exists e, action_from_reader [0x3E] 0 = Err e /\ e <> EIncomplete) /\
  ~ incremental (fun d => command_from_reader d 0).
Proof.
  intros [[] [] []]; (split; [reflexivity|split; [reflexivity|split; [reflexivity|split;
    [eexists; split; [reflexivity|discriminate]
    |intros (H & _); specialize (H [0xB4; 7] [0xB4; 8]); vm_compute in H; specialize (H _ eq_refl); discriminate]]]]).
Qed.
