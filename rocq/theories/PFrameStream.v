(** C76: frames that arrive piece by piece, and which bytes of a stream an item needs. *)
From Coq Require Import List NArith ZArith Bool.
From Verif Require Import Base Deku Utils Types Physical Link Network Session Data Query Interface File
  Operation Action Command Frames Position WellFormed SpecLayout SpecApi SpecStream SpecFrameStream Samples LFrameStream.
Import ListNotations.
Open Scope N_scope.

(** From any bit on. *)
Theorem C76_frame_pieces : forall (E : Env) off,
  incremental (fun d => d_from_reader read_fframe d off) /\ incremental (fun d => d_from_reader read_bframe d off).
Proof. exact (fun E off => conj (@incremental_fframe E off) (@incremental_bframe E off)). Qed.
Print Assumptions C76_frame_pieces.

(** From any byte of a stream on. *)
Theorem C76_frame : forall E : Env, needs_exactly read_fframe.
Proof. exact @needs_fframe. Qed.
Print Assumptions C76_frame.

Theorem C76_action : forall E : Env, needs_exactly read_action.
Proof. exact @needs_action. Qed.
Print Assumptions C76_action.

Theorem C76_types : forall E : Env,
  needs_exactly read_length /\ needs_exactly read_varint /\ needs_exactly read_file_offset /\
  needs_exactly read_channel_header /\ needs_exactly read_channel /\ needs_exactly read_channel_status /\
  needs_exactly read_sub_band /\ needs_exactly read_sub_profile /\ needs_exactly read_access_profile /\
  needs_exactly read_addressee /\ needs_exactly read_qos /\ needs_exactly read_dash7_status /\
  needs_exactly read_dash7_tx_status /\ needs_exactly read_final_status_code /\ needs_exactly read_file_header.
Proof. exact @needs_types. Qed.
Print Assumptions C76_types.

Theorem C76_operations : forall E : Env,
  needs_exactly read_query /\ needs_exactly read_dash7_config /\ needs_exactly read_lorawan_config /\
  needs_exactly read_interface_config /\ needs_exactly read_indirect_interface /\
  needs_exactly read_itf_status_op /\ needs_exactly read_itf_final_op /\ needs_exactly read_bframe.
Proof. exact @needs_operations. Qed.
Print Assumptions C76_operations.

(** A frame behind two other bytes and with two bytes behind it: cut off before its last byte,
    behind it, and not at all. Commands are different, see C53 and C73: cut off in the middle, a
    command is a shorter command. *)
Example C76_example :
  let d := [9; 9; 11; 1; 66; 16; 10; 0; 6; 7; 0; 0xAB; 0xCD; 5; 6] in
  let E := env_spec in
  let cut k := from_stream read_fframe (firstn k d) 2 0 in
  (exists v, cut 15%nat = Ok (96%nat, v, 13%nat)) /\ cut 13%nat = cut 15%nat /\ cut 12%nat = Err EIncomplete /\ cut 3%nat = Err EIncomplete /\
  ~ needs_exactly (read_command 0).
Proof.
  intros d E cut. split.
  { let x := eval vm_compute in (cut 15%nat) in match x with Ok (_, ?v, _) => exists v end. vm_compute. reflexivity. }
  split; [vm_compute; reflexivity|]. split; [vm_compute; reflexivity|].
  split; [vm_compute; reflexivity|]. intros H.
  specialize (H [0xB4; 7; 0xB4; 8] 0%nat 48%nat _ 4%nat 2%nat ltac:(repeat constructor) ltac:(repeat constructor) ltac:(repeat constructor) eq_refl).
  vm_compute in H. discriminate.
Qed.
