(** C52: what the builds with different cargo features make of each other's bytes. [E] stands for
    the machine, [build F E] for the crate built on it with feature [F]. *)
From Coq Require Import List NArith ZArith Bool.
From Verif Require Import Base Deku Utils Types Physical Link Network Session Data Query Interface File
  Operation Action Command WellFormed SpecApi SpecVariants Samples LVariants.
Import ListNotations.
Open Scope N_scope.

(** A command written and read back by one build is parsed by another one as a different
    command. *)
Theorem C52_refuted : forall E : Env,
  ~ understood Spec Subiot /\ ~ understood Subiot Spec /\ ~ understood Wizzilab Spec.
Proof. exact variants_refuted. Qed.
Print Assumptions C52_refuted.

(** What a spec build writes is read by all, if it does not forward over DASH7 or
    no subiot build is involved. *)
Theorem C52_understood : forall (E : Env) c, wf_command (E := build Spec E) c -> exists d,
  command_to_bytes (E := build Spec E) c = Ok d /\
  command_to_bytes (E := build Wizzilab E) c = Ok d /\ command_try_from (E := build Wizzilab E) d = Ok c /\
  (Forall (fun a => dash7_forward a = false) c ->
     command_to_bytes (E := build Subiot E) c = Ok d /\ command_try_from (E := build Subiot E) d = Ok c).
Proof. exact variants_understood. Qed.
Print Assumptions C52_understood.

(** Writing: the two fields that only wizzilab sends make the only difference. *)
Theorem C52_written : forall E : Env,
  (forall a, wizzilab_only a = false ->
     (action_to_bytes (E := build Spec E) a = action_to_bytes (E := build Wizzilab E) a <->
      (forall l, action_to_bytes (E := build Spec E) a <> Ok l) \/ plain_action a)) /\
  (forall c, Forall (fun a => wizzilab_only a = false) c ->
     (command_to_bytes (E := build Spec E) c = command_to_bytes (E := build Wizzilab E) c <->
      (forall l, command_to_bytes (E := build Spec E) c <> Ok l) \/ Forall plain_action c)).
Proof. exact variants_written. Qed.
Print Assumptions C52_written.

Theorem C52_written_subiot : forall E : Env,
  (forall a, dash7_forward a = false -> action_to_bytes (E := build Subiot E) a = action_to_bytes (E := build Spec E) a) /\
  (forall c, Forall (fun a => dash7_forward a = false) c ->
     command_to_bytes (E := build Subiot E) c = command_to_bytes (E := build Spec E) c).
Proof. exact variants_written_subiot. Qed.
Print Assumptions C52_written_subiot.

(** A forward over DASH7 written with subiot lacks the fifth byte, the execution delay. *)
Theorem C52_written_forward : forall (E : Env) v c l, fw_config v = IcDash7 c ->
  action_to_bytes (E := build Spec E) (AForward v) = Ok l ->
  exists e, to_bytes (write_varint (dc_exec_delay c)) = Ok [e] /\ nth_error l 4 = Some e /\
    action_to_bytes (E := build Subiot E) (AForward v) = Ok (firstn 4 l ++ skipn 5 l).
Proof. exact subiot_forward. Qed.
Print Assumptions C52_written_forward.

(** Reading: a spec build accepts exactly those inputs of a wizzilab build that
    contain no final status, no transmission status and no virtual id flag, hands back the same
    remainder and loses the group condition. *)
Theorem C52_read_wizzilab : forall (E : Env) d, bytes d ->
  narrowed narrow_action (action_from_bytes (E := build Spec E) d 0) (action_from_bytes (E := build Wizzilab E) d 0) /\
  narrowed narrow_command (command_from_bytes (E := build Spec E) d 0) (command_from_bytes (E := build Wizzilab E) d 0) /\
  narrowed_value narrow_command (command_try_from (E := build Spec E) d) (command_try_from (E := build Wizzilab E) d).
Proof. exact variants_wizzilab. Qed.
Print Assumptions C52_read_wizzilab.

(** subiot: no difference outside forwards over DASH7. *)
Theorem C52_read_subiot : forall (E : Env) d, bytes d -> forwards_dash7 d = false ->
  narrowed Some (action_from_bytes (E := build Subiot E) d 0) (action_from_bytes (E := build Spec E) d 0).
Proof. exact subiot_plain. Qed.
Print Assumptions C52_read_subiot.

Theorem C52_read_forward : forall (E : Env) b q t e l, bytes (b :: 0xD7 :: q :: t :: e :: l) -> b mod 64 = 50 ->
  narrowed (fun a => Some (with_delay (mkVarInt (e mod 32 * 4 ^ (e / 32)) false) a))
    (action_from_bytes (E := build Spec E) (b :: 0xD7 :: q :: t :: e :: l) 0)
    (action_from_bytes (E := build Subiot E) (b :: 0xD7 :: q :: t :: l) 0).
Proof. exact subiot_delayed. Qed.
Print Assumptions C52_read_forward.

Theorem C52_read_subiot_command : forall (E : Env) d c, bytes d -> Forall (fun a => dash7_forward a = false) c ->
  (command_try_from (E := build Subiot E) d = Ok c <-> command_try_from (E := build Spec E) d = Ok c) /\
  (forall r, command_from_bytes (E := build Subiot E) d 0 = Ok (r, c) <-> command_from_bytes (E := build Spec E) d 0 = Ok (r, c)).
Proof. exact subiot_command_iff. Qed.
Print Assumptions C52_read_subiot_command.

(** The bytes behind the refutation; group and virtual id flag; execution delay. *)
Example C52_example :
  command_to_bytes (E := env_spec) [sample_broadcast (mkAccessClass 0 1); sample_tag] = Ok [114; 215; 86; 56; 0; 16; 1; 180; 7] /\
  command_to_bytes (E := env_subiot) [sample_broadcast (mkAccessClass 0 1); sample_tag] = Ok [114; 215; 86; 56; 16; 1; 180; 7] /\
  command_to_bytes (E := env_wizzilab) [sample_group false] = Ok [0xB3; 0xD7; 0xB7; 0x21; 0xAB; 0xCD; 1; 2; 3; 4; 5] /\
  narrow_action (sample_group true) = None /\
  command_try_from (E := env_wizzilab) [0xB3; 0xD7; 0xBF; 0x21; 0xAB; 0xCD; 1; 2; 3; 4; 5] = Ok [sample_group true] /\
  command_try_from (E := env_spec) [0xB3; 0xD7; 0xBF; 0x21; 0xAB; 0xCD; 1; 2; 3; 4; 5] = Err EParse /\
  plain_action (sample_broadcast (mkAccessClass 0 1)) /\ ~ plain_action (sample_group false) /\
  dash7_forward sample_tag = false /\ forwards_dash7 [114; 215; 86; 56; 0; 16; 1] = true /\
  action_from_bytes (E := env_subiot) [114; 215; 86; 56; 16; 1; 9] 0 =
    Ok (([], 0%nat), sample_broadcast (mkAccessClass 0 1)) /\
  action_from_bytes (E := env_spec) [114; 215; 86; 56; 0x21; 16; 1; 9] 0 =
    Ok (([], 0%nat), with_delay (mkVarInt 4 false) (sample_broadcast (mkAccessClass 0 1))).
Proof.
  repeat (split; [first [reflexivity | split; reflexivity | intros [H _]; discriminate H]|]). reflexivity.
Qed.
