(** C75: what was parsed, written again, compared in size with what it was parsed from. *)
From Coq Require Import List NArith Bool.
From Verif Require Import Base Deku Utils Types Physical Link Network Session Data Query Interface File
  Operation Action Command WellFormed SpecApi SpecLayout SpecGrow Position LGrow.
Import ListNotations.
Open Scope N_scope.

(** An action may be written in more bytes than it was parsed from. *)
Theorem C75_refuted : forall E : Env, ~ (forall d n a q l, bytes d -> from_stream read_action d 0 0 = Ok (n, a, q) ->
  action_to_bytes a = Ok l -> (length l <= q)%nat).
Proof. exact @grows_refuted. Qed.
Print Assumptions C75_refuted.

(** By one byte at most, and only if it holds an access profile or the status of 17 channels or
    more. [q - p] bytes were taken. *)
Theorem C75_action : forall (E : Env) d p n a q l, bytes d -> (p <= length d)%nat ->
  from_stream read_action d p 0 = Ok (n, a, q) -> action_to_bytes a = Ok l ->
  (length l <= q - p + if swells a then 1 else 0)%nat.
Proof. exact @action_grows. Qed.
Print Assumptions C75_action.

(** For each of these there are bytes from which it does grow. *)
Theorem C75_by_one : forall (E : Env) a, wf_action a -> swells a = true -> exists d n l, bytes d /\
  from_stream read_action d 0 0 = Ok (n, a, length d) /\ action_to_bytes a = Ok l /\ length l = S (length d).
Proof. exact @grows_by_one. Qed.
Print Assumptions C75_by_one.

(** A command grows by no more bytes than it has such actions. *)
Theorem C75_command : forall (E : Env) d c l, bytes d -> command_try_from d = Ok c -> command_to_bytes c = Ok l ->
  (length l <= length d + length (filter swells c))%nat.
Proof. exact @command_grows. Qed.
Print Assumptions C75_command.

(** The announced size 0 is not looked at; written, it is 65, which takes two bytes. A read of which
    every number is wider than needed shrinks. *)
Example C75_example : let E := env_spec in
  let d := [0x20; 0x20; 0; 0] ++ repeat 0 65 in
  from_stream read_action d 0 0 = Ok (560%nat, zero_profile, 69%nat) /\
  action_to_bytes zero_profile = Ok ([0x20; 0x20; 0; 0x40; 65] ++ repeat 0 65) /\
  swells zero_profile = true /\
  command_try_from (d ++ d) = Ok [zero_profile; zero_profile] /\
  command_to_bytes [zero_profile; zero_profile] = Ok (concat (repeat ([0x20; 0x20; 0; 0x40; 65] ++ repeat 0 65) 2)) /\
  rbind (command_try_from [1; 7; 0xC0; 0; 0; 1; 0x80; 0; 2]) command_to_bytes = Ok [1; 7; 1; 2].
Proof. vm_compute. repeat split. Qed.
