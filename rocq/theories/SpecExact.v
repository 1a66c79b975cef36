(** Values that survive being written and parsed again. *)
From Coq Require Import List NArith Bool.
From Verif Require Import Base Deku Action Command WellFormed SpecLayout SpecAction.
Import ListNotations.
Open Scope N_scope.

Definition action_survives {E : Env} (a : action) : Prop :=
  exists l, action_to_bytes a = Ok l /\ action_try_from l = Ok a.
Definition command_survives {E : Env} (c : command) : Prop :=
  exists l, command_to_bytes c = Ok l /\ command_try_from l = Ok c.
