(** Which error is reported (C64). *)
From Coq Require Import List NArith Bool.
From Verif Require Import Base Deku Utils Types Physical Link Network Session Data Query Interface File
  Operation Action Command WellFormed SpecAction SpecDecode SpecLive.
Import ListNotations.
Open Scope N_scope.

(** A type that is parsed on its own: too much input if a beginning of it is accepted, incomplete
    if some continuation is, unparsable if none is. *)
Definition names_errors {A} (m : reader A) : Prop := forall d e, bytes d -> d_try_from m d = Err e ->
  let accepted := exists x, d_from_bytes m d 0 = Ok x in
  let can_end := exists s v, bytes s /\ d_try_from m (d ++ s) = Ok v in
  e = ETooMuchData /\ accepted \/ e = EIncomplete /\ can_end \/ e = EParse /\ ~ accepted /\ ~ can_end.

(** The actions of [d] lead to one with an opcode that is not assigned. *)
Definition action_unknown {E : Env} (d : list N) : Prop :=
  exists b l, d = b :: l /\ ~ In (part 0 6 b) assigned_opcodes.
Definition command_unknown {E : Env} (d : list N) : Prop :=
  exists pending b l, runs false d pending (b :: l) /\ ~ In (opcode_at pending b) assigned_opcodes.
