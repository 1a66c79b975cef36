(** Vocabulary for C89: parsing a command and writing it, again and again. *)
From Coq Require Import List NArith Bool.
From Verif Require Import Base Deku Utils Types Physical Link Network Session Data Query
  Interface File Operation Action Command SpecApi SpecAction.
Import ListNotations.
Open Scope N_scope.

(** The bytes of the command that was parsed, if there is one. *)
Definition again {E : Env} (d : list N) : option (list N) :=
  match rbind (command_try_from d) command_to_bytes with Ok l => Some l | _ => None end.
Fixpoint rounds {E : Env} (k : nat) (d : list N) : option (list N) :=
  match k with
  | O => Some d
  | S k => match again d with Some l => rounds k l | None => None end
  end.
(** Nothing changes any more. *)
Definition settled {E : Env} (d : list N) : Prop := again d = Some d.

