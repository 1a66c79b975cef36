(** Vocabulary for C57 where deku does not put the id of an unknown interface back. *)
From Coq Require Import List NArith Bool.
From Verif Require Import Base Deku Session Operation Action.

(** The status of an interface the crate does not know. *)
Definition of_unknown (a : action) : bool :=
  match a with
  | AStatus v => match so_status v with
                 | StatusInterface i => match iso_type i with ItUnknown => true | _ => false end
                 | _ => false
                 end
  | _ => false
  end.
