(** What deku does with the id of a variant it found by a pattern: vocabulary for C92. *)
From Coq Require Import List NArith Bool.
From Verif Require Import Base Deku Types Link Network Session Data Query Interface File Operation Action Command Frames Position.
Import ListNotations.
Open Scope N_scope.

(** The same build on a deku that puts the id back into the stream, or does not. *)
Definition deku (back : bool) (E : Env) : Env :=
  {| e_feat := @e_feat E; e_host := @e_host E; e_rewind := back |}.

(** The status of an interface that the crate does not know. *)
Definition of_unknown_interface (a : action) : bool :=
  match a with
  | AStatus s =>
      match so_status s with
      | StatusInterface i => match iso_type i with ItUnknown => true | _ => false end
      | _ => false
      end
  | _ => false
  end.
Definition none_unknown (c : command) : bool := negb (existsb of_unknown_interface c).

(** Bytes that begin with such a status: code 1 and opcode 34, then the number of the interface. *)
Definition unknown_interface (i : N) : Prop := ~ In i [0; 1; 2; 3; 0xD7].
Definition begins_unknown (d : list N) : Prop :=
  exists i l, d = 98 :: i :: l /\ unknown_interface i.

(** From a stream that stands anywhere, from any bit on: the same value, the same number of bits,
    and the stream left in the same place, provided the value is [fit]. *)
Definition read_alike {A} (fit : A -> bool) (m : Env -> reader A) (E : Env) : Prop :=
  forall b b' d p off x, from_stream (m (deku b E)) d p off = Ok x -> fit (snd (fst x)) = true ->
    from_stream (m (deku b' E)) d p off = Ok x.
