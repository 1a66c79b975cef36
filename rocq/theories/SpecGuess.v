(** C98: what the parse tool takes an input for. *)
From Coq Require Import List NArith Bool.
From Verif Require Import Base Deku Network File Action Command Frames Cli SpecLayout SpecDecode SpecFrames SpecFrameDecode.
Import ListNotations.
Open Scope N_scope.

(** One bit less is counted for a frame with wizzilab. *)
Definition one_if_wizzilab {E : Env} : nat := match e_feat with Wizzilab => 1 | _ => 0 end.


(** An input that starts with frame [v] and has [rest] bytes behind it is counted as read to the
    end: every action counts for a byte more, a transmission status for two bits less. *)
Definition whole_frame {E : Env} (v : fframe) (rest : nat) : Prop :=
  let read := (8 * length (command_of v) - 2 * count_tx (command_of v))%nat in
  (8 * rest + one_if_wizzilab <= read < 8 * rest + one_if_wizzilab + 8)%nat.

(** An indirect forward ends the command of a frame whatever its length field says. *)
Definition ends_in_indirect (c : list action) : Prop := exists c' f, c = c' ++ [AIndirectForward f].
