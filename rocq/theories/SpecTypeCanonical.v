(** Canonical input of the types that can be parsed on their own. *)
From Coq Require Import List NArith.
From Verif Require Import Base Deku Utils Types Physical Link Network Session Data Query
  Interface File Operation SpecLayout SpecDecode SpecCanonical.
Import ListNotations.
Open Scope N_scope.

(** The three padding bytes of a transmission status are zero. *)
Definition strict_dash7_tx {E : Env} : dec dash7_tx_status :=
  let* c := strict_channel in let* l := signed in let* e := dec_final in
  let* p := one in only (p =? 0) (let* q := one in only (q =? 0) (let* r := one in only (r =? 0)
   (let* t := host_num 4 in let* a := strict_addressee in give (mkDash7TxStatus c l e t a)))).

(** The inputs that [m] accepts and [w] gives back are those the strict decoder [S] takes whole. *)
Definition canonical {A} (m : reader A) (w : A -> writer) (S : dec A) : Prop := forall d v, bytes d ->
  (d_try_from m d = Ok v /\ to_bytes (w v) = Ok d <-> S d = Some (v, [])).
(** Every accepted input comes back. *)
Definition one_form {A} (m : reader A) (w : A -> writer) : Prop := forall d v, bytes d ->
  d_try_from m d = Ok v -> to_bytes (w v) = Ok d.
