(** C89: parsing a command and writing it, again and again. *)
From Coq Require Import List NArith.
From Verif Require Import Base Deku Types Operation Action Command SpecApi SpecAction SpecGrow SpecRounds LRounds.
Import ListNotations.
Open Scope N_scope.

(** The bytes written for what was parsed are not always a normal form. *)
Theorem C89_refuted : forall E : Env, ~ (forall d l, bytes d -> again d = Some l -> settled l).
Proof. exact @normal_refuted. Qed.
Print Assumptions C89_refuted.

(** They are if every action of the command comes back (C09). *)
Theorem C89_once : forall (E : Env) d c l, command_try_from d = Ok c -> Forall reencodable c ->
  command_to_bytes c = Ok l -> settled l.
Proof. exact @settled_once. Qed.
Print Assumptions C89_once.

(** Otherwise it may take any number of rounds: here each of the first [k] changes the bytes once
    more. *)
Theorem C89_many : forall (E : Env) k, exists d, bytes d /\ (length d = 3 + 4 * k)%nat /\
  forall j, (j <= k)%nat -> exists l, rounds j d = Some l /\ (length l + j = length d)%nat /\ ~ settled l.
Proof. exact @rounds_many. Qed.
Print Assumptions C89_many.

(** But no more rounds than there are bytes, if nothing is parsed on the way that may be written in
    more bytes than it was parsed from (C75): then the bytes are rejected, or they stay as they are. *)
Theorem C89_settles : forall (E : Env) d, bytes d ->
  (forall k l c, rounds k d = Some l -> command_try_from l = Ok c -> Forall (fun a => swells a = false) c) ->
  exists k, (k <= length d)%nat /\ (rounds k d = None \/ exists l, rounds k d = Some l /\ settled l).
Proof. exact @settles. Qed.
Print Assumptions C89_settles.

(** Two rounds change something, the third does not; without the last byte the third fails. *)
Example C89_example : forall E : Env,
  rounds 1 [0x62; 0x40; 0; 0x1F; 0x62; 0x40; 0; 0] = Some [0x62; 0; 0x1F; 0x62; 0x40; 0; 0] /\
  rounds 2 [0x62; 0x40; 0; 0x1F; 0x62; 0x40; 0; 0] = Some [0x62; 0; 0; 0x62; 0; 0] /\
  settled [0x62; 0; 0; 0x62; 0; 0] /\
  rounds 3 [0x62; 0x40; 0; 0x1F; 0x62; 0x40; 0] = None.
Proof. intros [[] [] []]; vm_compute; repeat split. Qed.
