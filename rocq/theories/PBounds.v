(** C88: how few and how many bytes an action takes. *)
From Coq Require Import List NArith.
From Verif Require Import Base Deku Types Operation Action Position SpecApi SpecBounds LBounds.
Import ListNotations.
Open Scope N_scope.

(** Wherever it starts, an accepted action takes as many bytes as its opcode allows; opcodes without
    bounds are never accepted. *)
Theorem C88_bounds : forall (E : Env) d p n a q, bytes d -> (p <= length d)%nat ->
  from_stream read_action d p 0 = Ok (n, a, q) ->
  exists lo hi, bounds (nth p d 0 mod 64) = Some (lo, hi) /\
    N.of_nat p + lo <= N.of_nat q <= N.of_nat p + hi.
Proof. exact @bounds_sound. Qed.
Print Assumptions C88_bounds.

(** Both bounds are reached for every opcode that has them. *)
Theorem C88_least : forall (E : Env) op lo hi, bounds op = Some (lo, hi) ->
  exists d n a, bytes d /\ nth 0 d 0 mod 64 = op /\ N.of_nat (length d) = lo /\
    from_stream read_action d 0 0 = Ok (n, a, length d).
Proof. exact @bounds_least. Qed.
Print Assumptions C88_least.

Theorem C88_greatest : forall (E : Env) op lo hi, bounds op = Some (lo, hi) ->
  exists d n a, bytes d /\ nth 0 d 0 mod 64 = op /\ N.of_nat (length d) = hi /\
    from_stream read_action d 0 0 = Ok (n, a, length d).
Proof. exact @bounds_greatest. Qed.
Print Assumptions C88_greatest.

(** Whatever the opcode: at least one byte, and at most 2147483657. *)
Theorem C88_any : forall (E : Env) d p n a q, bytes d -> (p <= length d)%nat ->
  from_stream read_action d p 0 = Ok (n, a, q) ->
  N.of_nat p + 1 <= N.of_nat q <= N.of_nat p + 2 ^ 31 + 9.
Proof. exact @bounds_all. Qed.
Print Assumptions C88_any.

(** Reading file data takes four to ten bytes; here both, and six. *)
Example C88_example : forall E : Env,
  bounds (E := E) 1 = Some (4, 10) /\ bounds (E := E) 3 = None /\
  (exists n a, from_stream read_action [1; 64; 0; 8; 0xFF] 0 0 = Ok (n, a, 4%nat)) /\
  (exists n a, from_stream read_action [0; 1; 64; 0x41; 0; 0x40; 8; 0xFF] 1 0 = Ok (n, a, 7%nat)) /\
  (exists n a, from_stream read_action [1; 64; 0xC0; 0; 0; 0; 0xC0; 0; 0; 8] 0 0 = Ok (n, a, 10%nat)) /\
  (exists e, from_stream read_action [3; 64; 0; 8] 0 0 = Err e).
Proof. intros [[] [] []]; vm_compute; repeat split; eauto. Qed.
