(** Which error is reported for a frame, and whether more bytes help (C77). *)
From Coq Require Import List NArith Bool.
From Verif Require Import Base Deku Utils Types Physical Link Network Session Data Query Interface File
  Operation Action Command Frames WellFormed SpecAction SpecDecode SpecLive SpecFrameDecode.
Import ListNotations.
Open Scope N_scope.

(** Some continuation of [d] starts with a frame. *)
Definition frame_can_end {E : Env} (d : list N) : Prop :=
  exists s x, bytes s /\ d_from_reader read_fframe (d ++ s) 0 = Ok x.

(** ** The loop over the actions: a limit of 0 is none, any other makes pending bits be forgotten *)
Definition goes_on (limit pos : N) : Prop := limit = 0 \/ pos < limit.
Definition opcode_in (limit pending b : N) : N := part (if limit =? 0 then pending else 0) 6 b.
(** Some actions lead from byte [pos] on, with [l] to come, to byte [pos'] with [l'] to come. *)
Inductive steps {E : Env} (limit : N) : N -> N -> list N -> N -> N -> list N -> Prop :=
| steps_here pos pending l : steps limit pos pending l pos pending l
| steps_on pos pending b l a rest pos' pending' l' :
    goes_on limit pos -> dec_operand (opcode_in limit pending b) (b :: l) = Some (a, rest) -> is_indirect a = false ->
    steps limit (pos + N.of_nat (length (b :: l) - length rest)) (if is_tx a then 2 else 0) rest pos' pending' l' ->
    steps limit pos pending (b :: l) pos' pending' l'.
(** [d] has a whole header, and the actions behind it lead to one with opcode [op] at [l]. *)
Definition frame_reaches {E : Env} (d : list N) (op : N) (l : list N) : Prop :=
  exists limit link l0 net l1 pos pending b l2,
    dec_link d = Some ((limit, link), l0) /\ dec_headers l0 = Some (net, l1)
    /\ steps limit (N.of_nat (length d - length l1)) (match e_feat with Wizzilab => 1 | _ => 0 end) l1 pos pending l
    /\ goes_on limit pos /\ l = b :: l2 /\ op = opcode_in limit pending b.

(** The network control field is cut before its last bit, and the first bits of its security method
    are those of an unassigned one: the methods are 0 to 7, in four bits. *)
Definition method_cut {E : Env} (d : list N) : Prop :=
  e_feat <> Wizzilab /\ exists x c, dec_link d = Some (x, [c]) /\ 4 <= part 0 3 c.
(** Input that is still too short although nothing can follow it any more. *)
Definition frame_stuck {E : Env} (d : list N) : Prop :=
  method_cut d \/ exists op l, frame_reaches d op l /\ stuck op l.
Definition frame_unknown {E : Env} (d : list N) : Prop :=
  exists op l, frame_reaches d op l /\ ~ In op assigned_opcodes.
