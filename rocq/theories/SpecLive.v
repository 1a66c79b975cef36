(** Which input that ends too early can be continued (C63). *)
From Coq Require Import List NArith Bool.
From Verif Require Import Base Deku Utils Types Physical Link Network Session Data Query Interface File
  Operation Action Command WellFormed SpecDecode.
Import ListNotations.
Open Scope N_scope.

(** Some continuation of [d] starts with an action, or is a command. *)
Definition action_can_end {E : Env} (d : list N) : Prop :=
  exists s x, bytes s /\ action_from_bytes (d ++ s) 0 = Ok x.
Definition command_can_end {E : Env} (d : list N) : Prop :=
  exists s c, bytes s /\ command_try_from (d ++ s) = Ok c.

(** Some text of [n] bytes begins with [q]. *)
Definition text_begins (n : nat) (q : list N) : Prop :=
  exists t, bytes t /\ length (q ++ t) = n /\ is_utf8 (q ++ t).

(** ** Input that is still too short although nothing can follow it any more: [op] is the opcode,
    [d] starts at the byte with the opcode *)
(** The status of a LoRaWAN interface, 2 or 3, cut within its length. *)
Definition lorawan_status_cut (op : N) (d : list N) : Prop := op = 34 /\
  exists b i rest, d = b :: i :: rest /\ part 6 2 b = 1 /\ (i = 2 \/ i = 3) /\ dec_length rest = None.
(** File data of file 2, the firmware version, cut within one of its texts, which no longer can
    become one. *)
Definition version_cut (op : N) (d : list N) : Prop := In op [4; 5; 32] /\
  exists b l1 o l2 n x y q, d = b :: l1
    /\ dec_file_offset l1 = Some (o, l2) /\ fo_file_id o = 2 /\ dec_length l2 = Some (n, x :: y :: q)
    /\ ((length q < 6)%nat /\ ~ text_begins 6 q
        \/ (6 <= length q < 13)%nat /\ is_utf8 (firstn 6 q) /\ ~ text_begins 7 (skipn 6 q)).
(** wizzilab: the transmission status of a DASH7 interface, cut after the first two bits of its
    error code, if these are 01 or 10: the codes are 0 and those from 0xEA on. *)
Definition tx_status_cut {E : Env} (op : N) (d : list N) : Prop := e_feat = Wizzilab /\ op = 38 /\
  exists h tl l n l2 c x, d = h :: tl /\ part 6 2 h = 1 /\ shifted tl = 0xD7 :: l
    /\ dec_length l = Some (n, l2) /\ dec_channel l2 = Some (c, [x])
    /\ (last tl 0 mod 4 = 1 \/ last tl 0 mod 4 = 2).
Definition stuck {E : Env} (op : N) (d : list N) : Prop :=
  lorawan_status_cut op d \/ version_cut op d \/ tx_status_cut op d.
Definition action_stuck {E : Env} (d : list N) : Prop := exists b l, d = b :: l /\ stuck (part 0 6 b) d.

(** ** Commands: some actions lead from [l] to [l']; the opcode after a transmission status is
    taken two bits early. *)
Definition opcode_at (pending : bool) (b : N) : N := if pending then part 2 6 b else part 0 6 b.
Inductive runs {E : Env} : bool -> list N -> bool -> list N -> Prop :=
| runs_here pending l : runs pending l pending l
| runs_on pending b l a rest pending' l' :
    dec_operand (opcode_at pending b) (b :: l) = Some (a, rest) -> is_indirect a = false ->
    runs (is_tx a) rest pending' l' -> runs pending (b :: l) pending' l'.
Definition command_stuck {E : Env} (d : list N) : Prop :=
  exists pending b l, runs false d pending (b :: l) /\ stuck (opcode_at pending b) (b :: l).
