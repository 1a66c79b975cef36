(** Vocabulary for C88: how many bytes an action takes. *)
From Coq Require Import List NArith Bool.
From Verif Require Import Base Deku.
Import ListNotations.
Open Scope N_scope.

(** The greatest number a length field can hold, and so the greatest number of bytes it announces. *)
Definition most : N := 2 ^ 30 - 1.

(** The least and the greatest number of bytes of an action with this opcode, its first byte included. *)
Definition bounds {E : Env} (op : N) : option (N * N) :=
  match op with
  | 0 | 48 | 49 | 63 => Some (1, 1)
  | 2 | 16 | 18 | 19 | 20 | 31 | 35 | 52 => Some (2, 2)
  | 23 => Some (3, 3)
  (** file id, offset, length *)
  | 1 => Some (4, 10)
  (** the same, and the data *)
  | 4 | 5 | 32 => Some (4, 10 + most)
  | 6 | 17 | 33 => Some (14, 14)
  (** a query: kind, length, mask, value, file id, offset *)
  | 8 | 9 | 11 => Some (5, 11 + 2 * most)
  | 10 => Some (11, 11)
  (** interface id, length, data; where deku puts the id back it is part of the length, unless the
      status is a final one *)
  | 34 => Some (3, match e_feat, e_rewind with Wizzilab, _ | _, false => 6 | _, true => 5 end + most)
  (** the same behind an opcode of its own, and two bits to fill up *)
  | 38 => match e_feat with Wizzilab => Some (4, 7 + most) | _ => None end
  (** a LoRaWAN configuration *)
  | 50 => Some (2, 45)
  (** an addressee with a long address and a key state *)
  | 51 => Some (1, 17)
  | _ => None
  end.
