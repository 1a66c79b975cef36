(** dash7/src/utils.rs:17-31 and 169-199: the memory side of read_array. *)
From Coq Require Import List NArith ZArith Bool Lia.
From Verif Require Import Base Deku.
Import ListNotations.

(** utils.rs:17-20 TransientDropper. [base_ptr] is the index of a slot of the array. *)
Record dropper := mkDropper { base_ptr : nat; initialized_count : nat }.

(** utils.rs:22-31 Drop: the slots from [base_ptr] on, [initialized_count] of them. *)
Definition dropped_slots (d : dropper) : list nat := seq (base_ptr d) (initialized_count d).

(** What a call leaves behind: its result, the slots it wrote and the slots it dropped. *)
Record array_trace (A : Type) := mkTrace {
  t_result : res (list A * rd); t_written : list nat; t_dropped : list nat }.
Arguments mkTrace {A}. Arguments t_result {A}. Arguments t_written {A}. Arguments t_dropped {A}.

(** utils.rs:189-194: [todo] more passes, the next slot is [i], [acc] are the values so far. An
    error or a panic of the element reader runs the destructor of the guard. *)
Fixpoint read_array_loop {A} (todo i : nat) (m : reader A) (acc : list A) (written : list nat)
  (d : dropper) (r : rd) : array_trace A :=
  match todo with
  | O => mkTrace (Ok (acc, r)) written []
  | S k =>
      match m r with
      | Ok (v, r') =>
          read_array_loop k (S i) m (acc ++ [v]) (written ++ [i])
            (mkDropper (base_ptr d + 1) (initialized_count d + 1)) r'
      | Err e => mkTrace (Err e) written (dropped_slots d)
      | Panic => mkTrace Panic written (dropped_slots d)
      end
  end.

(** utils.rs:169-199 read_array; line 196 forgets the guard on success. *)
Definition read_array_mem {A} (n : nat) (m : reader A) (r : rd) : array_trace A :=
  read_array_loop n 0 m [] [] (mkDropper 0 0) r.
