(** What an error message should say (C90, C91). *)
From Coq Require Import List NArith ZArith Bool String.
From Verif Require Import Base Deku Utils Types WellFormed Display.
Import ListNotations.
Open Scope string_scope.

(** The text names the number that was rejected, and [max] as the largest one. *)
Definition names (what : string) (rejected max : N) (text : string) : Prop :=
  text = what ++ show_N rejected ++ ". Max: " ++ show_N max.
(** [max] is the largest number for which [ok] holds. *)
Definition largest (ok : N -> Prop) (max : N) : Prop := ok max /\ (forall n, max < n -> ~ ok n)%N.

(** Some text begins with these bytes. *)
Definition begins_text (l : list N) : Prop := exists t, is_utf8 (l ++ t).
(** [p] bytes of [v] are text, and no longer part of it is. Either the rest is the beginning of a
    character ([None]), or [m] bytes are as many as a text can begin with; what is not text is then
    the bytes from [p] up to there, or at least one byte. *)
Definition stops_at (v : list N) (p : nat) (k : option nat) : Prop :=
  (p < List.length v)%nat /\ is_utf8 (firstn p v) /\
  (forall q, (p < q <= List.length v)%nat -> ~ is_utf8 (firstn q v)) /\
  match k with
  | None => begins_text v
  | Some j => exists m, (m < List.length v)%nat /\ begins_text (firstn m v) /\ ~ begins_text (firstn (S m) v) /\
      j = Nat.max 1 (m - p)
  end.

(** Numbers separated by commas. *)
Fixpoint commas (l : list N) : string :=
  match l with
  | [] => ""
  | [x] => show_N x
  | x :: tl => show_N x ++ ", " ++ commas tl
  end.
Definition optional (k : option nat) : string :=
  match k with None => "None" | Some j => "Some(" ++ show_N (N.of_nat j) ++ ")" end.
