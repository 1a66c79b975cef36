(** Vocabulary for C73: reading from the middle of a stream. *)
From Coq Require Import List NArith ZArith Bool Arith.
From Verif Require Import Base Deku Utils Types Physical Link Network Session Data Query
  Interface File Operation Action Command Frames Position SpecLayout SpecDecode SpecFrameDecode.
Import ListNotations.
Open Scope N_scope.

(** What was read before does not matter: the same happens as on a stream that starts here. *)
Definition behind {A} (k : nat) (x : res (nat * A * nat)) : res (nat * A * nat) :=
  match x with Ok (n, v, p) => Ok (n, v, (k + p)%nat) | Err e => Err e | Panic => Panic end.
Definition anywhere {A} (m : reader A) : Prop := forall pre d off,
  from_stream m (pre ++ d) (length pre) off = behind (length pre) (from_stream m d 0 off).

(** The stream is left right behind the item, and only the item is counted. *)
Definition leaves {A} (m : reader A) (D : dec A) : Prop := forall d p, bytes d -> (p <= length d)%nat ->
  match D (skipn p d) with
  | Some (v, rest) => from_stream m d p 0 = Ok (8 * (length d - p - length rest), v, length d - length rest)%nat
  | None => exists e, from_stream m d p 0 = Err e
  end.

(** Items read one after the other, each with a call of its own, until the stream ends. *)
Fixpoint one_by_one {A} (m : reader A) (fuel : nat) (d : list N) (p : nat) : option (list A) :=
  if Nat.eqb p (length d) then Some [] else
  match fuel with
  | O => None
  | S k =>
      match from_stream m d p 0 with
      | Ok (_, v, q) => option_map (cons v) (one_by_one m k d q)
      | _ => None
      end
  end.

(** A foreground frame that starts at byte [p] of the stream. Its length field is compared with
    the position in the stream, so the [p] bytes in front of it count as part of the frame. *)
Definition dec_fframe_at {E : Env} (p : N) : dec fframe := fun d =>
  match dec_link d with
  | Some ((limit, link), l) =>
      match dec_headers l with
      | Some (net, l1) =>
          match dec_limited (length l1) limit (p + N.of_nat (length d - length l1))
                  (match e_feat with Wizzilab => 1 | _ => 0 end) l1 with
          | Some (c, l2) =>
              match host_num 2 l2 with
              | Some (crc, rest) => Some (link (net c) crc, rest)
              | None => None
              end
          | None => None
          end
      | None => None
      end
  | None => None
  end.
