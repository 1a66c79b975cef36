(** The decoder of SpecFrameDecode.v for network and transport frames that stand alone. Nothing
    tells where the command ends: it goes on to the end of the input. *)
From Coq Require Import List NArith ZArith Bool Lia.
From Verif Require Import Base Deku Utils Types Physical Link Network Session Data Query
  Interface File Operation Action Command Frames SpecLayout SpecDecode SpecFrameDecode.
Import ListNotations.
Open Scope N_scope.

(** Bits that are left over in front of the command. *)
Definition left_over {E : Env} : N := match e_feat with Wizzilab => 1 | _ => 0 end.
Definition dec_nframe {E : Env} : dec nframe := fun d =>
  match dec_headers d with
  | Some (net, l) =>
      match dec_limited (length l) 0 (N.of_nat (length d - length l)) left_over l with
      | Some (c, rest) => Some (net c, rest)
      | None => None
      end
  | None => None
  end.
(** The transport control field has seven bits, so everything behind it starts seven bits late, and
    one bit is left over in front of the command. *)
Definition dec_tframe {E : Env} : dec tframe := fun d =>
  match d with
  | [] => None
  | x :: _ =>
      match dec_trans (part 1 7 x) (late 7 d) with
      | Some (tr, more) =>
          let l := skipn (length d - length more) d in
          match dec_limited (length l) 0 (N.of_nat (length d - length l)) 1 l with
          | Some (c, rest) => Some (tr c, rest)
          | None => None
          end
      | None => None
      end
  end.
(** The number of bits counted as read when the frame with command [c] is decoded from the first [n]
    bytes and [j] bits are left over in front of the command. *)
Definition alone_bits (n j : nat) (c : command) : nat := (8 * n + 8 * length c - 2 * count_tx c - j)%nat.
