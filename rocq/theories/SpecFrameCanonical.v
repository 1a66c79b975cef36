(** Canonical frames: the byte strings that come back unchanged when a foreground frame is parsed
    from them and serialised again. [strict_*] continues SpecCanonical.v, in the same way
    SpecFrameDecode.v continues SpecDecode.v. *)
From Coq Require Import List NArith ZArith Bool Lia.
From Verif Require Import Base Deku Utils Types Physical Link Network Session Data Query
  Interface File Operation Action Command Frames SpecLayout SpecDecode SpecCanonical SpecFrames SpecFrameDecode.
Import ListNotations.
Open Scope N_scope.

(** ** Headers: numbers in their shortest form, unused bits zero. *)
Definition strict_link : dec (N * (nframe -> N -> fframe)) :=
  let* n := strict_length in let* s := one in let* c := one in
  let* t := named code_address_type address_types (part 6 2 c) in
  let* a := strict_address t in
  give (n, mkFFrame n s t (part 0 6 c) a).
Definition strict_hopping : dec hopping :=
  let* b := one in
  only ((part 7 1 b =? 0) && (part 0 4 b =? 0))
   (let* t := named code_address_type address_types (part 4 2 b) in give (mkHopping (flag 6 b) t)).
Definition strict_net (c nls : N) : dec (tframe -> nframe) :=
  only (part 3 1 c =? 0)
   (let* t := named code_address_type address_types (part 4 2 c) in
    let* n := named code_nls all_nls nls in
    let* h := perhaps (flag 6 c) strict_hopping in
    let* k := one in
    let* a := strict_address t in
    give (mkNFrame (mkNControl (flag 7 c) (flag 6 c) t n) h (mkAccessClass (part 4 4 k) (part 0 4 k)) a)).
Definition strict_trans (c : N) : dec (command -> tframe) :=
  let* d := one in let* t := one in
  let* x := perhaps (flag 0 c) one in
  let* l := perhaps (flag 5 c) strict_varint in
  let* e := perhaps (flag 4 c) strict_varint in
  let* g := perhaps (flag 3 c && flag 6 c) strict_varint in
  let* a := perhaps (flag 2 c) (let* a := one in let* b := one in give (mkAck a b)) in
  give (mkTFrame (mkTControl (flag 6 c) (flag 5 c) (flag 4 c) (flag 3 c) (flag 2 c) (flag 1 c) (flag 0 c))
          d t x l e g a).
Definition strict_headers {E : Env} : dec (command -> nframe) := fun l =>
  match e_feat with
  | Wizzilab =>
      match l with
      | c :: tl =>
          match strict_net c (part 0 3 c) tl with
          | Some (net, (x :: _) as more) =>
              match strict_trans (part 1 7 x) (late 7 more) with
              | Some (tr, rest) => Some (fun m => net (tr m), skipn (length more - length rest) more)
              | None => None
              end
          | _ => None
          end
      | [] => None
      end
  | _ =>
      match l with
      | c :: ((x :: _) as tl) =>
          match strict_net c (2 * part 0 3 c + part 7 1 x) (late 1 tl) with
          | Some (net, rest) =>
              match skipn (length (late 1 tl) - length rest) tl with
              | y :: more =>
                  match strict_trans (part 0 7 y) more with
                  | Some (tr, rest') => Some (fun m => net (tr m), rest')
                  | None => None
                  end
              | [] => None
              end
          | None => None
          end
      | _ => None
      end
  end.

(** ** The command, from byte [pos] of the input on. *)
Fixpoint strict_limited {E : Env} (fuel : nat) (limit pos : N) (l : list N) : option (list action * list N) :=
  if (limit =? 0) || (pos <? limit) then
    match fuel, l with
    | _, [] => Some ([], [])
    | O, _ => None
    | S k, _ =>
        match strict_action l with
        | Some (a, rest) =>
            if is_indirect a then Some ([a], rest)
            else match strict_limited k limit (pos + N.of_nat (length l - length rest)) rest with
                 | Some (c, rest') => Some (a :: c, rest')
                 | None => None
                 end
        | None => None
        end
    end
  else Some ([], l).

(** Command and checksum. With wizzilab they are written one bit before the place they are read
    from, so nothing but zeros comes back: the bit that is left over in front ([last] is the byte
    that contains it), a Nop for every byte up to the limit, the checksum. (Without a limit there
    are other ways: C78_wizzilab_0.) *)
Definition strict_tail {E : Env} (limit pos last : N) (l : list N) : option (command * N * list N) :=
  match e_feat with
  | Wizzilab =>
      let k := N.to_nat (limit - pos) in
      if negb (limit =? 0) && (part 0 1 last =? 0) && (k + 2 <=? length l)%nat && forallb (N.eqb 0) (firstn (k + 2) l)
      then Some (repeat plain_nop k, 0, skipn (k + 2) l) else None
  | _ =>
      match strict_limited (length l) limit pos l with
      | Some (c, l') => match host_num 2 l' with Some (crc, rest) => Some (c, crc, rest) | None => None end
      | None => None
      end
  end.
Definition strict_fframe {E : Env} : dec fframe := fun d =>
  match strict_link d with
  | Some ((limit, link), l) =>
      match strict_headers l with
      | Some (net, l1) =>
          let pos := (length d - length l1)%nat in
          match strict_tail limit (N.of_nat pos) (nth (Nat.pred pos) d 0) l1 with
          | Some (c, crc, rest) => Some (link (net c) crc, rest)
          | None => None
          end
      | None => None
      end
  | None => None
  end.
