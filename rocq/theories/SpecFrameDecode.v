(** The decoder of SpecDecode.v continued to frames: which frame, if any, a byte string stands for.
    Everything is said about bytes; where fields do not start on a byte boundary the bytes are
    taken from later bits with [late]. *)
From Coq Require Import List NArith ZArith Bool Lia.
From Verif Require Import Base Deku Utils Types Physical Link Network Session Data Query
  Interface File Operation Action Command Frames SpecLayout SpecDecode.
Import ListNotations.
Open Scope N_scope.

(** The bytes one sees when every byte starts [j] bits later. *)
Fixpoint late (j : N) (l : list N) : list N :=
  match l with
  | a :: ((b :: _) as tl) => (a mod 2 ^ (8 - j) * 2 ^ j + b / 2 ^ (8 - j)) :: late j tl
  | _ => []
  end.
Definition perhaps {A} (c : bool) (m : dec A) : dec (option A) :=
  if c then let* x := m in give (Some x) else give None.
Definition address_types := [AtNbId; AtNoId; AtUId; AtVId].

(** ** Headers. Each gives the frame as a function of what it contains. *)
Definition dec_link : dec (N * (nframe -> N -> fframe)) :=
  let* n := dec_length in let* s := one in let* c := one in
  let* t := named code_address_type address_types (part 6 2 c) in
  let* a := dec_address t in
  give (n, mkFFrame n s t (part 0 6 c) a).

Definition dec_hopping : dec hopping :=
  let* b := one in let* t := named code_address_type address_types (part 4 2 b) in
  give (mkHopping (flag 6 b) t).
(** [c] is the first byte of the network control field, [nls] the code of the security method. *)
Definition dec_net (c nls : N) : dec (tframe -> nframe) :=
  let* t := named code_address_type address_types (part 4 2 c) in
  let* n := named code_nls all_nls nls in
  let* h := perhaps (flag 6 c) dec_hopping in
  let* k := one in
  let* a := dec_address t in
  give (mkNFrame (mkNControl (flag 7 c) (flag 6 c) t n) h (mkAccessClass (part 4 4 k) (part 0 4 k)) a).

(** [c] are the seven bits of the transport control field. *)
Definition dec_trans (c : N) : dec (command -> tframe) :=
  let* d := one in let* t := one in
  let* x := perhaps (flag 0 c) one in
  let* l := perhaps (flag 5 c) dec_varint in
  let* e := perhaps (flag 4 c) dec_varint in
  let* g := perhaps (flag 3 c && flag 6 c) dec_varint in
  let* a := perhaps (flag 2 c) (let* a := one in let* b := one in give (mkAck a b)) in
  give (mkTFrame (mkTControl (flag 6 c) (flag 5 c) (flag 4 c) (flag 3 c) (flag 2 c) (flag 1 c) (flag 0 c))
          d t x l e g a).

(** Network and transport header. The network control field has 9 bits (8 with wizzilab), the
    transport control field 7. Without wizzilab everything between them starts one bit late; with
    wizzilab everything from the transport control field to the command starts seven bits late,
    and one bit is left over. *)
Definition dec_headers {E : Env} : dec (command -> nframe) := fun l =>
  match e_feat with
  | Wizzilab =>
      match l with
      | c :: tl =>
          match dec_net c (part 0 3 c) tl with
          | Some (net, (x :: _) as more) =>
              match dec_trans (part 1 7 x) (late 7 more) with
              | Some (tr, rest) => Some (fun m => net (tr m), skipn (length more - length rest) more)
              | None => None
              end
          | _ => None
          end
      | [] => None
      end
  | _ =>
      match l with
      | c :: ((x :: _) as tl) =>
          match dec_net c (2 * part 0 3 c + part 7 1 x) (late 1 tl) with
          | Some (net, rest) =>
              match skipn (length (late 1 tl) - length rest) tl with
              | y :: more =>
                  match dec_trans (part 0 7 y) more with
                  | Some (tr, rest') => Some (fun m => net (tr m), rest')
                  | None => None
                  end
              | [] => None
              end
          | None => None
          end
      | _ => None
      end
  end.

(** ** The command: actions from byte [pos] of the input on, until [limit] is reached, the bytes end
    or an indirect forward was read. A limit of 0 is none; any other limit makes the pending bits
    be forgotten, otherwise they shift the place the next opcode is taken from. *)
Fixpoint dec_limited {E : Env} (fuel : nat) (limit pos pending : N) (l : list N)
  : option (list action * list N) :=
  let pending := if limit =? 0 then pending else 0 in
  if (limit =? 0) || (pos <? limit) then
    match fuel, l with
    | _, [] => if pending =? 0 then Some ([], []) else None
    | O, _ => None
    | S k, b :: _ =>
        match dec_operand (part pending 6 b) l with
        | Some (a, rest) =>
            if is_indirect a then Some ([a], rest)
            else match dec_limited k limit (pos + N.of_nat (length l - length rest)) (if is_tx a then 2 else 0) rest with
                 | Some (c, rest') => Some (a :: c, rest')
                 | None => None
                 end
        | None => None
        end
    end
  else Some ([], l).

(** ** Frames *)
Definition dec_fframe {E : Env} : dec fframe := fun d =>
  match dec_link d with
  | Some ((limit, link), l) =>
      match dec_headers l with
      | Some (net, l1) =>
          match dec_limited (length l1) limit (N.of_nat (length d - length l1))
                  (match e_feat with Wizzilab => 1 | _ => 0 end) l1 with
          | Some (c, l2) =>
              match host_num 2 l2 with
              | Some (crc, rest) => Some (link (net c) crc, rest)
              | None => None
              end
          | None => None
          end
      | None => None
      end
  | None => None
  end.
Definition dec_bframe {E : Env} : dec bframe :=
  let* s := one in let* c := one in
  let* t := named code_address_type address_types (part 6 2 c) in
  let* p := host_num 2 in let* k := host_num 2 in
  give (mkBFrame s t (part 0 6 c) p k).

(** The number of bits that are counted as read for a frame decoded from the first [n] bytes: the
    first byte of every action counts twice; what is lost behind a transmission status and, with
    wizzilab, in front of the command does not count. *)
Definition frame_bits {E : Env} (n : nat) (v : fframe) : nat :=
  let c := tf_command (nf_frame (ff_frame v)) in
  (8 * n + 8 * length c - 2 * count_tx c - match e_feat with Wizzilab => 1 | _ => 0 end)%nat.
