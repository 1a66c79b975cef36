(** What the argument of `dash7 parse` means: white space, hex digits, bytes; and what it means for
    bytes to be none of the supported kinds. *)
From Coq Require Import List NArith Bool Relations.
From Verif Require Import Base Deku Network File Action Command Frames Cli SpecApi.
Import ListNotations.
Open Scope N_scope.

(** The 25 code points with the Unicode property White_Space. *)
Definition white_space : list N :=
  [0x09; 0x0A; 0x0B; 0x0C; 0x0D; 0x20; 0x85; 0xA0; 0x1680;
   0x2000; 0x2001; 0x2002; 0x2003; 0x2004; 0x2005; 0x2006; 0x2007; 0x2008; 0x2009; 0x200A;
   0x2028; 0x2029; 0x202F; 0x205F; 0x3000].

(** The 22 hex digits and what they stand for. *)
Definition hex_digits : list (N * N) :=
  [(48, 0); (49, 1); (50, 2); (51, 3); (52, 4); (53, 5); (54, 6); (55, 7); (56, 8); (57, 9);
   (65, 10); (66, 11); (67, 12); (68, 13); (69, 14); (70, 15);
   (97, 10); (98, 11); (99, 12); (100, 13); (101, 14); (102, 15)].

(** The digits of a string, white space anywhere. *)
Inductive digits : list N -> list N -> Prop :=
| dg_end : digits [] []
| dg_space c s l : In c white_space -> digits s l -> digits (c :: s) l
| dg_digit c v s l : In (c, v) hex_digits -> digits s l -> digits (c :: s) (v :: l).
(** Two digits make a byte. *)
Inductive paired : list N -> list N -> Prop :=
| pr_end : paired [] []
| pr_byte h l ns bs : paired ns bs -> paired (h :: l :: ns) (16 * h + l :: bs).
Definition spells (s bs : list N) : Prop := exists ns, digits s ns /\ paired ns bs.

(** One white space character inserted. *)
Inductive spaced : list N -> list N -> Prop :=
| sp_insert a c b : In c white_space -> spaced (a ++ b) (a ++ c :: b).
(** Any number of insertions and removals. *)
Definition same_but_space : list N -> list N -> Prop := clos_refl_sym_trans _ spaced.

(** The program either prints [l] or ends with a failure. *)
Definition prints (o : res (list printed)) (l : list printed) : Prop := o = Ok l.
Definition fails (o : res (list printed)) : Prop := o = Panic.

(** System files with a structure of their own. *)
Definition structured (id : file_id) : Prop :=
  match id with
  | FidUId | FidFactorySettings | FidFirmwareVersion | FidEngineeringMode | FidVId | FidPhyStatus
  | FidDllConfig | FidDllStatus | FidNetworkSecurityKey | FidAccessProfile _ => True
  | _ => False
  end.
(** No frame, no command and no such system file. *)
Definition no_file {E : Env} (d : list N) : Prop :=
  forall id rest f, structured id -> file_from_bytes d 0 id 0 <> Ok (rest, f).
Definition no_kind {E : Env} (d : list N) : Prop :=
  (forall f, fframe_try_from d <> Ok f) /\ (forall f, bframe_try_from d <> Ok f) /\
  (forall c, command_try_from d <> Ok c) /\ no_file d.
