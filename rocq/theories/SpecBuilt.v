(** Vocabulary for C95: what values from constructors, conversions and [update] are written as, from
    the arguments. *)
From Coq Require Import List NArith Bool.
From Verif Require Import Base Deku Utils Types Physical Link Network Session Data Query
  Interface File Operation SpecLayout SpecFrames SpecTables.
Import ListNotations.
Open Scope N_scope.

(** The number of elements, as far as it fits into 32 bits. *)
Definition count {A} (l : list A) : N := N.of_nat (length l) mod 2 ^ 32.
Definition announced {A} (l : list A) : N * N := (1, match l with [] => 0 | _ => 1 end).
Definition b_cmp_zero (p : arith_params) (k : list N) (f : file_offset) : table :=
  (3, 1) :: announced k :: t_arith p ++ octets (enc_length (count k)) ++ octets k ++ t_offset f.
(** The length is that of the value, not of the mask. *)
Definition b_cmp_value (p : arith_params) (k v : list N) (f : file_offset) : table :=
  (3, 2) :: announced k :: t_arith p ++ octets (enc_length (count v)) ++ octets k ++ octets v ++ t_offset f.
Definition b_cmp_other (p : arith_params) (n : N) (k : list N) (f g : file_offset) : table :=
  (3, 3) :: announced k :: t_arith p ++ octets (enc_length n) ++ octets k ++ t_offset f ++ t_offset g.
Definition b_bitmap_range (p : range_params) (n start stop : N) (k : list N) (f : file_offset) : table :=
  (3, 4) :: announced k :: (1, bit (rp_signed p)) :: (3, code_range (rp_cmp p)) ::
  octets (enc_length n) ++ octets (enc_length start) ++ octets (enc_length stop) ++ octets k ++ t_offset f.
Definition b_string_search (e : N) (k v : list N) (f : file_offset) : table :=
  (3, 7) :: announced k :: (1, 0) :: (3, e) :: octets (enc_length (count v)) ++ octets k ++ octets v ++ t_offset f.

(** The codes of the kind of an address and of a security state. *)
Definition kind_of_address (a : address) : N := match a with NbId _ => 0 | NoId => 1 | UId _ => 2 | VId _ => 3 end.
Definition kind_of_state (s : nls_state) : N :=
  match s with
  | NsNone => 0 | NsAesCtr _ => 1 | NsAesCbcMac128 _ => 2 | NsAesCbcMac64 _ => 3 | NsAesCbcMac32 _ => 4
  | NsAesCcm128 _ => 5 | NsAesCcm64 _ => 6 | NsAesCcm32 _ => 7
  end.
Definition b_addressee {E : Env} (u : bool) (g : group_condition) (a : address) (s : nls_state) (c : access_class) : table :=
  match e_feat with
  | Wizzilab => [(2, code_group g); (2, kind_of_address a); (1, bit u); (3, kind_of_state s)]
  | _ => [(2, 0); (2, kind_of_address a); (4, kind_of_state s)]
  end ++ t_access_class c ++ t_address a ++ octets (enc_nls_state s).
Definition b_phy_status (up rx tx duty n : N) (l : list channel_status) : table :=
  [(32, up); (32, rx); (32, tx); (16, duty); (8, n)] ++ flat_map t_channel_status l.
(** The type of an interface status; a status of another interface has none. *)
Definition b_itf_status {E : Env} (s : interface_status) : table :=
  match s with IsHost => [(8, 0)] | IsSerial => [(8, 1)] | IsDash7 _ => [(8, 0xD7)] | IsOther _ => [] end ++
  t_prefixed (t_interface_status s).
Definition b_status {E : Env} (s : status) : table :=
  (2, match s with StatusAction _ => 0 | StatusInterface _ => 1 | StatusInterfaceFinal _ => 2 end) :: (6, 34) :: t_status s.
Definition b_indirect {E : Env} (r : bool) (c : option indirect_interface) : table :=
  (1, match c with Some _ => 1 | None => 0 end) :: (1, bit r) :: (6, 51) :: t_optional t_indirect_interface c.
(** Numbers that can be written as a Length, and as a VarInt. *)
Definition short (l : list N) : Prop := Forall (fun n => n < 2 ^ 30) l.
Definition small (l : list N) : Prop := Forall (fun n => n <= 507904) l.
