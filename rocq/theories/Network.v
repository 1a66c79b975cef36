(** dash7/src/network/mod.rs, network/addressee.rs and the enum of transport/mod.rs they need. *)
From Coq Require Import List NArith ZArith Bool Lia.
From Verif Require Import Base Deku Utils Types Physical Link.
Import ListNotations.
Open Scope N_scope.

(** transport/mod.rs:5-21 GroupCondition (2 bits). *)
Inductive group_condition := GcAny | GcNotEqual | GcEqual | GcGreaterThan.
Definition group_condition_tbl := [(0, GcAny); (1, GcNotEqual); (2, GcEqual); (3, GcGreaterThan)].
Definition group_condition_id (v : group_condition) : N :=
  match v with GcAny => 0 | GcNotEqual => 1 | GcEqual => 2 | GcGreaterThan => 3 end.
Definition read_group_condition := read_enum 2 (fun n => assoc n group_condition_tbl).
Definition write_group_condition v := write_uint 2 (group_condition_id v).

(** network/mod.rs:13-50 NlsMethod: 4 bits, 3 bits with the wizzilab feature. *)
Inductive nls_method :=
| NlsNone | NlsAesCtr | NlsAesCbcMac128 | NlsAesCbcMac64 | NlsAesCbcMac32
| NlsAesCcm128 | NlsAesCcm64 | NlsAesCcm32.
Definition nls_method_tbl :=
  [(0, NlsNone); (1, NlsAesCtr); (2, NlsAesCbcMac128); (3, NlsAesCbcMac64);
   (4, NlsAesCbcMac32); (5, NlsAesCcm128); (6, NlsAesCcm64); (7, NlsAesCcm32)].
Definition nls_method_id (v : nls_method) : N :=
  match v with
  | NlsNone => 0 | NlsAesCtr => 1 | NlsAesCbcMac128 => 2 | NlsAesCbcMac64 => 3
  | NlsAesCbcMac32 => 4 | NlsAesCcm128 => 5 | NlsAesCcm64 => 6 | NlsAesCcm32 => 7
  end.
Definition nls_bits {E : Env} : nat := if is_wizzilab then 3 else 4.
Definition read_nls_method {E : Env} := read_enum nls_bits (fun n => assoc n nls_method_tbl).
Definition write_nls_method {E : Env} v := write_uint nls_bits (nls_method_id v).

(** network/mod.rs:53-73 NlsState: [None] or one of seven methods with 5 bytes. *)
Inductive nls_state :=
| NsNone | NsAesCtr (k : list N) | NsAesCbcMac128 (k : list N) | NsAesCbcMac64 (k : list N)
| NsAesCbcMac32 (k : list N) | NsAesCcm128 (k : list N) | NsAesCcm64 (k : list N)
| NsAesCcm32 (k : list N).
(** derived deku_id of NlsState. *)
Definition nls_state_method (v : nls_state) : nls_method :=
  match v with
  | NsNone => NlsNone | NsAesCtr _ => NlsAesCtr | NsAesCbcMac128 _ => NlsAesCbcMac128
  | NsAesCbcMac64 _ => NlsAesCbcMac64 | NsAesCbcMac32 _ => NlsAesCbcMac32
  | NsAesCcm128 _ => NlsAesCcm128 | NsAesCcm64 _ => NlsAesCcm64 | NsAesCcm32 _ => NlsAesCcm32
  end.
Definition read_nls_state (m : nls_method) : reader nls_state :=
  match m with
  | NlsNone => ret NsNone
  | NlsAesCtr => k <- read_list 5 read_u8 ;; ret (NsAesCtr k)
  | NlsAesCbcMac128 => k <- read_list 5 read_u8 ;; ret (NsAesCbcMac128 k)
  | NlsAesCbcMac64 => k <- read_list 5 read_u8 ;; ret (NsAesCbcMac64 k)
  | NlsAesCbcMac32 => k <- read_list 5 read_u8 ;; ret (NsAesCbcMac32 k)
  | NlsAesCcm128 => k <- read_list 5 read_u8 ;; ret (NsAesCcm128 k)
  | NlsAesCcm64 => k <- read_list 5 read_u8 ;; ret (NsAesCcm64 k)
  | NlsAesCcm32 => k <- read_list 5 read_u8 ;; ret (NsAesCcm32 k)
  end.
Definition write_nls_state (v : nls_state) : writer :=
  match v with
  | NsNone => wnil
  | NsAesCtr k | NsAesCbcMac128 k | NsAesCbcMac64 k | NsAesCbcMac32 k
  | NsAesCcm128 k | NsAesCcm64 k | NsAesCcm32 k => write_list write_u8 k
  end.

(** network/mod.rs:75-91 AddressType (2 bits). *)
Inductive address_type := AtNbId | AtNoId | AtUId | AtVId.
Definition address_type_tbl := [(0, AtNbId); (1, AtNoId); (2, AtUId); (3, AtVId)].
Definition address_type_id (v : address_type) : N :=
  match v with AtNbId => 0 | AtNoId => 1 | AtUId => 2 | AtVId => 3 end.
Definition read_address_type := read_enum 2 (fun n => assoc n address_type_tbl).
Definition write_address_type v := write_uint 2 (address_type_id v).

(** network/mod.rs:93-109 Address. *)
Inductive address := NbId (v : varint) | NoId | UId (v : N) | VId (v : N).
(** derived deku_id of Address. *)
Definition address_kind (a : address) : address_type :=
  match a with NbId _ => AtNbId | NoId => AtNoId | UId _ => AtUId | VId _ => AtVId end.
Definition read_address (t : address_type) : reader address :=
  match t with
  | AtNbId => v <- read_varint ;; ret (NbId v)
  | AtNoId => ret NoId
  | AtUId => v <- read_u64be ;; ret (UId v)
  | AtVId => v <- read_u16be ;; ret (VId v)
  end.
Definition write_address (a : address) : writer :=
  match a with
  | NbId v => write_varint v
  | NoId => wnil
  | UId v => write_u64be v
  | VId v => write_u16be v
  end.

(** network/addressee.rs:10-35 Addressee. [group_condition] and [use_vid] exist only with the
    wizzilab feature (lines 13-14, 21-23); without it the model keeps them at their default and
    neither reads nor writes them. *)
Record addressee := mkAddressee {
  ad_group : group_condition; ad_type : address_type; ad_use_vid : bool; ad_nls : nls_method;
  ad_access : access_class; ad_address : address; ad_state : nls_state }.
Definition read_addressee {E : Env} : reader addressee :=
  g <- (if is_wizzilab then read_group_condition else skip_bits 2 ;;; ret GcAny) ;;
  t <- read_address_type ;;
  u <- (if is_wizzilab then read_bool else ret false) ;;
  n <- read_nls_method ;;
  c <- read_access_class ;;
  a <- read_address t ;;
  s <- read_nls_state n ;;
  ret (mkAddressee g t u n c a s).
Definition write_addressee {E : Env} (v : addressee) : writer :=
  (if is_wizzilab then write_group_condition (ad_group v) else write_pad 2)
  +++ write_address_type (ad_type v)
  +++ (if is_wizzilab then write_bool (ad_use_vid v) else wnil)
  +++ write_nls_method (ad_nls v)
  +++ write_access_class (ad_access v)
  +++ write_address (ad_address v)
  +++ write_nls_state (ad_state v).

(** network/addressee.rs:38-66 Addressee::new. Without the wizzilab feature the function has no
    [use_vid] and [group_condition] arguments: callers pass [false] and [GcAny]. *)
Definition addressee_new (use_vid : bool) (g : group_condition) (a : address) (s : nls_state)
  (c : access_class) : addressee :=
  mkAddressee g (address_kind a) use_vid (nls_state_method s) c a s.

(** Derived DekuUpdate::update (attributes at network/addressee.rs:17, 25). *)
Definition addressee_update (v : addressee) : addressee :=
  mkAddressee (ad_group v) (address_kind (ad_address v)) (ad_use_vid v)
    (nls_state_method (ad_state v)) (ad_access v) (ad_address v) (ad_state v).
