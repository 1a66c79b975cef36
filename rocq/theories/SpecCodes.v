(** Vocabulary for code-carrying enums, narrow bit fields and the small helpers. *)
From Coq Require Import List NArith ZArith Bool Lia.
From Verif Require Import Base Deku Utils Types Physical Link Network Session Query WellFormed SpecApi.
Import ListNotations.
Open Scope N_scope.

(** An enum of [n] bits with the assigned codes [codes]: what [m] makes of the next [n] bits of
    any stream, what [w] writes, and [code] is a bijection between the variants and [codes]. *)
Definition faithful {A} (n : nat) (m : reader A) (w : A -> writer) (code : A -> N) (codes : list N) : Prop :=
  (forall r c rest, reader_state r -> c < 2 ^ N.of_nat n -> view r = bits_of n c ++ rest ->
     (In c codes -> exists v r', m r = Ok (v, r') /\ code v = c /\
        reader_state r' /\ view r' = rest /\ data r' = data r) /\
     (~ In c codes -> m r = Err EParse)) /\
  (forall v, w v = Ok (bits_of n (code v))) /\
  (forall v, In (code v) codes /\ code v < 2 ^ N.of_nat n) /\
  (forall v v', code v = code v' -> v = v') /\
  (forall c, In c codes -> exists v, code v = c).

Definition code_csma v := match v with Unc => 0 | Aind => 1 | Raind => 2 | Rigd => 3 end.

(** Codes 0 to [n] - 1. *)
Definition upto (n : nat) : list N := map N.of_nat (seq 0 n).
(** The codes of the final status: 0 and 0xEA to 0xFF. *)
Definition final_codes : list N :=
  [0; 0xEA; 0xEB; 0xEC; 0xED; 0xEE; 0xEF; 0xF0; 0xF1; 0xF2; 0xF3; 0xF4; 0xF5; 0xF6; 0xF7; 0xF8;
   0xF9; 0xFA; 0xFB; 0xFC; 0xFD; 0xFE; 0xFF].

(** [l] is a suffix of [d]. *)
Definition suffix {A} (l d : list A) : Prop := exists p, d = p ++ l.

(** A value with one field reduced to the bits that the wire has for it. *)
Definition cut_access_class (v : access_class) : access_class :=
  mkAccessClass (ac_specifier v mod 16) (ac_mask v mod 16).
Definition cut_channel_status (v : channel_status) : channel_status :=
  let i := cs_identifier v in
  mkChannelStatus (mkChannelStatusIdentifier (csi_band i) (csi_bandwidth i) (csi_index i mod 2048)) (cs_noise_floor v).
Definition cut_string_search (v : string_search) : string_search :=
  mkStringSearch (ss_mask_present v) (ss_max_errors v mod 8) (ss_length v)
    (ss_mask v) (ss_value v) (ss_file v).

(** [v] is written without an error as the bytes [l], which are read as [v']; it comes back only
    if it is [v'] itself. *)
Definition written_as {A} (w : A -> writer) (m : reader A) (l : list N) (v v' : A) : Prop :=
  to_bytes (w v) = Ok l /\ d_try_from m l = Ok v' /\
  ((exists l' rest, to_bytes (w v) = Ok l' /\ d_from_bytes m l' 0 = Ok (rest, v)) <-> v = v').

(** The id of a query. *)
Definition code_query (q : query) : N :=
  match q with
  | QNonVoid _ => 0 | QCmpZero _ => 1 | QCmpValue _ => 2 | QCmpOther _ => 3 | QBitmapRange _ => 4
  | QStringSearch _ => 7
  end.

(** Interface statuses whose type has a code of its own. *)
Definition known_status {E : Env} (s : interface_status) : Prop :=
  match s with
  | IsHost | IsSerial => True
  | IsDash7 d => wf_dash7_status d
  | IsOther _ => False
  end.
