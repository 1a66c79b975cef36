(** C85: file ids on their own. *)
From Coq Require Import List NArith Bool.
From Verif Require Import Base Deku File FileId WellFormed SpecFileId LFileId.
Import ListNotations.
Open Scope N_scope.

(** The number of every name. *)
Theorem C85_codes : forall (E : Env) b v, u8 b ->
  (file_id_try_from b = Ok v <-> file_id_number v b \/ file_id_shared v b).
Proof. exact @file_id_codes. Qed.
Print Assumptions C85_codes.

(** What is read from a byte string. A deku that puts the id of a variant with a pattern back returns
    a reserved number unread, and rejects it where nothing may be left. *)
Theorem C85_parsed : forall (E : Env) b t, u8 b -> exists v, (file_id_number v b \/ file_id_shared v b) /\
  (file_id_number v b ->
     d_from_bytes read_file_id (b :: t) 0 = Ok ((t, 0%nat), v) /\
     d_try_from read_file_id (b :: t) = match t with [] => Ok v | _ => Err ETooMuchData end) /\
  (file_id_shared v b ->
     d_from_bytes read_file_id (b :: t) 0 = Ok ((if e_rewind then b :: t else t, 0%nat), v) /\
     d_try_from read_file_id (b :: t)
     = if e_rewind then Err ETooMuchData else match t with [] => Ok v | _ => Err ETooMuchData end).
Proof. exact @file_id_parsed. Qed.
Print Assumptions C85_parsed.
Theorem C85_empty : forall (E : Env), d_from_bytes read_file_id [] 0 = Err EIncomplete /\
  d_try_from read_file_id [] = Err EIncomplete.
Proof. exact @file_id_empty. Qed.
Print Assumptions C85_empty.

(** What is written: one byte for a name of its own, nothing for a shared one. *)
Theorem C85_written : forall v,
  (forall b, file_id_number v b -> to_bytes (write_file_id v) = Ok [b]) /\
  (forall b, u8 b -> file_id_shared v b -> to_bytes (write_file_id v) = Ok []).
Proof. exact file_id_written. Qed.
Print Assumptions C85_written.

(** "A file id that was parsed comes back when it is written and parsed again" is false ... *)
Theorem C85_survives_refuted : forall (E : Env), exists b v l,
  u8 b /\ file_id_try_from b = Ok v /\ to_bytes (write_file_id v) = Ok l /\ l = [] /\
  d_try_from read_file_id l = Err EIncomplete /\ file_id_into v = Panic.
Proof. exact @file_id_survives_refuted. Qed.
Print Assumptions C85_survives_refuted.

(** ... and true exactly for the names with one number. *)
Theorem C85_survives_exact : forall (E : Env) v, file_id_value v ->
  ((exists l, to_bytes (write_file_id v) = Ok l /\ d_try_from read_file_id l = Ok v) <->
   exists b, file_id_number v b).
Proof. exact @file_id_survives. Qed.
Print Assumptions C85_survives_exact.

(** The specifier of an access profile file is the one its file id names. *)
Theorem C85_specifier : forall (E : Env) s i, access_profile_ID s < 256 ->
  (file_id_try_from (access_profile_ID s) = Ok (FidAccessProfile i) <-> s < 15 /\ access_profile_specifier s = i).
Proof. exact @profile_specifier. Qed.
Print Assumptions C85_specifier.

(** 0x19 is the user key, 0x15 is reserved: it is written as nothing, and read or refused depending
    on deku. *)
Example C85_example :
  file_id_number FidUserKey 0x19 /\ file_id_shared FidRfu 0x15 /\
  to_bytes (write_file_id FidUserKey) = Ok [0x19] /\ to_bytes (write_file_id FidRfu) = Ok [] /\
  (let E := Build_Env Spec Little true in
   d_from_bytes read_file_id [0x15; 1] 0 = Ok (([0x15; 1], 0%nat), FidRfu) /\
   d_try_from read_file_id [0x15] = Err ETooMuchData) /\
  (let E := Build_Env Spec Little false in
   d_from_bytes read_file_id [0x15; 1] 0 = Ok (([1], 0%nat), FidRfu) /\
   d_try_from read_file_id [0x15] = Ok FidRfu) /\
  (let E := Build_Env Wizzilab Big true in d_from_bytes read_file_id [0x19; 1] 0 = Ok (([1], 0%nat), FidUserKey)).
Proof.
  split; [exists 0x17, [FidLocationData; FidRootKey; FidUserKey], 2%nat; split; [cbn; tauto|split; reflexivity]|].
  split; [left; split; [reflexivity|right; split; discriminate]|].
  repeat split; reflexivity.
Qed.
