(** FileId as a type of its own, and the number an access profile file carries in its type. *)
From Coq Require Import List NArith Bool.
From Verif Require Import Base Deku File.
Import ListNotations.
Open Scope N_scope.

(** file/mod.rs:28-115 derived DekuWrite: the id of the variant in 8 bits; an [id_pat] variant has
    neither an id nor fields, so nothing is written (lines 69, 81, 113). *)
Definition write_file_id (v : file_id) : writer :=
  match file_id_deku_id v with Ok n => write_u8 n | _ => wnil end.

(** file/access_profile.rs:12-16 AccessProfile::<S>::specifier: the constant of the type. *)
Definition access_profile_specifier (s : N) : N := s.
