(** dash7/src/data/mod.rs. *)
From Coq Require Import List NArith ZArith Bool Lia.
From Verif Require Import Base Deku Utils Types.
Import ListNotations.
Open Scope N_scope.

(** data/mod.rs:4-16 ActionCondition (3 bits). *)
Inductive action_condition := AcList | AcRead | AcWrite | AcWriteFlush.
Definition action_condition_tbl := [(0, AcList); (1, AcRead); (2, AcWrite); (3, AcWriteFlush)].
Definition action_condition_id (v : action_condition) : N :=
  match v with AcList => 0 | AcRead => 1 | AcWrite => 2 | AcWriteFlush => 3 end.
Definition read_action_condition := read_enum 3 (fun n => assoc n action_condition_tbl).
Definition write_action_condition v := write_uint 3 (action_condition_id v).

(** data/mod.rs:18-38 StorageClass (2 bits). *)
Inductive storage_class := Transient | Volatile | Restorable | Permanent.
Definition storage_class_tbl := [(0, Transient); (1, Volatile); (2, Restorable); (3, Permanent)].
Definition storage_class_id (v : storage_class) : N :=
  match v with Transient => 0 | Volatile => 1 | Restorable => 2 | Permanent => 3 end.
Definition read_storage_class := read_enum 2 (fun n => assoc n storage_class_tbl).
Definition write_storage_class v := write_uint 2 (storage_class_id v).

(** data/mod.rs:40-48 UserPermissions. *)
Record user_permissions := mkUserPerm { up_read : bool; up_write : bool; up_exec : bool }.
Definition read_user_permissions : reader user_permissions :=
  a <- read_bool ;; b <- read_bool ;; c <- read_bool ;; ret (mkUserPerm a b c).
Definition write_user_permissions (v : user_permissions) : writer :=
  write_bool (up_read v) +++ write_bool (up_write v) +++ write_bool (up_exec v).

(** data/mod.rs:50-58 FilePermissions. *)
Record file_permissions := mkFilePerm {
  fp_encrypted : bool; fp_exec : bool; fp_user : user_permissions; fp_guest : user_permissions }.
Definition read_file_permissions : reader file_permissions :=
  a <- read_bool ;; b <- read_bool ;; u <- read_user_permissions ;;
  g <- read_user_permissions ;; ret (mkFilePerm a b u g).
Definition write_file_permissions (v : file_permissions) : writer :=
  write_bool (fp_encrypted v) +++ write_bool (fp_exec v) +++ write_user_permissions (fp_user v)
  +++ write_user_permissions (fp_guest v).

(** data/mod.rs:60-72 FileProperties. *)
Record fs_properties := mkFsProp {
  pr_enabled : bool; pr_condition : action_condition; pr_class : storage_class }.
Definition read_fs_properties : reader fs_properties :=
  e <- read_bool ;; c <- read_action_condition ;; skip_bits 2 ;;; s <- read_storage_class ;;
  ret (mkFsProp e c s).
Definition write_fs_properties (v : fs_properties) : writer :=
  write_bool (pr_enabled v) +++ write_action_condition (pr_condition v) +++ write_pad 2
  +++ write_storage_class (pr_class v).

(** data/mod.rs:74-84 FileHeader. *)
Record file_header := mkFileHeader {
  fh_perm : file_permissions; fh_prop : fs_properties; fh_alp_file : N; fh_itf_file : N;
  fh_size : N; fh_alloc : N }.
Definition read_file_header : reader file_header :=
  p <- read_file_permissions ;; q <- read_fs_properties ;; a <- read_u8 ;; i <- read_u8 ;;
  s <- read_u32be ;; t <- read_u32be ;; ret (mkFileHeader p q a i s t).
Definition write_file_header (v : file_header) : writer :=
  write_file_permissions (fh_perm v) +++ write_fs_properties (fh_prop v)
  +++ write_u8 (fh_alp_file v) +++ write_u8 (fh_itf_file v) +++ write_u32be (fh_size v)
  +++ write_u32be (fh_alloc v).
