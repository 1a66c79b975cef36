(** dash7/src/link/mod.rs. *)
From Coq Require Import List NArith ZArith Bool Lia.
From Verif Require Import Base Deku Utils Types Physical.
Import ListNotations.
Open Scope N_scope.

(** link/mod.rs:11-14 SubProfile. *)
Record sub_profile := mkSubProfile { sp_bitmap : N; sp_period : varint }.
Definition read_sub_profile : reader sub_profile :=
  b <- read_u8 ;; p <- read_varint ;; ret (mkSubProfile b p).
Definition write_sub_profile (v : sub_profile) : writer :=
  write_u8 (sp_bitmap v) +++ write_varint (sp_period v).

(** link/mod.rs:23-28 AccessClass: two 4-bit fields held in u8. *)
Record access_class := mkAccessClass { ac_specifier : N; ac_mask : N }.
Definition read_access_class : reader access_class :=
  s <- read_uint 4 ;; m <- read_uint 4 ;; ret (mkAccessClass s m).
Definition write_access_class (v : access_class) : writer :=
  write_uint 4 (ac_specifier v) +++ write_uint 4 (ac_mask v).

(** link/mod.rs:44-58 AccessProfile. The arrays [[SubProfile; 4]] and [[SubBand; 8]] are lists;
    that their lengths are 4 and 8 is part of the well-formedness predicate. *)
Record access_profile := mkAccessProfile {
  ap_header : channel_header; ap_sub_profiles : list sub_profile; ap_sub_bands : list sub_band }.
Definition read_access_profile : reader access_profile :=
  h <- read_channel_header ;;
  p <- read_array 4 read_sub_profile ;;
  b <- read_array 8 read_sub_band ;;
  ret (mkAccessProfile h p b).
Definition write_access_profile (v : access_profile) : writer :=
  write_channel_header (ap_header v) +++ write_array write_sub_profile (ap_sub_profiles v)
  +++ write_array write_sub_band (ap_sub_bands v).
