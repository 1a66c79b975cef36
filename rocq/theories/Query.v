(** dash7/src/app/query.rs. *)
From Coq Require Import List NArith ZArith Bool Lia.
From Verif Require Import Base Deku Utils Types.
Import ListNotations.
Open Scope N_scope.

(** app/query.rs:5-21 ArithmeticComparisonType (3 bits). *)
Inductive arith_cmp := CmpInequal | CmpEqual | CmpLt | CmpLe | CmpGt | CmpGe.
Definition arith_cmp_tbl :=
  [(0, CmpInequal); (1, CmpEqual); (2, CmpLt); (3, CmpLe); (4, CmpGt); (5, CmpGe)].
Definition arith_cmp_id (v : arith_cmp) : N :=
  match v with
  | CmpInequal => 0 | CmpEqual => 1 | CmpLt => 2 | CmpLe => 3 | CmpGt => 4 | CmpGe => 5
  end.
Definition read_arith_cmp := read_enum 3 (fun n => assoc n arith_cmp_tbl).
Definition write_arith_cmp v := write_uint 3 (arith_cmp_id v).

(** app/query.rs:23-28 ArithmeticQueryParams. *)
Record arith_params := mkArithParams { ap_signed : bool; ap_cmp : arith_cmp }.
Definition read_arith_params : reader arith_params :=
  s <- read_bool ;; c <- read_arith_cmp ;; ret (mkArithParams s c).
Definition write_arith_params (v : arith_params) : writer :=
  write_bool (ap_signed v) +++ write_arith_cmp (ap_cmp v).

(** app/query.rs:30-38 RangeComparisonType (3 bits). *)
Inductive range_cmp := NotInRange | InRange.
Definition range_cmp_tbl := [(0, NotInRange); (1, InRange)].
Definition range_cmp_id (v : range_cmp) : N := match v with NotInRange => 0 | InRange => 1 end.
Definition read_range_cmp := read_enum 3 (fun n => assoc n range_cmp_tbl).
Definition write_range_cmp v := write_uint 3 (range_cmp_id v).

(** app/query.rs:40-45 RangeQueryParams. *)
Record range_params := mkRangeParams { rp_signed : bool; rp_cmp : range_cmp }.
Definition read_range_params : reader range_params :=
  s <- read_bool ;; c <- read_range_cmp ;; ret (mkRangeParams s c).
Definition write_range_params (v : range_params) : writer :=
  write_bool (rp_signed v) +++ write_range_cmp (rp_cmp v).

(** A [Vec<u8>] with both [cond] and [count] (app/query.rs:89, 117, 152): read if the condition
    holds, otherwise the default, the empty vector. *)
Definition read_cond_vec (c : bool) (n : N) : reader (list N) :=
  if c then read_vec_u8 n else ret [].

(** app/query.rs:72-77 NonVoid. *)
Record non_void := mkNonVoid { nv_length : N; nv_file : file_offset }.
Definition read_non_void : reader non_void :=
  skip_bits 5 ;;; l <- read_length ;; f <- read_file_offset ;; ret (mkNonVoid l f).
Definition write_non_void (v : non_void) : writer :=
  write_pad 5 +++ write_length (nv_length v) +++ write_file_offset (nv_file v).

(** app/query.rs:79-92 ComparisonWithZero. *)
Record cmp_zero := mkCmpZero {
  cz_mask_present : bool; cz_params : arith_params; cz_length : N; cz_mask : list N;
  cz_file : file_offset }.
Definition read_cmp_zero : reader cmp_zero :=
  m <- read_bool ;; p <- read_arith_params ;; l <- read_length ;; k <- read_cond_vec m l ;;
  f <- read_file_offset ;; ret (mkCmpZero m p l k f).
Definition write_cmp_zero (v : cmp_zero) : writer :=
  write_bool (cz_mask_present v) +++ write_arith_params (cz_params v)
  +++ write_length (cz_length v) +++ write_vec_u8 (cz_mask v) +++ write_file_offset (cz_file v).
(** app/query.rs:95-103 ComparisonWithZero::new. *)
Definition cmp_zero_new p (mask : list N) f : cmp_zero :=
  mkCmpZero (Nat.ltb 0 (length mask)) p (length_of_usize (length mask)) mask f.
(** Derived update (lines 81, 86). *)
Definition cmp_zero_update (v : cmp_zero) : cmp_zero :=
  mkCmpZero (Nat.ltb 0 (length (cz_mask v))) (cz_params v)
    (length_of_usize (length (cz_mask v))) (cz_mask v) (cz_file v).

(** app/query.rs:107-124 ComparisonWithValue. *)
Record cmp_value := mkCmpValue {
  cv_mask_present : bool; cv_params : arith_params; cv_length : N; cv_mask : list N;
  cv_value : list N; cv_file : file_offset }.
Definition read_cmp_value : reader cmp_value :=
  m <- read_bool ;; p <- read_arith_params ;; l <- read_length ;; k <- read_cond_vec m l ;;
  v <- read_vec_u8 l ;; f <- read_file_offset ;; ret (mkCmpValue m p l k v f).
Definition write_cmp_value (v : cmp_value) : writer :=
  write_bool (cv_mask_present v) +++ write_arith_params (cv_params v)
  +++ write_length (cv_length v) +++ write_vec_u8 (cv_mask v) +++ write_vec_u8 (cv_value v)
  +++ write_file_offset (cv_file v).
(** app/query.rs:127-141 ComparisonWithValue::new. *)
Definition cmp_value_new p (mask value : list N) f : cmp_value :=
  mkCmpValue (Nat.ltb 0 (length mask)) p (length_of_usize (length value)) mask value f.
(** Derived update (lines 109, 114). *)
Definition cmp_value_update (v : cmp_value) : cmp_value :=
  mkCmpValue (Nat.ltb 0 (length (cv_mask v))) (cv_params v)
    (length_of_usize (length (cv_value v))) (cv_mask v) (cv_value v) (cv_file v).

(** app/query.rs:145-157 ComparisonWithOtherFile. *)
Record cmp_other := mkCmpOther {
  co_mask_present : bool; co_params : arith_params; co_length : N; co_mask : list N;
  co_file1 : file_offset; co_file2 : file_offset }.
Definition read_cmp_other : reader cmp_other :=
  m <- read_bool ;; p <- read_arith_params ;; l <- read_length ;; k <- read_cond_vec m l ;;
  f <- read_file_offset ;; g <- read_file_offset ;; ret (mkCmpOther m p l k f g).
Definition write_cmp_other (v : cmp_other) : writer :=
  write_bool (co_mask_present v) +++ write_arith_params (co_params v)
  +++ write_length (co_length v) +++ write_vec_u8 (co_mask v) +++ write_file_offset (co_file1 v)
  +++ write_file_offset (co_file2 v).
(** app/query.rs:160-174 ComparisonWithOtherFile::new. *)
Definition cmp_other_new p (mask : list N) f g : cmp_other :=
  mkCmpOther (Nat.ltb 0 (length mask)) p (length_of_usize (length mask)) mask f g.
(** Derived update (line 147 only: [length] has no update attribute). *)
Definition cmp_other_update (v : cmp_other) : cmp_other :=
  mkCmpOther (Nat.ltb 0 (length (co_mask v))) (co_params v) (co_length v) (co_mask v)
    (co_file1 v) (co_file2 v).

(** app/query.rs:178-195 BitmapRangeComparison. The mask is read whether or not [mask_present]. *)
Record bitmap_range := mkBitmapRange {
  br_mask_present : bool; br_params : range_params; br_length : N; br_start : N; br_stop : N;
  br_mask : list N; br_file : file_offset }.
Definition read_bitmap_range : reader bitmap_range :=
  m <- read_bool ;; p <- read_range_params ;; l <- read_length ;; s <- read_length ;;
  t <- read_length ;; k <- read_vec_u8 l ;; f <- read_file_offset ;;
  ret (mkBitmapRange m p l s t k f).
Definition write_bitmap_range (v : bitmap_range) : writer :=
  write_bool (br_mask_present v) +++ write_range_params (br_params v)
  +++ write_length (br_length v) +++ write_length (br_start v) +++ write_length (br_stop v)
  +++ write_vec_u8 (br_mask v) +++ write_file_offset (br_file v).
(** app/query.rs:198-214 BitmapRangeComparison::new. *)
Definition bitmap_range_new p (start stop : N) (mask : list N) f : bitmap_range :=
  mkBitmapRange (Nat.ltb 0 (length mask)) p (length_of_usize (length mask)) start stop mask f.
(** Derived update (line 180 only). *)
Definition bitmap_range_update (v : bitmap_range) : bitmap_range :=
  mkBitmapRange (Nat.ltb 0 (length (br_mask v))) (br_params v) (br_length v) (br_start v)
    (br_stop v) (br_mask v) (br_file v).

(** app/query.rs:219-238 StringTokenSearch. The mask is read whether or not [mask_present]. *)
Record string_search := mkStringSearch {
  ss_mask_present : bool; ss_max_errors : N; ss_length : N; ss_mask : list N;
  ss_value : list N; ss_file : file_offset }.
Definition read_string_search : reader string_search :=
  m <- read_bool ;; skip_bits 1 ;;; e <- read_uint 3 ;; l <- read_length ;;
  k <- read_vec_u8 l ;; v <- read_vec_u8 l ;; f <- read_file_offset ;;
  ret (mkStringSearch m e l k v f).
Definition write_string_search (v : string_search) : writer :=
  write_bool (ss_mask_present v) +++ write_pad 1 +++ write_uint 3 (ss_max_errors v)
  +++ write_length (ss_length v) +++ write_vec_u8 (ss_mask v) +++ write_vec_u8 (ss_value v)
  +++ write_file_offset (ss_file v).
(** app/query.rs:241-250 StringTokenSearch::new. *)
Definition string_search_new (max_errors : N) (mask value : list N) f : string_search :=
  mkStringSearch (Nat.ltb 0 (length mask)) max_errors (length_of_usize (length value))
    mask value f.
(** Derived update (lines 221, 228). *)
Definition string_search_update (v : string_search) : string_search :=
  mkStringSearch (Nat.ltb 0 (length (ss_mask v))) (ss_max_errors v)
    (length_of_usize (length (ss_value v))) (ss_mask v) (ss_value v) (ss_file v).

(** app/query.rs:47-62 Query (3-bit id, then the variant). *)
Inductive query :=
| QNonVoid (v : non_void) | QCmpZero (v : cmp_zero) | QCmpValue (v : cmp_value)
| QCmpOther (v : cmp_other) | QBitmapRange (v : bitmap_range) | QStringSearch (v : string_search).
Definition query_id (q : query) : N :=
  match q with
  | QNonVoid _ => 0 | QCmpZero _ => 1 | QCmpValue _ => 2 | QCmpOther _ => 3
  | QBitmapRange _ => 4 | QStringSearch _ => 7
  end.
Definition query_readers : list (N * reader query) :=
  [(0, v <- read_non_void ;; ret (QNonVoid v));
   (1, v <- read_cmp_zero ;; ret (QCmpZero v));
   (2, v <- read_cmp_value ;; ret (QCmpValue v));
   (3, v <- read_cmp_other ;; ret (QCmpOther v));
   (4, v <- read_bitmap_range ;; ret (QBitmapRange v));
   (7, v <- read_string_search ;; ret (QStringSearch v))].
Definition read_query : reader query :=
  x <- read_uint 3 ;;
  match assoc x query_readers with Some m => m | None => fail EParse end.
Definition write_query (q : query) : writer :=
  write_uint 3 (query_id q) +++
  match q with
  | QNonVoid v => write_non_void v
  | QCmpZero v => write_cmp_zero v
  | QCmpValue v => write_cmp_value v
  | QCmpOther v => write_cmp_other v
  | QBitmapRange v => write_bitmap_range v
  | QStringSearch v => write_string_search v
  end.
