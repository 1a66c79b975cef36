(** dash7/src/transport/mod.rs, network/network.rs and link/frame.rs: the frames. *)
From Coq Require Import List NArith ZArith Bool Lia.
From Verif Require Import Base Deku Utils Types Physical Link Network Session Data Query
  Interface File Operation Action Command.
Import ListNotations.
Open Scope N_scope.

(** transport/mod.rs:24-40 Control: seven 1-bit flags. *)
Record tcontrol := mkTControl {
  tc_dialog_start : bool; tc_listen : bool; tc_exec_delay : bool; tc_ack_requested : bool;
  tc_ack_not_void : bool; tc_ack_record : bool; tc_agc : bool }.
Definition read_tcontrol : reader tcontrol :=
  a <- read_bool ;; b <- read_bool ;; c <- read_bool ;; d <- read_bool ;; e <- read_bool ;;
  f <- read_bool ;; g <- read_bool ;; ret (mkTControl a b c d e f g).
Definition write_tcontrol (v : tcontrol) : writer :=
  write_bool (tc_dialog_start v) +++ write_bool (tc_listen v) +++ write_bool (tc_exec_delay v)
  +++ write_bool (tc_ack_requested v) +++ write_bool (tc_ack_not_void v)
  +++ write_bool (tc_ack_record v) +++ write_bool (tc_agc v).

(** transport/mod.rs:42-46 AckTemplate. *)
Record ack_template := mkAck { ack_start : N; ack_stop : N }.
Definition read_ack : reader ack_template := a <- read_u8 ;; b <- read_u8 ;; ret (mkAck a b).
Definition write_ack (v : ack_template) : writer := write_u8 (ack_start v) +++ write_u8 (ack_stop v).

(** transport/mod.rs:48-85 Frame. *)
Record tframe := mkTFrame {
  tf_control : tcontrol; tf_dialog : N; tf_transaction : N; tf_target_rx : option N;
  tf_listen : option varint; tf_exec_delay : option varint; tf_congestion : option varint;
  tf_ack : option ack_template; tf_command : command }.
Definition read_tframe {E : Env} (length : N) : reader tframe :=
  c <- read_tcontrol ;; d <- read_u8 ;; t <- read_u8 ;;
  x <- read_cond (tc_agc c) read_u8 ;;
  l <- read_cond (tc_listen c) read_varint ;;
  e <- read_cond (tc_exec_delay c) read_varint ;;
  g <- read_cond (tc_ack_requested c && tc_dialog_start c) read_varint ;;
  a <- read_cond (tc_ack_not_void c) read_ack ;;
  m <- read_command length ;;
  ret (mkTFrame c d t x l e g a m).
Definition write_tframe {E : Env} (v : tframe) : writer :=
  write_tcontrol (tf_control v) +++ write_u8 (tf_dialog v) +++ write_u8 (tf_transaction v)
  +++ write_opt write_u8 (tf_target_rx v) +++ write_opt write_varint (tf_listen v)
  +++ write_opt write_varint (tf_exec_delay v) +++ write_opt write_varint (tf_congestion v)
  +++ write_opt write_ack (tf_ack v) +++ write_command (tf_command v).

(** network/network.rs:7-18 Control. *)
Record ncontrol := mkNControl {
  nc_no_origin : bool; nc_hopping : bool; nc_origin_type : address_type; nc_nls : nls_method }.
Definition read_ncontrol {E : Env} : reader ncontrol :=
  a <- read_bool ;; b <- read_bool ;; t <- read_address_type ;; skip_bits 1 ;;;
  n <- read_nls_method ;; ret (mkNControl a b t n).
Definition write_ncontrol {E : Env} (v : ncontrol) : writer :=
  write_bool (nc_no_origin v) +++ write_bool (nc_hopping v)
  +++ write_address_type (nc_origin_type v) +++ write_pad 1 +++ write_nls_method (nc_nls v).

(** network/network.rs:20-28 HoppingControl. *)
Record hopping := mkHopping { hp_counter : bool; hp_dest : address_type }.
Definition read_hopping : reader hopping :=
  skip_bits 1 ;;; c <- read_bool ;; d <- read_address_type ;; skip_bits 4 ;;;
  ret (mkHopping c d).
Definition write_hopping (v : hopping) : writer :=
  write_pad 1 +++ write_bool (hp_counter v) +++ write_address_type (hp_dest v) +++ write_pad 4.

(** network/network.rs:30-45 Frame. *)
Record nframe := mkNFrame {
  nf_control : ncontrol; nf_hopping : option hopping; nf_access : access_class;
  nf_origin : address; nf_frame : tframe }.
Definition read_nframe {E : Env} (length : N) : reader nframe :=
  c <- read_ncontrol ;; h <- read_cond (nc_hopping c) read_hopping ;; a <- read_access_class ;;
  o <- read_address (nc_origin_type c) ;; f <- read_tframe length ;;
  ret (mkNFrame c h a o f).
Definition write_nframe {E : Env} (v : nframe) : writer :=
  write_ncontrol (nf_control v) +++ write_opt write_hopping (nf_hopping v)
  +++ write_access_class (nf_access v) +++ write_address (nf_origin v)
  +++ write_tframe (nf_frame v).

(** link/frame.rs:8-22 BackgroundFrameControl and BackgroundFrame. [payload] and [crc16] have no
    [endian]. *)
Record bframe := mkBFrame {
  bf_subnet : N; bf_type : address_type; bf_tag : N; bf_payload : N; bf_crc : N }.
Definition read_bframe {E : Env} : reader bframe :=
  s <- read_u8 ;; t <- read_address_type ;; g <- read_uint 6 ;;
  p <- read_native 2 ;; c <- read_native 2 ;; ret (mkBFrame s t g p c).
Definition write_bframe {E : Env} (v : bframe) : writer :=
  write_u8 (bf_subnet v) +++ write_address_type (bf_type v) +++ write_uint 6 (bf_tag v)
  +++ write_native 2 (bf_payload v) +++ write_native 2 (bf_crc v).
(** Derived TryFrom/to_bytes. *)
Definition bframe_try_from {E : Env} (d : list N) : res bframe := d_try_from read_bframe d.
Definition bframe_to_bytes {E : Env} (v : bframe) : res (list N) := to_bytes (write_bframe v).

(** link/frame.rs:24-44 ForegroundFrameControl and ForegroundFrame. *)
Record fframe := mkFFrame {
  ff_length : N; ff_subnet : N; ff_type : address_type; ff_eirp : N; ff_target : address;
  ff_frame : nframe; ff_crc : N }.
Definition read_fframe {E : Env} : reader fframe :=
  l <- read_length ;; s <- read_u8 ;; t <- read_address_type ;; e <- read_uint 6 ;;
  a <- read_address t ;; f <- read_nframe l ;; c <- read_native 2 ;;
  ret (mkFFrame l s t e a f c).
Definition write_fframe {E : Env} (v : fframe) : writer :=
  write_length (ff_length v) +++ write_u8 (ff_subnet v) +++ write_address_type (ff_type v)
  +++ write_uint 6 (ff_eirp v) +++ write_address (ff_target v) +++ write_nframe (ff_frame v)
  +++ write_native 2 (ff_crc v).
Definition fframe_try_from {E : Env} (d : list N) : res fframe := d_try_from read_fframe d.
Definition fframe_from_bytes {E : Env} (d : list N) (off : nat) := d_from_bytes read_fframe d off.
Definition fframe_to_bytes {E : Env} (v : fframe) : res (list N) := to_bytes (write_fframe v).
