(** dash7/src/app/interface.rs. *)
From Coq Require Import List NArith ZArith Bool Lia.
From Verif Require Import Base Deku Utils Types Physical Link Network Session.
Import ListNotations.
Open Scope N_scope.

(** app/interface.rs:9-33 Dash7InterfaceConfiguration. [execution_delay_timeout] does not exist
    with the subiot feature (line 28); the model keeps it at its default there. *)
Record dash7_config := mkDash7Config {
  dc_qos : qos; dc_dormant : varint; dc_exec_delay : varint; dc_addressee : addressee }.
Definition varint_default : varint := mkVarInt 0 false.
Definition read_dash7_config {E : Env} : reader dash7_config :=
  q <- read_qos ;; d <- read_varint ;;
  x <- (if is_subiot then ret varint_default else read_varint) ;;
  a <- read_addressee ;; ret (mkDash7Config q d x a).
Definition write_dash7_config {E : Env} (v : dash7_config) : writer :=
  write_qos (dc_qos v) +++ write_varint (dc_dormant v)
  +++ (if is_subiot then wnil else write_varint (dc_exec_delay v))
  +++ write_addressee (dc_addressee v).

(** app/interface.rs:35-46 LoRaWANInterfaceConfiguration. *)
Record lorawan_config := mkLorawanConfig {
  lw_adr : bool; lw_ack : bool; lw_port : N; lw_rate : N }.
Definition read_lorawan_config : reader lorawan_config :=
  skip_bits 5 ;;; a <- read_bool ;; b <- read_bool ;; skip_bits 1 ;;;
  p <- read_u8 ;; r <- read_u8 ;; ret (mkLorawanConfig a b p r).
Definition write_lorawan_config (v : lorawan_config) : writer :=
  write_pad 5 +++ write_bool (lw_adr v) +++ write_bool (lw_ack v) +++ write_pad 1
  +++ write_u8 (lw_port v) +++ write_u8 (lw_rate v).

(** app/interface.rs:48-60 LoRaWANOTAAInterfaceConfiguration. *)
Record otaa_config := mkOtaa {
  ot_base : lorawan_config; ot_dev_eui : list N; ot_app_eui : list N; ot_app_key : list N }.
Definition read_otaa : reader otaa_config :=
  b <- read_lorawan_config ;; d <- read_vec_u8 8 ;; a <- read_vec_u8 8 ;; k <- read_vec_u8 16 ;;
  ret (mkOtaa b d a k).
Definition write_otaa (v : otaa_config) : writer :=
  write_lorawan_config (ot_base v) +++ write_vec_u8 (ot_dev_eui v)
  +++ write_vec_u8 (ot_app_eui v) +++ write_vec_u8 (ot_app_key v).

(** app/interface.rs:62-75 LoRaWANABPInterfaceConfiguration. The two u32 have no [endian]. *)
Record abp_config := mkAbp {
  ab_base : lorawan_config; ab_nwk_key : list N; ab_app_key : list N; ab_dev_addr : N;
  ab_net_id : N }.
Definition read_abp {E : Env} : reader abp_config :=
  b <- read_lorawan_config ;; n <- read_vec_u8 16 ;; a <- read_vec_u8 16 ;;
  d <- read_native 4 ;; i <- read_native 4 ;; ret (mkAbp b n a d i).
Definition write_abp {E : Env} (v : abp_config) : writer :=
  write_lorawan_config (ab_base v) +++ write_vec_u8 (ab_nwk_key v)
  +++ write_vec_u8 (ab_app_key v) +++ write_native 4 (ab_dev_addr v)
  +++ write_native 4 (ab_net_id v).

(** app/interface.rs:77-98 InterfaceConfiguration; [Unknown(u8)] is an [id_pat] variant. *)
Inductive interface_config :=
| IcHost | IcSerial | IcAbp (c : abp_config) | IcOtaa (c : otaa_config) | IcDash7 (c : dash7_config)
| IcUnknown (id : N).
Definition read_interface_config {E : Env} : reader interface_config :=
  x <- read_u8 ;;
  match assoc x [(0, ret IcHost);
                 (1, ret IcSerial);
                 (2, c <- read_abp ;; ret (IcAbp c));
                 (3, c <- read_otaa ;; ret (IcOtaa c));
                 (0xD7, c <- read_dash7_config ;; ret (IcDash7 c))] with
  | Some m => m
  | None => i <- read_id_field x ;; ret (IcUnknown i)
  end.
Definition write_interface_config {E : Env} (v : interface_config) : writer :=
  match v with
  | IcHost => write_u8 0
  | IcSerial => write_u8 1
  | IcAbp c => write_u8 2 +++ write_abp c
  | IcOtaa c => write_u8 3 +++ write_otaa c
  | IcDash7 c => write_u8 0xD7 +++ write_dash7_config c
  | IcUnknown i => write_u8 i
  end.

(** app/interface.rs:100-115 IndirectInterface. *)
Inductive indirect_interface :=
| IiHost | IiSerial | IiDash7 (a : addressee) | IiUnknown (id : N).
Definition read_indirect_interface {E : Env} : reader indirect_interface :=
  x <- read_u8 ;;
  match assoc x [(0, ret IiHost);
                 (1, ret IiSerial);
                 (0xD7, a <- read_addressee ;; ret (IiDash7 a))] with
  | Some m => m
  | None => i <- read_id_field x ;; ret (IiUnknown i)
  end.
Definition write_indirect_interface {E : Env} (v : indirect_interface) : writer :=
  match v with
  | IiHost => write_u8 0
  | IiSerial => write_u8 1
  | IiDash7 a => write_u8 0xD7 +++ write_addressee a
  | IiUnknown i => write_u8 i
  end.
