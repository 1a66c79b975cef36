(** dash7/src/session/mod.rs and session/interface_final.rs. *)
From Coq Require Import List NArith ZArith Bool Lia.
From Verif Require Import Base Deku Utils Types Physical Link Network.
Import ListNotations.
Open Scope N_scope.

(** session/mod.rs:13-34 InterfaceType. [Unknown] is an [id_pat] variant without fields. *)
Inductive interface_type := ItHost | ItSerial | ItLoRaWanABP | ItLoRaWanOTAA | ItDash7 | ItUnknown.
Definition interface_type_tbl :=
  [(0, ItHost); (1, ItSerial); (2, ItLoRaWanABP); (3, ItLoRaWanOTAA); (0xD7, ItDash7)].
(** Derived deku_id: an error for the [id_pat] variant. *)
Definition interface_type_id (v : interface_type) : res N :=
  match v with
  | ItHost => Ok 0 | ItSerial => Ok 1 | ItLoRaWanABP => Ok 2 | ItLoRaWanOTAA => Ok 3
  | ItDash7 => Ok 0xD7
  | ItUnknown => Err EIdVariantNotFound
  end.
Definition read_interface_type {E : Env} : reader interface_type :=
  x <- read_u8 ;;
  match assoc x interface_type_tbl with
  | Some v => ret v
  | None => read_id_unit ;;; ret ItUnknown
  end.
(** Derived writer: [id_pat] variants write no id. *)
Definition write_interface_type (v : interface_type) : writer :=
  match interface_type_id v with
  | Ok n => write_u8 n
  | _ => wnil
  end.
(** session/mod.rs:36-42 TryFrom<u8> for InterfaceType. *)
Definition interface_type_try_from {E : Env} (b : N) : res interface_type :=
  rbind (d_from_bytes read_interface_type [b] 0) (fun x => Ok (snd x)).
(** session/mod.rs:44-48 Into<u8>: [deku_id().unwrap()]. *)
Definition interface_type_into (v : interface_type) : res N :=
  match interface_type_id v with Ok n => Ok n | _ => Panic end.

(** session/mod.rs:51-105 ResponseMode (3 bits; 3 and 7 unassigned). *)
Inductive response_mode := RmNo | RmAll | RmAny | RmNoRepeat | RmOnError | RmPreferred.
Definition response_mode_tbl :=
  [(0, RmNo); (1, RmAll); (2, RmAny); (4, RmNoRepeat); (5, RmOnError); (6, RmPreferred)].
Definition response_mode_id (v : response_mode) : N :=
  match v with
  | RmNo => 0 | RmAll => 1 | RmAny => 2 | RmNoRepeat => 4 | RmOnError => 5 | RmPreferred => 6
  end.
Definition read_response_mode := read_enum 3 (fun n => assoc n response_mode_tbl).
Definition write_response_mode v := write_uint 3 (response_mode_id v).

(** session/mod.rs:110-130 RetryMode (3 bits). *)
Inductive retry_mode :=
| RtNo | RtOneshotRetry | RtFifoFast | RtFifoSlow | RtSingleFast | RtSingleSlow
| RtOneshotSticky | RtRfu.
Definition retry_mode_tbl :=
  [(0, RtNo); (1, RtOneshotRetry); (2, RtFifoFast); (3, RtFifoSlow); (4, RtSingleFast);
   (5, RtSingleSlow); (6, RtOneshotSticky); (7, RtRfu)].
Definition retry_mode_id (v : retry_mode) : N :=
  match v with
  | RtNo => 0 | RtOneshotRetry => 1 | RtFifoFast => 2 | RtFifoSlow => 3 | RtSingleFast => 4
  | RtSingleSlow => 5 | RtOneshotSticky => 6 | RtRfu => 7
  end.
Definition read_retry_mode := read_enum 3 (fun n => assoc n retry_mode_tbl).
Definition write_retry_mode v := write_uint 3 (retry_mode_id v).

(** session/mod.rs:133-142 QoS. *)
Record qos := mkQos {
  qos_stop : bool; qos_record : bool; qos_retry : retry_mode; qos_resp : response_mode }.
Definition read_qos : reader qos :=
  s <- read_bool ;; r <- read_bool ;; t <- read_retry_mode ;; p <- read_response_mode ;;
  ret (mkQos s r t p).
Definition write_qos (v : qos) : writer :=
  write_bool (qos_stop v) +++ write_bool (qos_record v) +++ write_retry_mode (qos_retry v)
  +++ write_response_mode (qos_resp v).

(** session/mod.rs:182-213 Dash7InterfaceStatus. *)
Record dash7_interface_status := mkDash7Status {
  ds_channel : channel; ds_rx_level : N; ds_link_budget : N; ds_target_rx_level : N;
  ds_nls : bool; ds_missed : bool; ds_retry : bool; ds_unicast : bool;
  ds_fifo_token : N; ds_seq : N; ds_timeout : varint; ds_addressee : addressee }.
Definition read_dash7_status {E : Env} : reader dash7_interface_status :=
  c <- read_channel ;; rx <- read_u8 ;; lb <- read_u8 ;; tr <- read_u8 ;;
  a <- read_bool ;; b <- read_bool ;; d <- read_bool ;; e <- read_bool ;;
  skip_bits 4 ;;;
  f <- read_u8 ;; s <- read_u8 ;; t <- read_varint ;; ad <- read_addressee ;;
  ret (mkDash7Status c rx lb tr a b d e f s t ad).
Definition write_dash7_status {E : Env} (v : dash7_interface_status) : writer :=
  write_channel (ds_channel v) +++ write_u8 (ds_rx_level v) +++ write_u8 (ds_link_budget v)
  +++ write_u8 (ds_target_rx_level v)
  +++ write_bool (ds_nls v) +++ write_bool (ds_missed v) +++ write_bool (ds_retry v)
  +++ write_bool (ds_unicast v)
  +++ write_pad 4 +++ write_u8 (ds_fifo_token v) +++ write_u8 (ds_seq v)
  +++ write_varint (ds_timeout v) +++ write_addressee (ds_addressee v).

(** session/mod.rs:144-164 InterfaceStatus. *)
Inductive interface_status :=
| IsHost | IsSerial | IsDash7 (s : dash7_interface_status) | IsOther (l : list N).
(** Derived deku_id: every variant has a plain id (lines 148-163). *)
Definition interface_status_kind (v : interface_status) : interface_type :=
  match v with
  | IsHost => ItHost | IsSerial => ItSerial | IsDash7 _ => ItDash7 | IsOther _ => ItUnknown
  end.
(** No variant for the two LoRaWAN types (lines 154-158): Parse error. *)
Definition read_interface_status {E : Env} (t : interface_type) (length : N)
  : reader interface_status :=
  match t with
  | ItHost => ret IsHost
  | ItSerial => ret IsSerial
  | ItDash7 => s <- read_dash7_status ;; ret (IsDash7 s)
  | ItUnknown => l <- read_vec_u8 length ;; ret (IsOther l)
  | ItLoRaWanABP | ItLoRaWanOTAA => fail EParse
  end.
Definition write_interface_status {E : Env} (v : interface_status) : writer :=
  match v with
  | IsHost | IsSerial => wnil
  | IsDash7 s => write_dash7_status s
  | IsOther l => write_vec_u8 l
  end.

(** ** Wizzilab only: session/interface_final.rs *)

(** session/interface_final.rs:15-64 InterfaceFinalStatusCode (8 bits). *)
Inductive final_status_code :=
| FsNo | FsBusy | FsBadParam | FsDutyCycle | FsCcaTo | FsNlsKey | FsTxUdf | FsRxOvf | FsRxCrc
| FsAbort | FsNoAck | FsRxTo | FsNotSupportedBand | FsNotSupportedChannel
| FsNotSupportedModulation | FsVoidChannelList | FsNotSupportedLen | FsParamOvf | FsVidWoNls
| FsTxSched | FsRxSched | FsBufferOvf | FsNotSupportedMode.
Definition final_status_code_tbl :=
  [(0, FsNo); (0xFF, FsBusy); (0xFE, FsBadParam); (0xFD, FsDutyCycle); (0xFC, FsCcaTo);
   (0xFB, FsNlsKey); (0xFA, FsTxUdf); (0xF9, FsRxOvf); (0xF8, FsRxCrc); (0xF7, FsAbort);
   (0xF6, FsNoAck); (0xF5, FsRxTo); (0xF4, FsNotSupportedBand); (0xF3, FsNotSupportedChannel);
   (0xF2, FsNotSupportedModulation); (0xF1, FsVoidChannelList); (0xF0, FsNotSupportedLen);
   (0xEF, FsParamOvf); (0xEE, FsVidWoNls); (0xED, FsTxSched); (0xEC, FsRxSched);
   (0xEB, FsBufferOvf); (0xEA, FsNotSupportedMode)].
Definition final_status_code_id (v : final_status_code) : N :=
  match v with
  | FsNo => 0 | FsBusy => 0xFF | FsBadParam => 0xFE | FsDutyCycle => 0xFD | FsCcaTo => 0xFC
  | FsNlsKey => 0xFB | FsTxUdf => 0xFA | FsRxOvf => 0xF9 | FsRxCrc => 0xF8 | FsAbort => 0xF7
  | FsNoAck => 0xF6 | FsRxTo => 0xF5 | FsNotSupportedBand => 0xF4
  | FsNotSupportedChannel => 0xF3 | FsNotSupportedModulation => 0xF2
  | FsVoidChannelList => 0xF1 | FsNotSupportedLen => 0xF0 | FsParamOvf => 0xEF
  | FsVidWoNls => 0xEE | FsTxSched => 0xED | FsRxSched => 0xEC | FsBufferOvf => 0xEB
  | FsNotSupportedMode => 0xEA
  end.
Definition read_final_status_code := read_enum 8 (fun n => assoc n final_status_code_tbl).
Definition write_final_status_code v := write_u8 (final_status_code_id v).

(** session/interface_final.rs:5-13 InterfaceFinalStatus: the id comes from the context, so the
    [id_pat] arm does not touch the stream. *)
Inductive interface_final_status := FinDash7 (c : final_status_code) | FinOther (l : list N).
Definition read_interface_final_status (id length : N) : reader interface_final_status :=
  if id =? 0xD7 then c <- read_final_status_code ;; ret (FinDash7 c)
  else l <- read_vec_u8 length ;; ret (FinOther l).
Definition write_interface_final_status (v : interface_final_status) : writer :=
  match v with FinDash7 c => write_final_status_code c | FinOther l => write_vec_u8 l end.

(** session/interface_final.rs:76-89 Dash7InterfaceTxStatus. [lts] has no [endian]: host order. *)
Record dash7_tx_status := mkDash7TxStatus {
  tx_channel : channel; tx_target_rx_level : Z; tx_error : final_status_code; tx_lts : N;
  tx_addressee : addressee }.
Definition read_dash7_tx_status {E : Env} : reader dash7_tx_status :=
  c <- read_channel ;; l <- read_i8 ;; e <- read_final_status_code ;;
  skip_bits 24 ;;;
  t <- read_native 4 ;; a <- read_addressee ;;
  ret (mkDash7TxStatus c l e t a).
Definition write_dash7_tx_status {E : Env} (v : dash7_tx_status) : writer :=
  write_channel (tx_channel v) +++ write_i8 (tx_target_rx_level v)
  +++ write_final_status_code (tx_error v) +++ write_pad 24 +++ write_native 4 (tx_lts v)
  +++ write_addressee (tx_addressee v).

(** session/interface_final.rs:66-74 InterfaceTxStatus. *)
Inductive interface_tx_status := TxDash7 (s : dash7_tx_status) | TxOther (l : list N).
Definition read_interface_tx_status {E : Env} (id length : N) : reader interface_tx_status :=
  if id =? 0xD7 then s <- read_dash7_tx_status ;; ret (TxDash7 s)
  else l <- read_vec_u8 length ;; ret (TxOther l).
Definition write_interface_tx_status {E : Env} (v : interface_tx_status) : writer :=
  match v with TxDash7 s => write_dash7_tx_status s | TxOther l => write_vec_u8 l end.
