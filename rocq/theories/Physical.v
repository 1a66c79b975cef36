(** dash7/src/physical/mod.rs. *)
From Coq Require Import List NArith ZArith Bool Lia.
From Verif Require Import Base Deku Utils Types.
Import ListNotations.
Open Scope N_scope.

(** physical/mod.rs:5-9 Bandwidth (2 bits). *)
Inductive bandwidth := KHz200 | KHz25.
Definition bandwidth_tbl := [(0, KHz200); (1, KHz25)].
Definition bandwidth_id (v : bandwidth) : N := match v with KHz200 => 0 | KHz25 => 1 end.
Definition read_bandwidth := read_enum 2 (fun n => assoc n bandwidth_tbl).
Definition write_bandwidth v := write_uint 2 (bandwidth_id v).

(** physical/mod.rs:14-21 ChannelBand (3 bits). *)
Inductive channel_band := BandRfu0 | BandRfu1 | Band433 | Band868 | Band915.
Definition channel_band_tbl :=
  [(0, BandRfu0); (1, BandRfu1); (2, Band433); (3, Band868); (4, Band915)].
Definition channel_band_id (v : channel_band) : N :=
  match v with BandRfu0 => 0 | BandRfu1 => 1 | Band433 => 2 | Band868 => 3 | Band915 => 4 end.
Definition read_channel_band := read_enum 3 (fun n => assoc n channel_band_tbl).
Definition write_channel_band v := write_uint 3 (channel_band_id v).

(** physical/mod.rs:25-31 ChannelClass (2 bits). *)
Inductive channel_class := LoRate | Lora | NormalRate | HiRate.
Definition channel_class_tbl := [(0, LoRate); (1, Lora); (2, NormalRate); (3, HiRate)].
Definition channel_class_id (v : channel_class) : N :=
  match v with LoRate => 0 | Lora => 1 | NormalRate => 2 | HiRate => 3 end.
Definition read_channel_class := read_enum 2 (fun n => assoc n channel_class_tbl).
Definition write_channel_class v := write_uint 2 (channel_class_id v).

(** physical/mod.rs:35-41 ChannelCoding (2 bits). *)
Inductive channel_coding := Pn9 | CodingRfu | FecPn9 | Cw.
Definition channel_coding_tbl := [(0, Pn9); (1, CodingRfu); (2, FecPn9); (3, Cw)].
Definition channel_coding_id (v : channel_coding) : N :=
  match v with Pn9 => 0 | CodingRfu => 1 | FecPn9 => 2 | Cw => 3 end.
Definition read_channel_coding := read_enum 2 (fun n => assoc n channel_coding_tbl).
Definition write_channel_coding v := write_uint 2 (channel_coding_id v).

(** physical/mod.rs:45-55 CsmaCaMode (4 bits). *)
Inductive csma_ca_mode := Unc | Aind | Raind | Rigd.
Definition csma_ca_mode_tbl := [(0, Unc); (1, Aind); (2, Raind); (3, Rigd)].
Definition csma_ca_mode_id (v : csma_ca_mode) : N :=
  match v with Unc => 0 | Aind => 1 | Raind => 2 | Rigd => 3 end.
Definition read_csma_ca_mode := read_enum 4 (fun n => assoc n csma_ca_mode_tbl).
Definition write_csma_ca_mode v := write_uint 4 (csma_ca_mode_id v).

(** physical/mod.rs:79-85 ChannelHeader. *)
Record channel_header := mkChannelHeader {
  ch_band : channel_band; ch_class : channel_class; ch_coding : channel_coding }.
Definition read_channel_header : reader channel_header :=
  skip_bits 1 ;;;
  b <- read_channel_band ;; c <- read_channel_class ;; d <- read_channel_coding ;;
  ret (mkChannelHeader b c d).
Definition write_channel_header (v : channel_header) : writer :=
  write_pad 1 +++ write_channel_band (ch_band v) +++ write_channel_class (ch_class v)
  +++ write_channel_coding (ch_coding v).

(** physical/mod.rs:102-106 Channel. *)
Record channel := mkChannel { chan_header : channel_header; chan_index : N }.
Definition read_channel : reader channel :=
  h <- read_channel_header ;; i <- read_u16be ;; ret (mkChannel h i).
Definition write_channel (v : channel) : writer :=
  write_channel_header (chan_header v) +++ write_u16be (chan_index v).

(** physical/mod.rs:109-116 ChannelStatusIdentifier. *)
Record channel_status_identifier := mkChannelStatusIdentifier {
  csi_band : channel_band; csi_bandwidth : bandwidth; csi_index : N }.
Definition read_channel_status_identifier : reader channel_status_identifier :=
  b <- read_channel_band ;; w <- read_bandwidth ;; i <- read_uint 11 ;;
  ret (mkChannelStatusIdentifier b w i).
Definition write_channel_status_identifier (v : channel_status_identifier) : writer :=
  write_channel_band (csi_band v) +++ write_bandwidth (csi_bandwidth v)
  +++ write_uint 11 (csi_index v).

(** physical/mod.rs:120-126 SubBand. *)
Record sub_band := mkSubBand {
  sb_start : N; sb_end : N; sb_eirp : Z; sb_cca : N; sb_duty : N }.
Definition read_sub_band : reader sub_band :=
  a <- read_u16be ;; b <- read_u16be ;; c <- read_i8 ;; d <- read_u8 ;; e <- read_u8 ;;
  ret (mkSubBand a b c d e).
Definition write_sub_band (v : sub_band) : writer :=
  write_u16be (sb_start v) +++ write_u16be (sb_end v) +++ write_i8 (sb_eirp v)
  +++ write_u8 (sb_cca v) +++ write_u8 (sb_duty v).

(** physical/mod.rs:129-132 ChannelStatus. *)
Record channel_status := mkChannelStatus {
  cs_identifier : channel_status_identifier; cs_noise_floor : N }.
Definition read_channel_status : reader channel_status :=
  i <- read_channel_status_identifier ;; n <- read_u8 ;; ret (mkChannelStatus i n).
Definition write_channel_status (v : channel_status) : writer :=
  write_channel_status_identifier (cs_identifier v) +++ write_u8 (cs_noise_floor v).
