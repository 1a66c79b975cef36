(** dash7/src/file/*.rs. *)
From Coq Require Import List NArith ZArith Bool Lia.
From Verif Require Import Base Deku Utils Types Physical Link Network.
Import ListNotations.
Open Scope N_scope.

(** file/mod.rs:28-115 FileId. The fifteen access profile ids 0x20..0x2E are one constructor with
    an index; [Rfu], [D7AalpRfu] and [Other] are [id_pat] variants without fields. *)
Inductive file_id :=
| FidUId | FidFactorySettings | FidFirmwareVersion | FidDeviceCapacity | FidDeviceStatus
| FidEngineeringMode | FidVId | FidPhyConfig | FidPhyStatus | FidDllConfig | FidDllStatus
| FidNetworkRouting | FidNetworkSecurity | FidNetworkSecurityKey | FidNetworkSsr
| FidNetworkStatus | FidTrlStatus | FidSelConfig | FidFofStatus | FidRfu | FidLocationData
| FidRootKey | FidUserKey | FidSensorDescription | FidRtc | FidD7AalpRfu
| FidAccessProfile (i : N) | FidOther.

Definition file_id_tbl :=
  [(0x00, FidUId); (0x01, FidFactorySettings); (0x02, FidFirmwareVersion);
   (0x03, FidDeviceCapacity); (0x04, FidDeviceStatus); (0x05, FidEngineeringMode);
   (0x06, FidVId); (0x08, FidPhyConfig); (0x09, FidPhyStatus); (0x0A, FidDllConfig);
   (0x0B, FidDllStatus); (0x0C, FidNetworkRouting); (0x0D, FidNetworkSecurity);
   (0x0E, FidNetworkSecurityKey); (0x0F, FidNetworkSsr); (0x10, FidNetworkStatus);
   (0x11, FidTrlStatus); (0x12, FidSelConfig); (0x13, FidFofStatus);
   (0x07, FidRfu); (0x14, FidRfu); (0x15, FidRfu); (0x16, FidRfu);
   (0x17, FidLocationData); (0x18, FidRootKey); (0x19, FidUserKey);
   (0x1B, FidSensorDescription); (0x1C, FidRtc);
   (0x1D, FidD7AalpRfu); (0x1E, FidD7AalpRfu); (0x1F, FidD7AalpRfu);
   (0x20, FidAccessProfile 0); (0x21, FidAccessProfile 1); (0x22, FidAccessProfile 2);
   (0x23, FidAccessProfile 3); (0x24, FidAccessProfile 4); (0x25, FidAccessProfile 5);
   (0x26, FidAccessProfile 6); (0x27, FidAccessProfile 7); (0x28, FidAccessProfile 8);
   (0x29, FidAccessProfile 9); (0x2A, FidAccessProfile 10); (0x2B, FidAccessProfile 11);
   (0x2C, FidAccessProfile 12); (0x2D, FidAccessProfile 13); (0x2E, FidAccessProfile 14)].

(** The arm a file id byte selects (the patterns of lines 69, 81 and 113 included). *)
Definition file_id_of (b : N) : file_id :=
  match assoc b file_id_tbl with Some v => v | None => FidOther end.

(** Which arms are [id_pat] arms. *)
Definition file_id_is_pat (v : file_id) : bool :=
  match v with FidRfu | FidD7AalpRfu | FidOther => true | _ => false end.

(** Derived reader of FileId. *)
Definition read_file_id {E : Env} : reader file_id :=
  x <- read_u8 ;;
  let v := file_id_of x in
  if file_id_is_pat v then read_id_unit ;;; ret v else ret v.

(** file/mod.rs:117-123 TryFrom<u8> for FileId: derived from_bytes of one byte. *)
Definition file_id_try_from {E : Env} (b : N) : res file_id :=
  rbind (d_from_bytes read_file_id [b] 0) (fun x => Ok (snd x)).

(** Derived deku_id: an error for [id_pat] variants. *)
Definition file_id_deku_id (v : file_id) : res N :=
  match v with
  | FidUId => Ok 0x00 | FidFactorySettings => Ok 0x01 | FidFirmwareVersion => Ok 0x02
  | FidDeviceCapacity => Ok 0x03 | FidDeviceStatus => Ok 0x04 | FidEngineeringMode => Ok 0x05
  | FidVId => Ok 0x06 | FidPhyConfig => Ok 0x08 | FidPhyStatus => Ok 0x09
  | FidDllConfig => Ok 0x0A | FidDllStatus => Ok 0x0B | FidNetworkRouting => Ok 0x0C
  | FidNetworkSecurity => Ok 0x0D | FidNetworkSecurityKey => Ok 0x0E | FidNetworkSsr => Ok 0x0F
  | FidNetworkStatus => Ok 0x10 | FidTrlStatus => Ok 0x11 | FidSelConfig => Ok 0x12
  | FidFofStatus => Ok 0x13 | FidLocationData => Ok 0x17 | FidRootKey => Ok 0x18
  | FidUserKey => Ok 0x19 | FidSensorDescription => Ok 0x1B | FidRtc => Ok 0x1C
  | FidAccessProfile i => Ok (0x20 + i)
  | FidRfu | FidD7AalpRfu | FidOther => Err EIdVariantNotFound
  end.
(** file/mod.rs:125-129 Into<u8>: [deku_id().unwrap()]. *)
Definition file_id_into (v : file_id) : res N :=
  match file_id_deku_id v with Ok n => Ok n | _ => Panic end.

(** file/dll_config.rs:4-11 DllConfig. *)
Record dll_config := mkDllConfig {
  dlc_ac : N; dlc_lq : N; dlc_nf : N; dlc_rx : N; dlc_tx : N }.
Definition read_dll_config : reader dll_config :=
  a <- read_u8 ;; skip_bits 16 ;;; l <- read_u8 ;; n <- read_u8 ;; r <- read_u8 ;; t <- read_u8 ;;
  ret (mkDllConfig a l n r t).
Definition write_dll_config (v : dll_config) : writer :=
  write_u8 (dlc_ac v) +++ write_pad 16 +++ write_u8 (dlc_lq v) +++ write_u8 (dlc_nf v)
  +++ write_u8 (dlc_rx v) +++ write_u8 (dlc_tx v).

(** file/dll_status.rs:6-20 DllStatus. *)
Record dll_status := mkDllStatus {
  dst_level : N; dst_budget : N; dst_noise : N; dst_header : channel_header; dst_index : N;
  dst_ratio : N; dst_scans : N; dst_timeouts : N }.
Definition read_dll_status : reader dll_status :=
  a <- read_u8 ;; b <- read_u8 ;; c <- read_u8 ;; h <- read_channel_header ;;
  i <- read_u16be ;; r <- read_u16be ;; s <- read_u32be ;; t <- read_u32be ;;
  ret (mkDllStatus a b c h i r s t).
Definition write_dll_status (v : dll_status) : writer :=
  write_u8 (dst_level v) +++ write_u8 (dst_budget v) +++ write_u8 (dst_noise v)
  +++ write_channel_header (dst_header v) +++ write_u16be (dst_index v)
  +++ write_u16be (dst_ratio v) +++ write_u32be (dst_scans v) +++ write_u32be (dst_timeouts v).

(** file/engineering_mode.rs:5-18 EngineeringModeMethod. *)
Inductive eng_method := EmOff | EmContTx | EmTransientTx | EmPerRx | EmPerTx.
Definition eng_method_tbl :=
  [(0, EmOff); (1, EmContTx); (2, EmTransientTx); (3, EmPerRx); (4, EmPerTx)].
Definition eng_method_id (v : eng_method) : N :=
  match v with EmOff => 0 | EmContTx => 1 | EmTransientTx => 2 | EmPerRx => 3 | EmPerTx => 4 end.
Definition read_eng_method := read_enum 8 (fun n => assoc n eng_method_tbl).
Definition write_eng_method v := write_u8 (eng_method_id v).

(** file/engineering_mode.rs:21-27 EngineeringMode. *)
Record engineering_mode := mkEngMode {
  em_mode : eng_method; em_flags : N; em_timeout : N; em_channel : channel; em_eirp : Z }.
Definition read_engineering_mode : reader engineering_mode :=
  m <- read_eng_method ;; f <- read_u8 ;; t <- read_u8 ;; c <- read_channel ;; e <- read_i8 ;;
  ret (mkEngMode m f t c e).
Definition write_engineering_mode (v : engineering_mode) : writer :=
  write_eng_method (em_mode v) +++ write_u8 (em_flags v) +++ write_u8 (em_timeout v)
  +++ write_channel (em_channel v) +++ write_i8 (em_eirp v).

(** file/factory_settings.rs:4-46 FactorySettings: gain, then nine u32, eleven u8, one u32, two
    u8, one u16 in the order of the source. *)
Record factory_settings := mkFactory {
  fs_gain : Z;
  fs_rx_bw_low : N; fs_rx_bw_normal : N; fs_rx_bw_high : N;
  fs_bitrate_lo : N; fs_fdev_lo : N; fs_bitrate_normal : N; fs_fdev_normal : N;
  fs_bitrate_hi : N; fs_fdev_hi : N;
  fs_pre_lo : N; fs_pre_normal : N; fs_pre_hi : N;
  fs_det_lo : N; fs_det_normal : N; fs_det_hi : N;
  fs_tol_lo : N; fs_tol_normal : N; fs_tol_hi : N;
  fs_rssi_smoothing : N; fs_rssi_offset : N;
  fs_lora_bw : N; fs_lora_sf : N; fs_gaussian : N; fs_paramp : N }.
Definition read_factory_settings : reader factory_settings :=
  g <- read_i8 ;;
  a1 <- read_u32be ;; a2 <- read_u32be ;; a3 <- read_u32be ;;
  a4 <- read_u32be ;; a5 <- read_u32be ;; a6 <- read_u32be ;;
  a7 <- read_u32be ;; a8 <- read_u32be ;; a9 <- read_u32be ;;
  b1 <- read_u8 ;; b2 <- read_u8 ;; b3 <- read_u8 ;;
  b4 <- read_u8 ;; b5 <- read_u8 ;; b6 <- read_u8 ;;
  b7 <- read_u8 ;; b8 <- read_u8 ;; b9 <- read_u8 ;;
  b10 <- read_u8 ;; b11 <- read_u8 ;;
  c1 <- read_u32be ;; c2 <- read_u8 ;; c3 <- read_u8 ;; c4 <- read_u16be ;;
  ret (mkFactory g a1 a2 a3 a4 a5 a6 a7 a8 a9 b1 b2 b3 b4 b5 b6 b7 b8 b9 b10 b11 c1 c2 c3 c4).
Definition write_factory_settings (v : factory_settings) : writer :=
  write_i8 (fs_gain v)
  +++ write_u32be (fs_rx_bw_low v) +++ write_u32be (fs_rx_bw_normal v)
  +++ write_u32be (fs_rx_bw_high v)
  +++ write_u32be (fs_bitrate_lo v) +++ write_u32be (fs_fdev_lo v)
  +++ write_u32be (fs_bitrate_normal v) +++ write_u32be (fs_fdev_normal v)
  +++ write_u32be (fs_bitrate_hi v) +++ write_u32be (fs_fdev_hi v)
  +++ write_u8 (fs_pre_lo v) +++ write_u8 (fs_pre_normal v) +++ write_u8 (fs_pre_hi v)
  +++ write_u8 (fs_det_lo v) +++ write_u8 (fs_det_normal v) +++ write_u8 (fs_det_hi v)
  +++ write_u8 (fs_tol_lo v) +++ write_u8 (fs_tol_normal v) +++ write_u8 (fs_tol_hi v)
  +++ write_u8 (fs_rssi_smoothing v) +++ write_u8 (fs_rssi_offset v)
  +++ write_u32be (fs_lora_bw v) +++ write_u8 (fs_lora_sf v) +++ write_u8 (fs_gaussian v)
  +++ write_u16be (fs_paramp v).

(** file/firmware_version.rs:8-24 FirmwareVersion. *)
Record firmware_version := mkFirmware {
  fw_major : N; fw_minor : N; fw_app : rstring; fw_sha : rstring }.
Definition read_firmware_version : reader firmware_version :=
  a <- read_u8 ;; b <- read_u8 ;; s <- read_string 6 ;; t <- read_string 7 ;;
  ret (mkFirmware a b s t).
Definition write_firmware_version (v : firmware_version) : writer :=
  write_u8 (fw_major v) +++ write_u8 (fw_minor v) +++ write_string 6 (fw_app v)
  +++ write_string 7 (fw_sha v).
(** file/firmware_version.rs:26-29 and file/access_profile.rs:18-21: SystemFile constants. *)
Definition firmware_version_ID : N := 2.
Definition firmware_version_SIZE : N := 17.
Definition access_profile_ID (s : N) : N := 0x20 + s.
Definition access_profile_SIZE (s : N) : N := 0.

(** file/phy_status.rs:5-21 PhyStatus. *)
Record phy_status := mkPhyStatus {
  ps_up : N; ps_rx : N; ps_tx : N; ps_duty : N; ps_count : N; ps_channels : list channel_status }.
Definition read_phy_status : reader phy_status :=
  a <- read_u32be ;; b <- read_u32be ;; c <- read_u32be ;; d <- read_u16be ;;
  n <- read_u8 ;; l <- read_list (N.to_nat n) read_channel_status ;;
  ret (mkPhyStatus a b c d n l).
Definition write_phy_status (v : phy_status) : writer :=
  write_u32be (ps_up v) +++ write_u32be (ps_rx v) +++ write_u32be (ps_tx v)
  +++ write_u16be (ps_duty v) +++ write_u8 (ps_count v)
  +++ write_list write_channel_status (ps_channels v).
(** file/phy_status.rs:24-39 PhyStatus::new: [len() as u8]. *)
Definition phy_status_new a b c d (l : list channel_status) : phy_status :=
  mkPhyStatus a b c d (N.of_nat (length l) mod 256) l.
(** Derived update (line 16): [try_into] from usize to u8. *)
Definition phy_status_update (v : phy_status) : res phy_status :=
  if N.of_nat (length (ps_channels v)) <? 256 then
    Ok (mkPhyStatus (ps_up v) (ps_rx v) (ps_tx v) (ps_duty v)
          (N.of_nat (length (ps_channels v))) (ps_channels v))
  else Err EParse.

(** file/mod.rs:139-206 File. [AccessProfile00..14] are one constructor with the index [i];
    the key of [NwlSecurityKey] (file/security_key.rs:4-7) is a u128 without [endian]. *)
Inductive file :=
| FAccessProfile (i : N) (p : access_profile)
| FUId (a : address)
| FFactorySettings (v : factory_settings)
| FFirmwareVersion (v : firmware_version)
| FEngineeringMode (v : engineering_mode)
| FVId (a : address)
| FPhyStatus (v : phy_status)
| FDllConfig (v : dll_config)
| FDllStatus (v : dll_status)
| FSecurityKey (key : N)
| FOther (l : list N).

(** Derived reader: the id comes from the context, so the [_] arm does not touch the stream. *)
Definition read_file {E : Env} (id : file_id) (length : N) : reader file :=
  match id with
  | FidAccessProfile i => p <- read_access_profile ;; ret (FAccessProfile i p)
  | FidUId => a <- read_address AtUId ;; ret (FUId a)
  | FidFactorySettings => v <- read_factory_settings ;; ret (FFactorySettings v)
  | FidFirmwareVersion => v <- read_firmware_version ;; ret (FFirmwareVersion v)
  | FidEngineeringMode => v <- read_engineering_mode ;; ret (FEngineeringMode v)
  | FidVId => a <- read_address AtVId ;; ret (FVId a)
  | FidPhyStatus => v <- read_phy_status ;; ret (FPhyStatus v)
  | FidDllConfig => v <- read_dll_config ;; ret (FDllConfig v)
  | FidDllStatus => v <- read_dll_status ;; ret (FDllStatus v)
  | FidNetworkSecurityKey => k <- read_native 16 ;; ret (FSecurityKey k)
  | _ => l <- read_vec_u8 length ;; ret (FOther l)
  end.
Definition write_file {E : Env} (f : file) : writer :=
  match f with
  | FAccessProfile _ p => write_access_profile p
  | FUId a | FVId a => write_address a
  | FFactorySettings v => write_factory_settings v
  | FFirmwareVersion v => write_firmware_version v
  | FEngineeringMode v => write_engineering_mode v
  | FPhyStatus v => write_phy_status v
  | FDllConfig v => write_dll_config v
  | FDllStatus v => write_dll_status v
  | FSecurityKey k => write_native 16 k
  | FOther l => write_vec_u8 l
  end.

(** file/mod.rs:215-221 File::from_bytes. *)
Definition file_from_bytes {E : Env} (d : list N) (off : nat) (id : file_id) (length : N)
  : res ((list N * nat) * file) := u_from_bytes (read_file id length) d off.
