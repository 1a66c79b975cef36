(** C22 - C26, C29: system files. *)
From Coq Require Import List NArith ZArith Bool Lia.
From Verif Require Import Base Deku Utils Types Physical Link Network File Operation
  WellFormed SpecLayout SpecFail SpecApi SpecReturn SpecFiles LFiles.
Import ListNotations.
Open Scope N_scope.

(** C22. *)
Theorem C22_file_round_trip : forall (E : Env) b f, u8 b -> wf_file b f ->
  exists id, file_id_try_from b = Ok id /\
  let n := N.of_nat (length (enc_file f)) in
  transfers (write_file f) (read_file id n) (enc_file f) f /\
  forall suf, file_from_bytes (enc_file f ++ suf) 0 id n = Ok ((suf, 0%nat), f).
Proof. exact @file_round_trip. Qed.
Print Assumptions C22_file_round_trip.

(** No other value comes back from the bytes it is written as. *)
Theorem C22_file_exact : forall (E : Env) b f id n l, u8 b -> file_id_try_from b = Ok id ->
  to_bytes (write_file f) = Ok l -> n = N.of_nat (length l) -> wf_length n ->
  ((exists rest, file_from_bytes l 0 id n = Ok (rest, f)) <-> wf_file b f).
Proof. exact @file_round_trip_exact. Qed.
Print Assumptions C22_file_exact.

Example C22_example : forall (E : Env),
  let f := FPhyStatus (mkPhyStatus 1 2 3 4 1 [mkChannelStatus (mkChannelStatusIdentifier Band868 KHz25 0x123) 0x55]) in
  wf_file 9 f /\
  to_bytes (write_file f) = Ok [0; 0; 0; 1; 0; 0; 0; 2; 0; 0; 0; 3; 0; 4; 1; 0x69; 0x23; 0x55] /\
  file_from_bytes [0; 0; 0; 1; 0; 0; 0; 2; 0; 0; 0; 3; 0; 4; 1; 0x69; 0x23; 0x55; 0xAA] 0 FidPhyStatus 18
  = Ok (([0xAA], 0%nat), f).
Proof.
  intros E f. split; [|split; reflexivity]. split; [reflexivity|]. repeat (split; try reflexivity).
  constructor; [split; reflexivity|constructor].
Qed.

(** C23: what is written. *)
Theorem C23_written_prefix : forall (E : Env) f o l, to_bytes (write_file_payload f o) = Ok l ->
  exists p, to_bytes (write_file f) = Ok p /\ length p = file_size f /\
            l = enc_length (N.of_nat (length p) mod 2 ^ 32) ++ p.
Proof. exact @payload_prefix. Qed.
Print Assumptions C23_written_prefix.

(** What is read: the size of the value decides, not the prefix ... *)
Theorem C23_consumed : forall (E : Env) o r f r',
  u8 (fo_file_id o) -> reader_state r -> read_file_payload o r = Ok (f, r') ->
  exists n r1, read_length r = Ok (n, r1) /\
    (8 * file_size f <= length (view r1))%nat /\ view r' = skipn (8 * file_size f) (view r1) /\
    (~ In (fo_file_id o) typed_file_ids -> N.of_nat (file_size f) = n).
Proof. exact @payload_consumed. Qed.
Print Assumptions C23_consumed.

(** ... which a typed file never looks at ... *)
Theorem C23_typed_ignores_prefix : forall (E : Env) b n n' r, In b typed_file_ids ->
  read_file (file_id_of b) n r = read_file (file_id_of b) n' r.
Proof. exact @typed_any_length. Qed.
Print Assumptions C23_typed_ignores_prefix.

(** ... and any other file obeys. *)
Theorem C23_untyped_exact : forall (E : Env) b n d, u8 b -> bytes d -> ~ In b typed_file_ids ->
  file_from_bytes d 0 (file_id_of b) n =
  (if n <=? N.of_nat (length d)
   then Ok ((skipn (N.to_nat n) d, 0%nat), FOther (firstn (N.to_nat n) d)) else Err EIncomplete).
Proof. exact @untyped_exact. Qed.
Print Assumptions C23_untyped_exact.

(** A virtual id announced as five bytes: two are consumed; announced as one byte: likewise. *)
Theorem C23_prefix_refuted : forall (E : Env),
  (exists r', read_file_payload (mkFileOffset 6 0) (new_reader [5; 0xAB; 0xCD; 1; 2; 3]) = Ok (FVId (VId 0xABCD), r') /\
              pos r' = 3%nat /\ left r' = []) /\
  (exists r', read_file_payload (mkFileOffset 6 0) (new_reader [1; 0xAB; 0xCD; 1; 2; 3]) = Ok (FVId (VId 0xABCD), r') /\
              pos r' = 3%nat /\ left r' = []).
Proof. exact @prefix_ignored. Qed.
Print Assumptions C23_prefix_refuted.

Example C23_example : forall (E : Env),
  to_bytes (write_file_payload (FOther [1; 2; 3]) (mkFileOffset 0x40 0)) = Ok [3; 1; 2; 3] /\
  ~ In 0x40 typed_file_ids.
Proof.
  intros [[] [] []]; (split; [reflexivity|]); cbn; intros H; repeat (destruct H as [H|H]; [discriminate|]); exact H.
Qed.

(** C24. *)
Theorem C24_write_string : forall n s, bytes s ->
  to_bytes (write_string n s) = Ok (field n s) /\ length (field n s) = n.
Proof. exact (fun n s H => conj (string_written n s H) (field_length n s)). Qed.
Print Assumptions C24_write_string.

Theorem C24_read_string : forall n d, bytes d ->
  ((n <= length d)%nat -> is_utf8 (firstn n d) ->
     d_from_bytes (read_string n) d 0 = Ok ((skipn n d, 0%nat), firstn n d)) /\
  ((n <= length d)%nat -> ~ is_utf8 (firstn n d) -> d_from_bytes (read_string n) d 0 = Err EParse) /\
  ((length d < n)%nat -> d_from_bytes (read_string n) d 0 = Err EIncomplete).
Proof. exact string_read. Qed.
Print Assumptions C24_read_string.

Theorem C24_firmware_exact : forall v,
  comes_back (write_firmware_version v) read_firmware_version v <->
  u8 (fw_major v) /\ u8 (fw_minor v) /\ is_utf8 (fw_app v) /\ length (fw_app v) = 6%nat /\
  is_utf8 (fw_sha v) /\ length (fw_sha v) = 7%nat.
Proof. exact (fun v => proj2 (firmware_exact v)). Qed.
Print Assumptions C24_firmware_exact.

Theorem C24_firmware_otherwise : forall a b s t, u8 a -> u8 b -> is_utf8 s -> is_utf8 t ->
  let v := mkFirmware a b s t in
  exists l, to_bytes (write_firmware_version v) = Ok l /\ length l = 15%nat /\
  (is_utf8 (field 6 s) /\ is_utf8 (field 7 t) ->
     d_try_from read_firmware_version l = Ok (mkFirmware a b (field 6 s) (field 7 t))) /\
  (~ (is_utf8 (field 6 s) /\ is_utf8 (field 7 t)) -> d_try_from read_firmware_version l = Err EParse) /\
  ((length s <= 6)%nat -> is_utf8 (field 6 s)) /\ ((length t <= 7)%nat -> is_utf8 (field 7 t)).
Proof. exact firmware_back. Qed.
Print Assumptions C24_firmware_otherwise.

(** "abc" comes back as "abc\0\0\0"; "abcdeß" is cut inside the last character. *)
Example C24_example :
  is_utf8 [0x61; 0x62; 0x63; 0x64; 0x65; 0xC3; 0x9F] /\
  to_bytes (write_firmware_version (mkFirmware 1 2 [0x61; 0x62; 0x63] [0x37]))
  = Ok [1; 2; 0x61; 0x62; 0x63; 0; 0; 0; 0x37; 0; 0; 0; 0; 0; 0] /\
  to_bytes (write_firmware_version (mkFirmware 1 2 [0x61; 0x62; 0x63; 0x64; 0x65; 0xC3; 0x9F] [0x37]))
  = Ok [1; 2; 0x61; 0x62; 0x63; 0x64; 0x65; 0xC3; 0x37; 0; 0; 0; 0; 0; 0] /\
  d_try_from read_firmware_version [1; 2; 0x61; 0x62; 0x63; 0x64; 0x65; 0xC3; 0x37; 0; 0; 0; 0; 0; 0] = Err EParse.
Proof.
  split; [|repeat split; reflexivity]. exists [0x61; 0x62; 0x63; 0x64; 0x65; 0xDF].
  split; [|reflexivity]. repeat (apply Forall_cons; [left; reflexivity|]). constructor.
Qed.

(** C25. *)
Theorem C25_size_refuted :
  (forall v l, to_bytes (write_firmware_version v) = Ok l -> N.of_nat (length l) <> firmware_version_SIZE) /\
  (forall s p l, to_bytes (write_access_profile p) = Ok l -> N.of_nat (length l) <> access_profile_SIZE s).
Proof. exact sizes_wrong. Qed.
Print Assumptions C25_size_refuted.

(** The sizes are fixed, but they are 15 and 65. *)
Theorem C25_size_exact :
  (forall v, exists l, to_bytes (write_firmware_version v) = Ok l /\ length l = 15%nat) /\
  (forall p l, length (ap_sub_profiles p) = 4%nat -> length (ap_sub_bands p) = 8%nat ->
     to_bytes (write_access_profile p) = Ok l -> length l = 65%nat).
Proof. exact (conj firmware_size access_profile_size). Qed.
Print Assumptions C25_size_exact.

Theorem C25_id_selects : forall (E : Env),
  (file_id_try_from firmware_version_ID = Ok FidFirmwareVersion /\
   forall n r v r', read_file FidFirmwareVersion n r = Ok (FFirmwareVersion v, r') <->
                    read_firmware_version r = Ok (v, r')) /\
  (forall s, s < 15 -> file_id_try_from (access_profile_ID s) = Ok (FidAccessProfile s) /\
   forall n r v r', read_file (FidAccessProfile s) n r = Ok (FAccessProfile s v, r') <->
                    read_access_profile r = Ok (v, r')).
Proof. exact @ids_right. Qed.
Print Assumptions C25_id_selects.

Example C25_example : exists l,
  to_bytes (write_access_profile (mkAccessProfile (mkChannelHeader Band868 LoRate Pn9)
    (repeat (mkSubProfile 1 (mkVarInt 4 false)) 4) (repeat (mkSubBand 1 2 3 4 5) 8))) = Ok l /\ length l = 65%nat.
Proof. eexists. split; reflexivity. Qed.

(** C26. *)
Theorem C26_file_id_refuted : forall (E : Env),
  exists b id, u8 b /\ file_id_try_from b = Ok id /\ file_id_into id = Panic.
Proof. exact @file_id_refuted. Qed.
Print Assumptions C26_file_id_refuted.

Theorem C26_file_id_exact : forall (E : Env) b, u8 b -> exists id, file_id_try_from b = Ok id /\
  (In b named_file_ids -> file_id_into id = Ok b) /\ (~ In b named_file_ids -> file_id_into id = Panic).
Proof. exact @file_id_back. Qed.
Print Assumptions C26_file_id_exact.

Example C26_example : forall (E : Env),
  file_id_try_from 0x2E = Ok (FidAccessProfile 14) /\ file_id_into (FidAccessProfile 14) = Ok 0x2E /\
  file_id_try_from 0x2F = Ok FidOther /\ file_id_into FidOther = Panic.
Proof. intros [[] [] []]; repeat split. Qed.

(** C29. *)
Theorem C29_phy_status_exact : forall a b c d l,
  u32 a -> u32 b -> u32 c -> u16 d -> Forall wf_channel_status l ->
  let v := phy_status_new a b c d l in
  (comes_back (write_phy_status v) read_phy_status v <-> (length l <= 255)%nat).
Proof. exact phy_status_new_exact. Qed.
Print Assumptions C29_phy_status_exact.

(** What comes back otherwise. *)
Theorem C29_phy_status_wraps : forall a b c d l,
  u32 a -> u32 b -> u32 c -> u16 d -> Forall wf_channel_status l ->
  exists bs rest, to_bytes (write_phy_status (phy_status_new a b c d l)) = Ok bs /\
    d_from_bytes read_phy_status bs 0 =
      Ok ((rest, 0%nat), phy_status_new a b c d (firstn (Nat.modulo (length l) 256) l)) /\
    length rest = (3 * (length l - Nat.modulo (length l) 256))%nat.
Proof. exact phy_status_wrapped. Qed.
Print Assumptions C29_phy_status_wraps.

Theorem C29_phy_status_refuted : exists l, Forall wf_channel_status l /\
  let v := phy_status_new 1 2 3 4 l in ~ comes_back (write_phy_status v) read_phy_status v.
Proof. exact phy_status_refuted. Qed.
Print Assumptions C29_phy_status_refuted.

Theorem C29_update_exact : forall v,
  u32 (ps_up v) -> u32 (ps_rx v) -> u32 (ps_tx v) -> u16 (ps_duty v) -> Forall wf_channel_status (ps_channels v) ->
  ((length (ps_channels v) <= 255)%nat ->
     exists v', phy_status_update v = Ok v' /\ ps_channels v' = ps_channels v /\
       v' = phy_status_new (ps_up v) (ps_rx v) (ps_tx v) (ps_duty v) (ps_channels v) /\
       comes_back (write_phy_status v') read_phy_status v') /\
  ((255 < length (ps_channels v))%nat -> phy_status_update v = Err EParse).
Proof. exact phy_status_count_exact. Qed.
Print Assumptions C29_update_exact.

Example C29_example :
  let s := mkChannelStatus (mkChannelStatusIdentifier Band868 KHz25 0x123) 0x55 in
  wf_channel_status s /\ ps_count (phy_status_new 1 2 3 4 (repeat s 255)) = 255 /\
  ps_count (phy_status_new 1 2 3 4 (repeat s 256)) = 0.
Proof. repeat split. Qed.
