(** C84: what is written for any value of a frame or of a type on its own. *)
From Coq Require Import List NArith ZArith Bool.
From Verif Require Import Base Deku Utils Types Physical Link Network Session Data Query Interface File
  Operation Action Command Frames SpecLayout SpecApi SpecFail SpecFrames SpecWritten LWritten.
Import ListNotations.
Open Scope N_scope.

(** Writing never panics. It fails exactly for these numbers, and the number of bytes depends on the
    sizes of the parts alone. *)
Theorem C84_foreground : forall (E : Env) v,
  settled (write_fframe v)
  (Exists too_long (frame_lengths v) \/ Exists too_large (frame_varints v) \/
   Exists (fun k => too_long (N.of_nat k mod 2 ^ 32)) (frame_payloads v)) (whole_bytes (frame_bits_of v)).
Proof. exact @frame_settled. Qed.
Print Assumptions C84_foreground.
Theorem C84_background : forall (E : Env) v,
  settled (write_bframe v) False 6.
Proof. exact @bframe_settled. Qed.
Print Assumptions C84_background.
Theorem C84_command : forall (E : Env) c,
  settled (write_command c)
  (Exists too_long (flat_map lengths_of c) \/ Exists too_large (flat_map varints_of c) \/
   Exists (fun k => too_long (N.of_nat k mod 2 ^ 32)) (flat_map payloads_of c))
  (whole_bytes (list_sum (map (fun a => 8 * size_of a + match a with ATxStatus _ => 6 | _ => 0 end)%nat c))).
Proof. exact @command_settled. Qed.
Print Assumptions C84_command.
Theorem C84_types : forall (E : Env),
  (forall v, settled (write_length v) (too_long v) (length_size v)) /\
  (forall v, settled (write_varint v) (too_large (vi_value v)) 1) /\
  (forall v, settled (write_file_offset v) (too_long (fo_offset v)) (1 + length_size (fo_offset v))) /\
  (forall v, settled (write_channel_header v) False 1) /\ (forall v, settled (write_channel v) False 3) /\
  (forall v, settled (write_channel_status v) False 3) /\ (forall v, settled (write_sub_band v) False 7) /\
  (forall v, settled (write_sub_profile v) (too_large (vi_value (sp_period v))) 2) /\
  (forall v, settled (write_access_class v) False 1) /\
  (forall v, settled (write_access_profile v) (Exists (fun s => too_large (vi_value (sp_period s))) (ap_sub_profiles v))
     (1 + 2 * length (ap_sub_profiles v) + 7 * length (ap_sub_bands v))) /\
  (forall v, settled (write_address v) (Exists too_large (address_varints v)) (address_size v)) /\
  (forall v, settled (write_nls_state v) False (state_size v)) /\
  (forall v, settled (write_addressee v) (Exists too_large (address_varints (ad_address v))) (addressee_size v)) /\
  (forall v, settled (write_qos v) False 1) /\
  (forall v, settled (write_dash7_status v)
     (too_large (vi_value (ds_timeout v)) \/ Exists too_large (address_varints (ad_address (ds_addressee v))))
     (10 + addressee_size (ds_addressee v))) /\
  (forall v, settled (write_dash7_tx_status v) (Exists too_large (address_varints (ad_address (tx_addressee v))))
     (12 + addressee_size (tx_addressee v))) /\
  (forall v, settled (write_final_status_code v) False 1) /\
  (forall v, settled (write_file_header v) False 12).
Proof. exact @types_settled. Qed.
Print Assumptions C84_types.
Theorem C84_operations : forall (E : Env),
  (forall v, settled (write_query v) (Exists too_long (query_lengths v)) (query_size v)) /\
  (forall v, settled (write_dash7_config v) (Exists too_large (dash7_config_varints v))
     (2 + (match e_feat with Subiot => 0 | _ => 1 end) + addressee_size (dc_addressee v))) /\
  (forall v, settled (write_lorawan_config v) False 3) /\
  (forall v, settled (write_otaa v) False (3 + length (ot_dev_eui v) + length (ot_app_eui v) + length (ot_app_key v))) /\
  (forall v, settled (write_abp v) False (3 + length (ab_nwk_key v) + length (ab_app_key v) + 8)) /\
  (forall v, settled (write_interface_config v)
     (match v with IcDash7 c => Exists too_large (dash7_config_varints c) | _ => False end) (interface_config_size v)) /\
  (forall v, settled (write_indirect_interface v)
     (match v with IiDash7 a => Exists too_large (address_varints (ad_address a)) | _ => False end)
     (match v with IiDash7 a => 1 + addressee_size a | _ => 1 end)) /\
  (forall v, settled (write_itf_status_op v)
     (Exists too_large (itf_status_varints (iso_status v)) \/ too_long (N.of_nat (itf_status_size (iso_status v)) mod 2 ^ 32))
     (itf_type_size (iso_type v) + prefixed_size (itf_status_size (iso_status v)))) /\
  (forall v, settled (write_itf_final_op v) (too_long (N.of_nat (final_size (ifo_status v)) mod 2 ^ 32))
     (1 + prefixed_size (final_size (ifo_status v)))).
Proof. exact @operations_settled. Qed.
Print Assumptions C84_operations.
Theorem C84_files : forall (E : Env),
  (forall f, settled (write_file f) (Exists too_large (file_varints f)) (file_size f)) /\
  (forall v, settled (write_dll_config v) False 7) /\ (forall v, settled (write_dll_status v) False 16) /\
  (forall v, settled (write_engineering_mode v) False 7) /\ (forall v, settled (write_factory_settings v) False 56) /\
  (forall v, settled (write_firmware_version v) False 15) /\
  (forall v, settled (write_phy_status v) False (15 + 3 * length (ps_channels v))).
Proof. exact @files_settled. Qed.
Print Assumptions C84_files.

(** Fields of frames that are narrower than their Rust type: what does not fit is dropped. *)
Theorem C84_eirp : forall (E : Env) v e,
  fframe_to_bytes (with_eirp v e) = fframe_to_bytes (with_eirp v (e mod 64)).
Proof. exact @eirp_masked. Qed.
Print Assumptions C84_eirp.
Theorem C84_access : forall (E : Env) v s m,
  fframe_to_bytes (with_access v (mkAccessClass s m)) = fframe_to_bytes (with_access v (mkAccessClass (s mod 16) (m mod 16))).
Proof. exact @access_masked. Qed.
Print Assumptions C84_access.
Theorem C84_tag : forall (E : Env) s t g p c,
  bframe_to_bytes (mkBFrame s t g p c) = bframe_to_bytes (mkBFrame s t (g mod 64) p c).
Proof. exact @tag_masked. Qed.
Print Assumptions C84_tag.

(** A frame with the length field 2^30 and one with a listen timeout above 507904 are rejected; the
    same frame with both in range takes 18 bytes, 17.875 of them used with wizzilab. A power of 66 is
    written as 2. *)
Example C84_example : forall E : Env,
  let v l t := mkFFrame l 1 AtNoId 2 NoId (mkNFrame (mkNControl false false AtNoId NlsNone) None (mkAccessClass 1 4) NoId
    (mkTFrame (mkTControl false true false false false false false) 6 7 None (Some (mkVarInt t true)) None None None [read_uid])) 0xABCD in
  fframe_to_bytes (v (2 ^ 30) 3) = Err EInvalidParam /\ fframe_to_bytes (v 70 507905) = Err EInvalidParam /\
  (exists l, fframe_to_bytes (v (2 ^ 30 - 1) 507904) = Ok l /\ length l = 18%nat) /\
  frame_bits_of (v (2 ^ 30 - 1) 507904) = (match e_feat with Wizzilab => 143 | _ => 144 end)%nat /\
  fframe_to_bytes (with_eirp (v 70 3) 66) = fframe_to_bytes (v 70 3).
Proof.
  intros [[] [] []]; cbv zeta;
    (split; [vm_compute; reflexivity|]; split; [vm_compute; reflexivity|]; split; [eexists; split; vm_compute; reflexivity|];
     split; vm_compute; reflexivity).
Qed.
