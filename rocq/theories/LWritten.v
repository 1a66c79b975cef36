(** Lemmas for C84. *)
From Coq Require Import List NArith ZArith Bool Lia Arith ZifyBool ZifyNat ZifyN.
From Verif Require Import Base Deku Utils Types Physical Link Network Session Data Query Interface File
  Operation Action Command Frames WellFormed SpecLayout SpecFail SpecWritten
  LBits LReader LTypes LUtf8 LLayout LRound LNumbers LFrameCanonW LFail.
Import ListNotations.
Open Scope N_scope.

Lemma whole l : length (bytes_of_bits l) = whole_bytes (length l).
Proof.
  destruct (padded l) as (n & Hn & H). apply (f_equal (@length bool)) in H.
  rewrite bits_of_bytes_length, app_length, repeat_length in H. unfold whole_bytes.
  apply (Nat.div_unique _ _ _ (7 - n)%nat); lia.
Qed.
Lemma exists_badl l : existsb badl l = true <-> Exists too_long l.
Proof. unfold too_long. rewrite existsb_exists, Exists_exists. split; intros (x & H1 & H2); exists x; (split; [exact H1|]); unfold badl in *; lia. Qed.
Lemma exists_badv l : existsb badv l = true <-> Exists too_large l.
Proof. unfold too_large. rewrite existsb_exists, Exists_exists. split; intros (x & H1 & H2); exists x; (split; [exact H1|]); unfold badv in *; lia. Qed.
Lemma exists_badp l : existsb badp l = true <-> Exists (fun k => too_long (N.of_nat k mod 2 ^ 32)) l.
Proof.
  unfold too_long. rewrite existsb_exists, Exists_exists. split; intros (x & H1 & H2); exists x; (split; [exact H1|]); unfold badp in *;
    [apply N.leb_le in H2; exact H2|apply N.leb_le; exact H2].
Qed.
Lemma F_settled w ls vs ps n : F w ls vs ps n ->
  settled w (Exists too_long ls \/ Exists too_large vs \/ Exists (fun k => too_long (N.of_nat k mod 2 ^ 32)) ps) (whole_bytes n).
Proof.
  unfold F, settled. rewrite <- exists_badl, <- exists_badv, <- exists_badp.
  destruct (existsb badl ls), (existsb badv vs), (existsb badp ps); cbn [orb]; intros H;
    try (split; [intros _; unfold to_bytes; rewrite H; reflexivity|intros G; destruct G; tauto]).
  split; [intros G; exfalso; intuition discriminate|]. intros _. destruct H as (l & -> & Hl).
  exists (bytes_of_bits l). split; [reflexivity|]. split; [apply bytes_of_bits_bytes|]. rewrite whole, Hl. reflexivity.
Qed.
Lemma whole_8 k : whole_bytes (8 * k) = k.
Proof. unfold whole_bytes. symmetry. apply (Nat.div_unique _ _ _ 7%nat); lia. Qed.
Lemma settled_iff w bad bad' k k' : settled w bad k -> (bad <-> bad') -> k = k' -> settled w bad' k'.
Proof. intros (H1 & H2) Q <-. split; intros G; [apply H1|apply H2]; tauto. Qed.

(** ** Frames *)
Lemma F_opt {A} (w : A -> writer) o v n : (forall x, F (w x) [] (v x) [] n) ->
  F (write_opt w o) [] (match o with Some x => v x | None => [] end) [] (given o n).
Proof. intros H. destruct o; cbn [write_opt given]; [apply H|apply F_nil]. Qed.
Lemma F_ncontrol {E : Env} v : F (write_ncontrol v) [] [] [] (match e_feat with Wizzilab => 8 | _ => 9 end).
Proof.
  unfold write_ncontrol, write_address_type, write_nls_method, nls_bits, is_wizzilab. destruct e_feat; (eapply F_eq; [f_all|..]; f_side).
Qed.
Lemma F_hopping v : F (write_hopping v) [] [] [] 8.
Proof. unfold write_hopping, write_address_type. eapply F_eq; [f_all|..]; f_side. Qed.
Lemma F_ack v : F (write_ack v) [] [] [] 16.
Proof. unfold write_ack. eapply F_eq; [f_all|..]; f_side. Qed.
Lemma F_tcontrol v : F (write_tcontrol v) [] [] [] 7.
Proof. unfold write_tcontrol. eapply F_eq; [f_all|..]; f_side. Qed.
Lemma F_command {E : Env} c : F (write_command c) (flat_map lengths_of c) (flat_map varints_of c) (flat_map payloads_of c)
  (list_sum (map (fun a => 8 * size_of a + match a with ATxStatus _ => 6 | _ => 0 end)%nat c)).
Proof. apply F_list. intros a. exact (F_action a). Qed.
Lemma F_frame {E : Env} v : F (write_fframe v) (frame_lengths v) (frame_varints v) (frame_payloads v) (frame_bits_of v).
Proof.
  unfold write_fframe, write_nframe, write_tframe, write_address_type. eapply F_eq.
  - eapply F_seq; [apply F_length|]. eapply F_seq; [apply F_uint|]. eapply F_seq; [apply F_uint|]. eapply F_seq; [apply F_uint|].
    eapply F_seq; [apply F_address|]. eapply F_seq; [|apply F_native].
    eapply F_seq; [apply F_ncontrol|].
    eapply F_seq; [apply (F_opt write_hopping _ (fun _ => []) 8), F_hopping|]. eapply F_seq; [apply F_access_class|].
    eapply F_seq; [apply F_address|]. eapply F_seq; [apply F_tcontrol|]. eapply F_seq; [apply F_uint|]. eapply F_seq; [apply F_uint|].
    eapply F_seq; [apply (F_opt write_u8 _ (fun _ => []) 8); intros; apply F_uint|].
    eapply F_seq; [apply (F_opt write_varint _ (fun x => [vi_value x]) 8), F_varint|].
    eapply F_seq; [apply (F_opt write_varint _ (fun x => [vi_value x]) 8), F_varint|].
    eapply F_seq; [apply (F_opt write_varint _ (fun x => [vi_value x]) 8), F_varint|].
    eapply F_seq; [apply (F_opt write_ack _ (fun _ => []) 16), F_ack|]. apply F_command.
  - unfold frame_lengths. cbn [app]. rewrite app_nil_r. reflexivity.
  - unfold frame_varints, optional_varint. cbv zeta. cbn [app]. rewrite app_nil_r.
    destruct (nf_hopping (ff_frame v)), (tf_target_rx (nf_frame (ff_frame v))), (tf_ack (nf_frame (ff_frame v))); reflexivity.
  - unfold frame_payloads. cbn [app]. rewrite app_nil_r. reflexivity.
  - unfold frame_bits_of. cbv zeta.
    set (s := list_sum _). clearbody s. unfold given.
    destruct (nf_hopping (ff_frame v)), (tf_target_rx (nf_frame (ff_frame v))), (tf_ack (nf_frame (ff_frame v))),
      (tf_listen (nf_frame (ff_frame v))), (tf_exec_delay (nf_frame (ff_frame v))), (tf_congestion (nf_frame (ff_frame v))), e_feat; lia.
Qed.
Lemma frame_settled {E : Env} v : settled (write_fframe v)
  (Exists too_long (frame_lengths v) \/ Exists too_large (frame_varints v) \/
   Exists (fun k => too_long (N.of_nat k mod 2 ^ 32)) (frame_payloads v)) (whole_bytes (frame_bits_of v)).
Proof. exact (F_settled _ _ _ _ _ (F_frame v)). Qed.
Lemma never w k : F w [] [] [] (8 * k) -> settled w False k.
Proof.
  intros H. apply F_settled in H. eapply settled_iff; [exact H| |apply whole_8].
  rewrite !Exists_nil. tauto.
Qed.
Lemma bframe_settled {E : Env} v : settled (write_bframe v) False 6.
Proof. apply never. unfold write_bframe, write_address_type. eapply F_eq; [f_all|..]; f_side. Qed.
Lemma command_settled {E : Env} c : settled (write_command c)
  (Exists too_long (flat_map lengths_of c) \/ Exists too_large (flat_map varints_of c) \/
   Exists (fun k => too_long (N.of_nat k mod 2 ^ 32)) (flat_map payloads_of c))
  (whole_bytes (list_sum (map (fun a => 8 * size_of a + match a with ATxStatus _ => 6 | _ => 0 end)%nat c))).
Proof. exact (F_settled _ _ _ _ _ (F_command c)). Qed.

(** ** Types on their own *)
Lemma with_varints w vs k : F w [] vs [] (8 * k) -> settled w (Exists too_large vs) k.
Proof.
  intros H. apply F_settled in H. eapply settled_iff; [exact H| |apply whole_8]. rewrite !Exists_nil. tauto.
Qed.
Lemma with_lengths w ls k : F w ls [] [] (8 * k) -> settled w (Exists too_long ls) k.
Proof.
  intros H. apply F_settled in H. eapply settled_iff; [exact H| |apply whole_8]. rewrite !Exists_nil. tauto.
Qed.
Lemma single {A} (P : A -> Prop) x : Exists P [x] <-> P x.
Proof. split; [intros H; inversion H as [? ? G|? ? G]; [exact G|inversion G]|intros H; constructor; exact H]. Qed.
Lemma settled_single w (P : N -> Prop) x k : settled w (Exists P [x]) k -> settled w (P x) k.
Proof. intros H. eapply settled_iff; [exact H|apply single|reflexivity]. Qed.
Lemma types_settled {E : Env} :
  (forall v, settled (write_length v) (too_long v) (length_size v)) /\
  (forall v, settled (write_varint v) (too_large (vi_value v)) 1) /\
  (forall v, settled (write_file_offset v) (too_long (fo_offset v)) (1 + length_size (fo_offset v))) /\
  (forall v, settled (write_channel_header v) False 1) /\ (forall v, settled (write_channel v) False 3) /\
  (forall v, settled (write_channel_status v) False 3) /\ (forall v, settled (write_sub_band v) False 7) /\
  (forall v, settled (write_sub_profile v) (too_large (vi_value (sp_period v))) 2) /\
  (forall v, settled (write_access_class v) False 1) /\
  (forall v, settled (write_access_profile v) (Exists (fun s => too_large (vi_value (sp_period s))) (ap_sub_profiles v))
     (1 + 2 * length (ap_sub_profiles v) + 7 * length (ap_sub_bands v))) /\
  (forall v, settled (write_address v) (Exists too_large (address_varints v)) (address_size v)) /\
  (forall v, settled (write_nls_state v) False (state_size v)) /\
  (forall v, settled (write_addressee v) (Exists too_large (address_varints (ad_address v))) (addressee_size v)) /\
  (forall v, settled (write_qos v) False 1) /\
  (forall v, settled (write_dash7_status v)
     (too_large (vi_value (ds_timeout v)) \/ Exists too_large (address_varints (ad_address (ds_addressee v))))
     (10 + addressee_size (ds_addressee v))) /\
  (forall v, settled (write_dash7_tx_status v) (Exists too_large (address_varints (ad_address (tx_addressee v))))
     (12 + addressee_size (tx_addressee v))) /\
  (forall v, settled (write_final_status_code v) False 1) /\
  (forall v, settled (write_file_header v) False 12).
Proof.
  repeat match goal with |- _ /\ _ => split end; intros v.
  - apply settled_single, with_lengths, F_length.
  - apply settled_single, with_varints, (F_varint v).
  - apply settled_single, with_lengths, F_file_offset.
  - apply never, F_channel_header.
  - apply never, F_channel.
  - apply never, F_channel_status.
  - apply never, F_sub_band.
  - apply settled_single, with_varints, F_sub_profile.
  - apply never, F_access_class.
  - eapply settled_iff; [apply with_varints, (F_access_profile 0 v)| |reflexivity].
    cbn [file_varints]. rewrite Exists_map. reflexivity.
  - apply with_varints, F_address.
  - apply never, F_nls_state.
  - apply with_varints, F_addressee.
  - apply never. unfold write_qos. eapply F_eq; [f_all|..]; f_side.
  - eapply settled_iff; [apply with_varints, F_dash7_status| |reflexivity]. cbn [itf_status_varints]. rewrite Exists_cons. reflexivity.
  - apply with_varints. exact (F_interface_tx (TxDash7 v)).
  - apply never, F_uint.
  - apply never, F_file_header.
Qed.
Lemma F_otaa v : F (write_otaa v) [] [] [] (8 * (3 + length (ot_dev_eui v) + length (ot_app_eui v) + length (ot_app_key v))).
Proof. eapply F_eq; [unfold write_otaa, write_lorawan_config, write_vec_u8; f_all|..]; f_side. Qed.
Lemma F_abp {E : Env} v : F (write_abp v) [] [] [] (8 * (3 + length (ab_nwk_key v) + length (ab_app_key v) + 8)).
Proof. eapply F_eq; [unfold write_abp, write_lorawan_config, write_vec_u8; f_all|..]; f_side. Qed.
Lemma F_dash7_config {E : Env} v : F (write_dash7_config v) [] (dash7_config_varints v) []
  (8 * (2 + (match e_feat with Subiot => 0 | _ => 1 end) + addressee_size (dc_addressee v))).
Proof.
  unfold write_dash7_config, is_subiot, dash7_config_varints. destruct e_feat; (eapply F_eq; [unfold write_qos; f_all|..]; f_side).
Qed.
Lemma F_itf_status_op {E : Env} v : F (write_itf_status_op v) [] (itf_status_varints (iso_status v)) [itf_status_size (iso_status v)]
  (8 * (itf_type_size (iso_type v) + prefixed_size (itf_status_size (iso_status v)))).
Proof.
  unfold write_itf_status_op, write_interface_type.
  assert (HT : F match interface_type_id (iso_type v) with Ok n => write_u8 n | _ => wnil end [] [] [] (8 * itf_type_size (iso_type v))).
  { destruct (iso_type v); first [apply F_uint|apply F_nil]. }
  eapply F_eq; [eapply F_seq; [exact HT|eapply F_prefixed; [apply F_interface_status|reflexivity]]|..]; f_side.
Qed.
Lemma F_itf_final_op v : F (write_itf_final_op v) [] [] [final_size (ifo_status v)] (8 * (1 + prefixed_size (final_size (ifo_status v)))).
Proof. unfold write_itf_final_op. eapply F_eq; [eapply F_seq; [f_next|eapply F_prefixed; [apply F_interface_final|reflexivity]]|..]; f_side. Qed.
Lemma operations_settled {E : Env} :
  (forall v, settled (write_query v) (Exists too_long (query_lengths v)) (query_size v)) /\
  (forall v, settled (write_dash7_config v) (Exists too_large (dash7_config_varints v))
     (2 + (match e_feat with Subiot => 0 | _ => 1 end) + addressee_size (dc_addressee v))) /\
  (forall v, settled (write_lorawan_config v) False 3) /\
  (forall v, settled (write_otaa v) False (3 + length (ot_dev_eui v) + length (ot_app_eui v) + length (ot_app_key v))) /\
  (forall v, settled (write_abp v) False (3 + length (ab_nwk_key v) + length (ab_app_key v) + 8)) /\
  (forall v, settled (write_interface_config v)
     (match v with IcDash7 c => Exists too_large (dash7_config_varints c) | _ => False end) (interface_config_size v)) /\
  (forall v, settled (write_indirect_interface v)
     (match v with IiDash7 a => Exists too_large (address_varints (ad_address a)) | _ => False end)
     (match v with IiDash7 a => 1 + addressee_size a | _ => 1 end)) /\
  (forall v, settled (write_itf_status_op v)
     (Exists too_large (itf_status_varints (iso_status v)) \/ too_long (N.of_nat (itf_status_size (iso_status v)) mod 2 ^ 32))
     (itf_type_size (iso_type v) + prefixed_size (itf_status_size (iso_status v)))) /\
  (forall v, settled (write_itf_final_op v) (too_long (N.of_nat (final_size (ifo_status v)) mod 2 ^ 32))
     (1 + prefixed_size (final_size (ifo_status v)))).
Proof.
  repeat match goal with |- _ /\ _ => split end; intros v.
  - apply with_lengths, F_query.
  - apply with_varints, F_dash7_config.
  - apply never. unfold write_lorawan_config. eapply F_eq; [f_all|..]; f_side.
  - apply never, F_otaa.
  - apply never, F_abp.
  - eapply settled_iff; [apply with_varints, F_interface_config| |reflexivity]. destruct v; try reflexivity; apply Exists_nil.
  - destruct v; cbn [write_indirect_interface]; try (apply never; apply F_uint).
    apply with_varints. eapply F_eq; [f_all|..]; f_side.
  - eapply settled_iff; [exact (F_settled _ _ _ _ _ (F_itf_status_op v))| |apply whole_8]. rewrite Exists_nil, single. tauto.
  - eapply settled_iff; [exact (F_settled _ _ _ _ _ (F_itf_final_op v))| |apply whole_8]. rewrite !Exists_nil, single. tauto.
Qed.
Lemma files_settled {E : Env} :
  (forall f, settled (write_file f) (Exists too_large (file_varints f)) (file_size f)) /\
  (forall v, settled (write_dll_config v) False 7) /\ (forall v, settled (write_dll_status v) False 16) /\
  (forall v, settled (write_engineering_mode v) False 7) /\ (forall v, settled (write_factory_settings v) False 56) /\
  (forall v, settled (write_firmware_version v) False 15) /\
  (forall v, settled (write_phy_status v) False (15 + 3 * length (ps_channels v))).
Proof.
  repeat match goal with |- _ /\ _ => split end; intros v.
  - apply with_varints, F_file.
  - exact (never _ _ (F_file (FDllConfig v))).
  - exact (never _ _ (F_file (FDllStatus v))).
  - exact (never _ _ (F_file (FEngineeringMode v))).
  - exact (never _ _ (F_file (FFactorySettings v))).
  - exact (never _ _ (F_file (FFirmwareVersion v))).
  - exact (never _ _ (F_file (FPhyStatus v))).
Qed.

(** ** Values too wide for their field *)
Lemma write_mod n v : write_uint n (v mod 2 ^ N.of_nat n) = write_uint n v.
Proof. unfold write_uint. rewrite <- bits_of_mod. reflexivity. Qed.
Lemma eirp_masked {E : Env} v e : fframe_to_bytes (with_eirp v e) = fframe_to_bytes (with_eirp v (e mod 64)).
Proof.
  unfold fframe_to_bytes, write_fframe, with_eirp. cbn [ff_length ff_subnet ff_type ff_eirp ff_target ff_frame ff_crc].
  pose proof (write_mod 6 e) as H. change (2 ^ N.of_nat 6) with 64 in H. rewrite H. reflexivity.
Qed.
Lemma access_masked {E : Env} v s m :
  fframe_to_bytes (with_access v (mkAccessClass s m)) = fframe_to_bytes (with_access v (mkAccessClass (s mod 16) (m mod 16))).
Proof.
  assert (H : write_access_class (mkAccessClass s m) = write_access_class (mkAccessClass (s mod 16) (m mod 16))).
  { unfold write_access_class. cbn [ac_specifier ac_mask]. pose proof (write_mod 4 s) as H1. pose proof (write_mod 4 m) as H2.
    change (2 ^ N.of_nat 4) with 16 in *. rewrite H1, H2. reflexivity. }
  unfold fframe_to_bytes, write_fframe, write_nframe, with_access. cbv zeta.
  cbn [ff_length ff_subnet ff_type ff_eirp ff_target ff_frame ff_crc nf_control nf_hopping nf_access nf_origin nf_frame]. rewrite H. reflexivity.
Qed.
Lemma tag_masked {E : Env} s t g p c : bframe_to_bytes (mkBFrame s t g p c) = bframe_to_bytes (mkBFrame s t (g mod 64) p c).
Proof.
  unfold bframe_to_bytes, write_bframe. cbn [bf_subnet bf_type bf_tag bf_payload bf_crc].
  pose proof (write_mod 6 g) as H. change (2 ^ N.of_nat 6) with 64 in H. rewrite H. reflexivity.
Qed.
