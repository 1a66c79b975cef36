(** LNice.v continued: files, queries, interfaces and the other parts of operands. *)
From Coq Require Import List NArith ZArith Bool Lia ZifyBool ZifyNat ZifyN Arith.
From Verif Require Import Base Deku Utils Types Physical Link Network Session Data Query
  Interface File Operation WellFormed LBits LReader LTypes LUtf8 LLayout LApi LNice.
Import ListNotations.
Open Scope N_scope.

(** data *)
Lemma Nice_user_permissions : Nice 0 read_user_permissions (fun _ => True).
Proof. unfold read_user_permissions. nice. exact I. Qed.
#[export] Hint Resolve Nice_user_permissions : nice.
Lemma Nice_file_permissions : Nice 0 read_file_permissions (fun _ => True).
Proof. unfold read_file_permissions. nice. exact I. Qed.
Lemma Nice_fs_properties : Nice 0 read_fs_properties (fun _ => True).
Proof. unfold read_fs_properties, read_action_condition, read_storage_class. nice. exact I. Qed.
#[export] Hint Resolve Nice_file_permissions Nice_fs_properties : nice.
Lemma Nice_file_header : Nice 0 read_file_header wf_file_header.
Proof. unfold read_file_header. nice. unfold wf_file_header. cbn. tauto. Qed.
#[export] Hint Resolve Nice_file_header : nice.

(** query *)
Lemma Nice_arith_params : Nice 0 read_arith_params (fun _ => True).
Proof. unfold read_arith_params, read_arith_cmp. nice. exact I. Qed.
Lemma Nice_range_params : Nice 0 read_range_params (fun _ => True).
Proof. unfold read_range_params, read_range_cmp. nice. exact I. Qed.
Lemma Nice_cond_vec c n : Nice 0 (read_cond_vec c n) (wf_mask c n).
Proof.
  unfold read_cond_vec, wf_mask. destruct c; [apply Nice_vec|]. apply Nice_ret. split; [constructor|reflexivity].
Qed.
Lemma Nice_vec_mask n : Nice 0 (read_vec_u8 n) (wf_mask true n).
Proof. apply Nice_vec. Qed.
#[export] Hint Resolve Nice_arith_params Nice_range_params Nice_cond_vec Nice_vec_mask : nice.
Lemma Nice_non_void : Nice 0 read_non_void (fun v => wf_query (QNonVoid v)).
Proof. unfold read_non_void. nice. cbn. auto. Qed.
Lemma Nice_cmp_zero : Nice 0 read_cmp_zero (fun v => wf_query (QCmpZero v)).
Proof. unfold read_cmp_zero. nice. cbn. auto. Qed.
Lemma Nice_cmp_value : Nice 0 read_cmp_value (fun v => wf_query (QCmpValue v)).
Proof. unfold read_cmp_value. nice. cbn [wf_query cv_length cv_mask_present cv_mask cv_value cv_file]. auto. Qed.
Lemma Nice_cmp_other : Nice 0 read_cmp_other (fun v => wf_query (QCmpOther v)).
Proof. unfold read_cmp_other. nice. cbn. auto. Qed.
Lemma Nice_bitmap_range : Nice 0 read_bitmap_range (fun v => wf_query (QBitmapRange v)).
Proof. unfold read_bitmap_range. nice. cbn [wf_query br_length br_start br_stop br_mask br_file]. auto 10. Qed.
Lemma Nice_uint3 : Nice 0 (read_uint 3) (fun v => v < 8).
Proof. apply Nice_uint_is. reflexivity. Qed.
#[export] Hint Resolve Nice_uint3 : nice.
Lemma Nice_string_search : Nice 0 read_string_search (fun v => wf_query (QStringSearch v)).
Proof. unfold read_string_search. nice. cbn [wf_query ss_max_errors ss_length ss_mask ss_value ss_file]. auto 10. Qed.
Lemma Nice_assoc {A} (x : N) (l : list (N * reader A)) e P :
  e <> EFuel -> Forall (fun p => Nice 0 (snd p) P) l ->
  Nice 0 (match assoc x l with Some m => m | None => fail e end) P.
Proof.
  intros He H. induction H as [|[n m] l Hm _ IH]; cbn [assoc]; [apply Nice_fail; exact He|].
  destruct (N.eqb x n); [exact Hm|exact IH].
Qed.
#[export] Hint Resolve Nice_non_void Nice_cmp_zero Nice_cmp_value Nice_cmp_other Nice_bitmap_range
  Nice_string_search : nice.
Lemma Nice_map {A B} (m : reader A) (f : A -> B) P (Q : B -> Prop) : Nice 0 m P -> (forall v, P v -> Q (f v)) ->
  Nice 0 (x <- m ;; ret (f x)) Q.
Proof. intros H HQ. eapply Nice_bind; [exact H|]. intros. apply Nice_ret. auto. Qed.
Lemma Nice_query : Nice 0 read_query wf_query.
Proof.
  unfold read_query. eapply Nice_bind; [apply Nice_uint0|]. intros x _. apply Nice_assoc; [discriminate|].
  unfold query_readers. repeat constructor; cbn [snd]; eapply Nice_map; eauto 2 with nice.
Qed.
#[export] Hint Resolve Nice_query : nice.

(** files *)
Lemma Nice_dll_config : Nice 0 read_dll_config wf_dll_config.
Proof. unfold read_dll_config. nice. unfold wf_dll_config. cbn. auto. Qed.
Lemma Nice_dll_status : Nice 0 read_dll_status wf_dll_status.
Proof. unfold read_dll_status. nice. unfold wf_dll_status. cbn. auto 10. Qed.
Lemma Nice_engineering_mode : Nice 0 read_engineering_mode wf_engineering_mode.
Proof. unfold read_engineering_mode, read_eng_method. nice. unfold wf_engineering_mode. cbn. auto. Qed.
Lemma Nice_factory_settings : Nice 0 read_factory_settings wf_factory_settings.
Proof. unfold read_factory_settings. nice. unfold wf_factory_settings. cbn. repeat (split; [assumption|]). assumption. Qed.
Lemma Nice_string n : Nice 0 (read_string n) (fun l => is_utf8 l /\ length l = n).
Proof.
  unfold read_string. eapply Nice_bind; [apply Nice_fixed|]. cbv beta. intros l (H1 & H2).
  destruct (utf8_valid l) eqn:V; [|apply Nice_fail; discriminate].
  apply Nice_ret. split; [apply utf8_valid_is; [exact H1|exact V]|lia].
Qed.
#[export] Hint Resolve Nice_dll_config Nice_dll_status Nice_engineering_mode Nice_factory_settings
  Nice_string : nice.
Lemma Nice_firmware_version : Nice 0 read_firmware_version wf_firmware_version.
Proof. unfold read_firmware_version. nice. unfold wf_firmware_version. cbn. tauto. Qed.
Lemma Nice_phy_status : Nice 0 read_phy_status wf_phy_status.
Proof.
  unfold read_phy_status. nice. eapply Nice_bind; [apply Nice_list, Nice_channel_status|]. intros l (H4 & H5).
  apply Nice_ret. unfold wf_phy_status. cbn [ps_up ps_rx ps_tx ps_duty ps_count ps_channels].
  rewrite H5, N2Nat.id. tauto.
Qed.
#[export] Hint Resolve Nice_firmware_version Nice_phy_status : nice.
Lemma Nice_file {E : Env} b l : u8 b -> wf_length l -> Nice 0 (read_file (file_id_of b) l) (wf_file b).
Proof.
  intros Hb Hl. unfold read_file.
  assert (K : forall P : file_id -> Prop, (forall i, i < 15 -> b = 0x20 + i -> P (FidAccessProfile i)) ->
    (b = 0 -> P FidUId) -> (b = 1 -> P FidFactorySettings) -> (b = 2 -> P FidFirmwareVersion) ->
    (b = 5 -> P FidEngineeringMode) -> (b = 6 -> P FidVId) -> (b = 9 -> P FidPhyStatus) ->
    (b = 0xA -> P FidDllConfig) -> (b = 0xB -> P FidDllStatus) -> (b = 0xE -> P FidNetworkSecurityKey) ->
    (forall id, ~ In b typed_file_ids ->
       match id with FidAccessProfile _ | FidUId | FidFactorySettings | FidFirmwareVersion
       | FidEngineeringMode | FidVId | FidPhyStatus | FidDllConfig | FidDllStatus | FidNetworkSecurityKey => False
       | _ => True end -> P id) -> P (file_id_of b)).
  { intros P. intros. assert (Hn : b < 47 \/ 47 <= b) by lia. destruct Hn as [Hn|Hn].
    - assert (Hs : exists n, b = N.of_nat n /\ (n < 47)%nat) by (exists (N.to_nat b); lia).
      destruct Hs as (n & -> & Hs).
      do 47 (destruct n as [|n];
        [ cbn [N.of_nat Pos.of_succ_nat Pos.succ] in *;
          cbv [file_id_of assoc file_id_tbl N.eqb Pos.eqb];
          first [ solve [auto] | solve [match goal with H : _ |- _ => apply H; lia end]
                | solve [match goal with H : (forall id, _) |- _ => apply H; [cbn; lia|exact I] end] ] |]).
      lia.
    - assert (E1 : file_id_of b = FidOther).
      { unfold file_id_of. replace (assoc b file_id_tbl) with (@None file_id); [reflexivity|].
        symmetry. unfold file_id_tbl. cbn [assoc].
        repeat match goal with |- (if b =? ?k then _ else _) = _ => destruct (N.eqb_spec b k); [lia|] end.
        reflexivity. }
      rewrite E1. match goal with H : (forall id, _) |- _ => apply H; [cbn; lia|exact I] end. }
  apply K; intros.
  - eapply Nice_map; [apply Nice_access_profile|]. cbn. auto.
  - eapply Nice_map; [apply Nice_address|]. cbn. intros [] (Q1 & Q2); cbn in *; tauto.
  - eapply Nice_map; [apply Nice_factory_settings|]. cbn. auto.
  - eapply Nice_map; [apply Nice_firmware_version|]. cbn. auto.
  - eapply Nice_map; [apply Nice_engineering_mode|]. cbn. auto.
  - eapply Nice_map; [apply Nice_address|]. cbn. intros [] (Q1 & Q2); cbn in *; tauto.
  - eapply Nice_map; [apply Nice_phy_status|]. cbn. auto.
  - eapply Nice_map; [apply Nice_dll_config|]. cbn. auto.
  - eapply Nice_map; [apply Nice_dll_status|]. cbn. auto.
  - eapply Nice_map; [apply (Nice_native 16 (2 ^ 128)); reflexivity|]. cbn. auto.
  - assert (Q : Nice 0 (l <- read_vec_u8 l ;; ret (FOther l)) (wf_file b)).
    { eapply Nice_map; [apply Nice_vec|]. cbv beta. intros v (Q1 & Q2). cbn [wf_file].
      split; [assumption|]. split; [exact Q1|]. rewrite Q2. exact Hl. }
    destruct id; try contradiction; exact Q.
Qed.

(** interfaces *)
Lemma Nice_dash7_config {E : Env} : Nice 0 read_dash7_config wf_dash7_config.
Proof.
  unfold read_dash7_config. nice.
  eapply Nice_bind with (P := fun v => wf_varint v /\ (e_feat = Subiot -> v = mkVarInt 0 false)).
  { unfold is_subiot. destruct e_feat.
    - eapply Nice_weaken; [apply Nice_varint|lia|]. cbv beta. intros v Hv. split; [exact Hv|discriminate].
    - apply Nice_ret. split; [|auto]. split; [reflexivity|]. exists 0, 0. cbn. lia.
    - eapply Nice_weaken; [apply Nice_varint|lia|]. cbv beta. intros v Hv. split; [exact Hv|discriminate]. }
  intros v (V1 & V2). nice. unfold wf_dash7_config. cbn. auto.
Qed.
Lemma Nice_lorawan_config : Nice 0 read_lorawan_config wf_lorawan_config.
Proof. unfold read_lorawan_config. nice. split; assumption. Qed.
#[export] Hint Resolve Nice_dash7_config Nice_lorawan_config : nice.
Lemma Nice_vec_fixed n : Nice 0 (read_vec_u8 (N.of_nat n)) (wf_fixed n).
Proof. eapply Nice_weaken; [apply Nice_vec|lia|]. cbv beta. intros l (H1 & H2). split; [exact H1|lia]. Qed.
Lemma Nice_otaa : Nice 0 read_otaa wf_otaa.
Proof.
  unfold read_otaa. nstep. eapply Nice_bind; [apply (Nice_vec_fixed 8)|]. intros.
  eapply Nice_bind; [apply (Nice_vec_fixed 8)|]. intros.
  eapply Nice_bind; [apply (Nice_vec_fixed 16)|]. intros. apply Nice_ret. unfold wf_otaa.
  cbn [ot_base ot_dev_eui ot_app_eui ot_app_key]. auto.
Qed.
Lemma Nice_native4 {E : Env} : Nice 0 (read_native 4) u32.
Proof. apply Nice_native. reflexivity. Qed.
#[export] Hint Resolve Nice_native4 : nice.
Lemma Nice_abp {E : Env} : Nice 0 read_abp wf_abp.
Proof.
  unfold read_abp. nstep. eapply Nice_bind; [apply (Nice_vec_fixed 16)|]. intros.
  eapply Nice_bind; [apply (Nice_vec_fixed 16)|]. intros. nice. unfold wf_abp.
  cbn [ab_base ab_nwk_key ab_app_key ab_dev_addr ab_net_id]. auto.
Qed.
#[export] Hint Resolve Nice_otaa Nice_abp : nice.

(** interface_final (wizzilab) *)
Lemma Nice_final_status_code : Nice 0 read_final_status_code (fun _ => True).
Proof. apply Nice_enum0. Qed.
#[export] Hint Resolve Nice_final_status_code : nice.
Lemma Nice_interface_final_status i l : wf_length l ->
  Nice 0 (read_interface_final_status i l)
    (fun s => match s with FinDash7 _ => i = 0xD7 | FinOther k => i <> 0xD7 /\ wf_payload k end).
Proof.
  intros Hl. unfold read_interface_final_status. destruct (N.eqb_spec i 0xD7); nice; auto.
  destruct H as (H1 & H2). unfold wf_payload. rewrite H2. auto.
Qed.
Lemma Nice_itf_final_op : Nice 0 read_itf_final_op wf_itf_final_op.
Proof.
  unfold read_itf_final_op. nice. eapply Nice_bind; [apply Nice_interface_final_status; assumption|].
  intros [c|k] Hs; apply Nice_ret; unfold wf_itf_final_op; cbn [ifo_status ifo_id]; tauto.
Qed.
Lemma Nice_dash7_tx_status {E : Env} : Nice 0 read_dash7_tx_status wf_tx_status.
Proof. unfold read_dash7_tx_status. nice. unfold wf_tx_status. cbn. auto. Qed.
#[export] Hint Resolve Nice_itf_final_op Nice_dash7_tx_status : nice.
