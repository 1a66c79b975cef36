(** Lemmas for C94: writers that succeed write the fields of the table. *)
From Coq Require Import List NArith ZArith Bool Lia Arith ZifyBool ZifyNat ZifyN.
From Verif Require Import Base Deku Utils Types Physical Link Network Session Data Query Interface File
  Operation Action Command Frames WellFormed SpecLayout SpecFail SpecFrames SpecWritten SpecTables
  LBits LReader LTypes LLayout LFrameCanonW LFail LWritten LFrames.
Import ListNotations.
Open Scope N_scope.

Definition X (w : writer) (t : table) : Prop := forall b, w = Ok b -> b = bits_of_fields t.

Lemma X_seq a b s t : X a s -> X b t -> X (a +++ b) (s ++ t).
Proof.
  intros Ha Hb c H. unfold wseq in H. destruct a as [x| |]; [|discriminate..]. destruct b as [y| |]; [|discriminate..].
  cbn [rbind] in H. rewrite bits_of_fields_app, <- (Ha x), <- (Hb y) by reflexivity. congruence.
Qed.
Lemma X_cons a b f t : X a [f] -> X b t -> X (a +++ b) (f :: t).
Proof. intros Ha Hb. apply (X_seq _ _ [f] t Ha Hb). Qed.
Lemma X_F w t : F w t -> X w t.
Proof. intros H b K. unfold F in H. congruence. Qed.
Lemma X_eq w s t : X w s -> s = t -> X w t.
Proof. intros H <-. exact H. Qed.
Lemma X_nil : X wnil [].
Proof. apply X_F, LFrames.F_nil. Qed.
Lemma X_uint (k : nat) n v u : n = N.of_nat k -> v = u -> X (write_uint k v) [(n, u)].
Proof. intros H ->. apply X_F, LFrames.F_uint, H. Qed.
Lemma X_bool b : X (write_bool b) [(1, bit b)].
Proof. apply X_F, LFrames.F_bool. Qed.
Lemma X_pad (k : nat) n : n = N.of_nat k -> X (write_pad k) [(n, 0)].
Proof. intros H. apply X_F, LFrames.F_pad, H. Qed.
Lemma X_native {E : Env} k v : X (write_native k v) (octets (enc_native k v)).
Proof. apply X_F, F_W, W_native. Qed.
Lemma X_vec l : X (write_vec_u8 l) (octets l).
Proof. apply X_F. induction l as [|x l IH]; [apply LFrames.F_nil|]. apply (F_cons (write_u8 x) (write_vec_u8 l)); [apply F_u8|exact IH]. Qed.
Lemma X_list {A} (w : A -> writer) t l : (forall x, X (w x) (t x)) -> X (write_list w l) (flat_map t l).
Proof. intros H. induction l as [|x l IH]; [apply X_nil|]. cbn [write_list flat_map]. apply X_seq; auto. Qed.
Lemma X_opt {A} (w : A -> writer) t o : (forall x, X (w x) (t x)) -> X (write_opt w o) (t_optional t o).
Proof. intros H. destruct o; [apply H|apply X_nil]. Qed.
Lemma X_length v : X (write_length v) (octets (enc_length v)).
Proof.
  intros b H. destruct (N.lt_ge_cases v (2 ^ 30)) as [L|L].
  - destruct (W_length v L) as (K & _). rewrite bits_of_octets. congruence.
  - rewrite write_length_fails in H by exact L. discriminate.
Qed.
Lemma X_varint v : X (write_varint v) (octets (enc_varint v)).
Proof.
  intros b H. destruct (N.le_gt_cases (vi_value v) 507904) as [L|L].
  - rewrite layout_varint in H by exact L. rewrite bits_of_octets. congruence.
  - pose proof (F_varint v) as K. unfold LFail.F in K. cbn [existsb orb] in K. unfold badv in K.
    rewrite !orb_false_r in K. replace (507904 <? vi_value v) with true in K by lia. congruence.
Qed.
Lemma X_prefixed w t : X w t -> Nat.modulo (total_width t) 8 = 0%nat -> X (write_length_prefixed w) (t_prefixed t).
Proof.
  intros H M b K. unfold write_length_prefixed, to_bytes in K. destruct w as [c| |]; [|discriminate..].
  cbn [rbind] in K. specialize (H c eq_refl). unfold t_prefixed.
  assert (L : length c = (8 * Nat.div (total_width t) 8)%nat).
  { rewrite H, bits_of_fields_length. pose proof (Nat.div_mod (total_width t) 8). lia. }
  rewrite (bytes_of_bits_length c _ L) in K. revert K. apply X_seq.
  - apply X_length.
  - intros x Hx. apply X_vec in Hx. rewrite Hx, bits_of_octets, (bits_of_bytes_of_bits c _ L). exact H.
Qed.

(** Fields one by one. *)
Ltac x_code := first [reflexivity | match goal with |- ?f ?x = _ => destruct x; reflexivity end].
Ltac x_leaf :=
  first [ apply X_length | apply X_varint | apply X_native | apply X_vec | apply X_bool | apply X_nil
        | apply X_pad; reflexivity | apply X_uint; [reflexivity|x_code] ].
Ltac x_go := repeat first [ x_leaf | apply X_cons; [x_leaf|] | apply X_seq; [x_leaf|] ].
Ltac flatten := rewrite ?wseq_assoc, ?wseq_nil_l, ?wseq_nil_r, <- ?app_assoc; cbn [app].

Lemma X_offset v : X (write_file_offset v) (t_offset v).
Proof. unfold write_file_offset, t_offset. x_go. Qed.
Lemma X_channel_header v : X (write_channel_header v) (t_channel_header v).
Proof. unfold write_channel_header, t_channel_header. x_go. Qed.
Lemma X_channel v : X (write_channel v) (t_channel v).
Proof. apply X_seq; [apply X_channel_header|x_go]. Qed.
Lemma X_channel_status v : X (write_channel_status v) (t_channel_status v).
Proof. unfold write_channel_status, write_channel_status_identifier, t_channel_status. cbv zeta. flatten. x_go. Qed.
Lemma X_sub_band v : X (write_sub_band v) (t_sub_band v).
Proof. unfold write_sub_band, t_sub_band, signed. x_go. Qed.
Lemma X_sub_profile v : X (write_sub_profile v) (t_sub_profile v).
Proof. unfold write_sub_profile, t_sub_profile. x_go. Qed.
Lemma X_access_class v : X (write_access_class v) (t_access_class v).
Proof. unfold write_access_class, t_access_class. x_go. Qed.
Lemma X_access_profile v : X (write_access_profile v) (t_access_profile v).
Proof.
  apply X_seq; [apply X_channel_header|]. apply X_seq; apply X_list; [apply X_sub_profile|apply X_sub_band].
Qed.
Lemma X_address v : X (write_address v) (t_address v).
Proof. destruct v; cbn [write_address t_address]; x_go. Qed.
Lemma X_nls_state v : X (write_nls_state v) (octets (enc_nls_state v)).
Proof. destruct v; cbn [write_nls_state enc_nls_state]; x_leaf. Qed.
Lemma X_addressee {E : Env} v : X (write_addressee v) (t_addressee v).
Proof.
  assert (T : X (write_access_class (ad_access v) +++ write_address (ad_address v) +++ write_nls_state (ad_state v))
    (t_access_class (ad_access v) ++ t_address (ad_address v) ++ octets (enc_nls_state (ad_state v)))).
  { apply X_seq; [apply X_access_class|]. apply X_seq; [apply X_address|apply X_nls_state]. }
  unfold write_addressee, t_addressee, write_nls_method, nls_bits, is_wizzilab.
  destruct v as [g t u n c a s]. cbn [ad_group ad_type ad_use_vid ad_nls ad_access ad_address ad_state] in *.
  destruct e_feat; flatten; repeat (apply X_cons; [x_leaf|]); exact T.
Qed.
Lemma X_qos v : X (write_qos v) (t_qos v).
Proof. unfold write_qos, t_qos. x_go. Qed.
Lemma X_dash7_status {E : Env} v : X (write_dash7_status v) (t_dash7_status v).
Proof.
  unfold write_dash7_status, t_dash7_status. flatten. apply X_seq; [apply X_channel|]. x_go. apply X_addressee.
Qed.
Lemma X_tx_status {E : Env} v : X (write_dash7_tx_status v) (t_tx_status v).
Proof.
  unfold write_dash7_tx_status, t_tx_status, signed. flatten. apply X_seq; [apply X_channel|]. x_go. apply X_addressee.
Qed.
Lemma X_interface_status {E : Env} v : X (write_interface_status v) (t_interface_status v).
Proof. destruct v; cbn [write_interface_status t_interface_status]; first [x_leaf|apply X_dash7_status]. Qed.
Lemma X_file_header v : X (write_file_header v) (t_file_header v).
Proof.
  unfold write_file_header, write_file_permissions, write_user_permissions, write_fs_properties, t_file_header.
  cbv zeta. flatten. x_go.
Qed.
Lemma X_query v : X (write_query v) (t_query v).
Proof.
  destruct v as [v|v|v|v|v|v]; unfold write_query; cbn [query_id t_query];
    unfold write_non_void, write_cmp_zero, write_cmp_value, write_cmp_other, write_bitmap_range, write_string_search,
      write_arith_params, write_range_params, t_arith; flatten; x_go;
    repeat first [apply X_offset | apply X_seq; [apply X_offset|]].
Qed.
Lemma X_dash7_config {E : Env} v : X (write_dash7_config v) (t_dash7_config v).
Proof.
  unfold write_dash7_config, t_dash7_config, is_subiot. apply X_seq; [apply X_qos|]. apply X_seq; [x_leaf|].
  destruct e_feat; (apply X_seq; [x_leaf|apply X_addressee]).
Qed.
Lemma X_lorawan v : X (write_lorawan_config v) (t_lorawan v).
Proof. unfold write_lorawan_config, t_lorawan. x_go. Qed.
Lemma X_interface_config {E : Env} v : X (write_interface_config v) (t_interface_config v).
Proof.
  destruct v as [| |c|c|c|i]; cbn [write_interface_config t_interface_config]; x_go.
  - apply X_seq; [apply X_lorawan|]. x_go.
  - apply X_seq; [apply X_lorawan|]. x_go.
  - apply X_dash7_config.
Qed.
Lemma X_indirect_interface {E : Env} v : X (write_indirect_interface v) (t_indirect_interface v).
Proof. destruct v; cbn [write_indirect_interface t_indirect_interface]; x_go. apply X_addressee. Qed.
Lemma t_string_eq n : forall s, t_string n s = octets (firstn (Nat.min (length s) n) s ++ repeat 0 (n - Nat.min (length s) n)).
Proof.
  induction n as [|n IH]; intros s; [rewrite Nat.min_0_r; reflexivity|]. destruct s as [|c s]; cbn [t_string].
  - rewrite IH. cbn [length Nat.min firstn app repeat]. rewrite !Nat.sub_0_r. reflexivity.
  - rewrite IH. reflexivity.
Qed.
Lemma X_string n s : X (write_string n s) (t_string n s).
Proof. rewrite t_string_eq. apply X_vec. Qed.
Lemma X_file {E : Env} f : X (write_file f) (t_file f).
Proof.
  destruct f as [i p|a|v|v|v|a|v|v|v|k|l]; cbn [write_file t_file].
  - apply X_access_profile.
  - apply X_address.
  - unfold write_factory_settings, t_factory, signed. cbn [map]. flatten. x_go.
  - unfold write_firmware_version. flatten. x_go. apply X_seq; apply X_string.
  - unfold write_engineering_mode, signed. flatten. x_go. apply X_seq; [apply X_channel|x_go].
  - apply X_address.
  - unfold write_phy_status. flatten. x_go. apply X_list, X_channel_status.
  - unfold write_dll_config. flatten. x_go.
  - unfold write_dll_status. flatten. x_go. apply X_seq; [apply X_channel_header|x_go].
  - x_leaf.
  - x_leaf.
Qed.

(** Whole bytes. *)
Definition B (t : table) : Prop := Nat.modulo (total_width t) 8 = 0%nat.
Lemma B_app s t : B s -> B t -> B (s ++ t).
Proof. unfold B. intros Hs Ht. rewrite total_width_app, Nat.add_mod, Hs, Ht by lia. reflexivity. Qed.
Lemma B_octets l : B (octets l).
Proof. unfold B. rewrite octets_width, Nat.mul_comm. apply Nat.mod_mul. lia. Qed.
Lemma B_cons8 v t : B t -> B ((8, v) :: t).
Proof. intros H. apply (B_app [(8, v)] t); [reflexivity|exact H]. Qed.
Lemma B_flat {A} (f : A -> table) l : (forall x, B (f x)) -> B (flat_map f l).
Proof. intros H. induction l; [reflexivity|]. cbn [flat_map]. apply B_app; auto. Qed.
Lemma B_address a : B (t_address a).
Proof. destruct a; [apply B_octets|reflexivity..]. Qed.
Lemma B_addressee {E : Env} v : B (t_addressee v).
Proof.
  apply B_app; [destruct e_feat; reflexivity|]. apply B_app; [reflexivity|]. apply B_app; [apply B_address|apply B_octets].
Qed.
Lemma B_dash7_status {E : Env} v : B (t_dash7_status v).
Proof.
  apply B_app; [reflexivity|]. apply B_app; [reflexivity|]. apply B_app; [apply B_octets|apply B_addressee].
Qed.
Lemma B_tx_status {E : Env} v : B (t_tx_status v).
Proof.
  apply B_app; [reflexivity|]. apply B_app; [reflexivity|]. apply B_app; [apply B_octets|apply B_addressee].
Qed.
Lemma B_interface_status {E : Env} v : B (t_interface_status v).
Proof. destruct v; first [reflexivity|apply B_octets|apply B_dash7_status]. Qed.
Lemma B_string n s : B (t_string n s).
Proof. rewrite t_string_eq. apply B_octets. Qed.
Lemma B_file {E : Env} f : B (t_file f).
Proof.
  destruct f as [i p|a|v|v|v|a|v|v|v|k|l]; cbn [t_file]; try reflexivity; try apply B_octets; try apply B_address.
  - apply B_app; [reflexivity|]. apply B_app; apply B_flat; intros x; [apply B_cons8, B_octets|reflexivity].
  - apply B_app; [reflexivity|]. apply B_app; apply B_string.
  - apply B_app; [reflexivity|]. apply B_flat. reflexivity.
Qed.

(** Operations. *)
Lemma X_header h op w t : X w t -> X (write_header h +++ write_opcode op +++ w) (t_header h op ++ t).
Proof. intros H. unfold write_header, write_opcode, t_header, t_first. flatten. x_go. exact H. Qed.
Lemma file_payload_ok {E : Env} f o b : write_file_payload f o = Ok b -> write_length_prefixed (write_file f) = Ok b.
Proof.
  unfold write_file_payload. destruct (file_id_try_from (fo_file_id o)); cbn [rbind]; [|discriminate..]. auto.
Qed.
Lemma X_file_data {E : Env} op v : X (write_file_data op v) (t_file_data op v).
Proof.
  apply X_header. apply X_seq; [apply X_offset|]. intros b H. apply file_payload_ok in H. revert b H.
  apply X_prefixed; [apply X_file|apply B_file].
Qed.
Lemma X_file_id_op op v : X (write_file_id_op op v) (t_file_id_op op v).
Proof. apply X_header. x_go. Qed.
Lemma X_file_properties op v : X (write_file_properties op v) (t_file_properties op v).
Proof. apply X_header. cbn [app]. x_go. apply X_file_header. Qed.
Lemma X_action_query op v : X (write_action_query op v) (t_action_query op v).
Proof. apply X_header. apply X_query. Qed.
Lemma X_nop op v : X (write_nop op v) (t_header (nop_header v) op).
Proof. unfold write_nop, write_header, write_opcode, t_header, t_first. flatten. x_go. Qed.
Lemma X_itf_status_op {E : Env} v : X (write_itf_status_op v) (t_itf_status_op v).
Proof.
  unfold write_itf_status_op, t_itf_status_op. apply X_seq.
  - unfold write_interface_type. destruct (iso_type v); cbn [interface_type_id code_itf_type octets map]; x_leaf.
  - apply X_prefixed; [apply X_interface_status|apply B_interface_status].
Qed.
Lemma X_final v : X (write_interface_final_status v) (octets (enc_interface_final v)).
Proof.
  destruct v as [c|l]; cbn [write_interface_final_status enc_interface_final]; [|x_leaf].
  unfold write_final_status_code. cbn [octets map]. x_leaf.
Qed.
Lemma X_itf_final_op v : X (write_itf_final_op v) (t_itf_final_op v).
Proof. unfold write_itf_final_op, t_itf_final_op. x_go. apply X_prefixed; [apply X_final|apply B_octets]. Qed.
Lemma X_status {E : Env} s : X (write_status s) (t_status s).
Proof.
  destruct s; cbn [write_status t_status]; [unfold write_action_status; x_go|apply X_itf_status_op|apply X_itf_final_op].
Qed.
Lemma X_action {E : Env} a : X (write_action a) (t_action a).
Proof.
  destruct a as [v|v|v|v|v|v|v|v|v|v|v|v|v|v|v|v|v|v|v|v|v|v|v|v|v|v|v|v];
    cbn [write_action t_action action_opcode];
    lazymatch goal with
    | |- X (write_nop _ _) _ => apply X_nop
    | |- X (write_file_id_op _ _) _ => apply X_file_id_op
    | |- X (write_file_data _ _) _ => apply X_file_data
    | |- X (write_file_properties _ _) _ => apply X_file_properties
    | |- X (write_action_query _ _) _ => apply X_action_query
    | _ => idtac
    end.
  - apply X_header. apply X_seq; [apply X_offset|x_leaf].
  - apply X_header. destruct (prq_permission v) as [k]. cbn [write_permission app]. unfold write_permission_level.
    flatten. x_go.
  - apply X_header. x_go.
  - unfold write_status_operand, write_status_type, write_opcode. flatten. x_go. apply X_status.
  - unfold write_response_tag, write_opcode, t_first. flatten. x_go.
  - unfold write_tx_status_op, write_opcode. flatten. x_go. destruct (txo_status v) as [s|l].
    + apply X_prefixed; [apply X_tx_status|apply B_tx_status].
    + apply X_prefixed; [apply X_vec|apply B_octets].
  - unfold write_chunk, write_chunk_step, write_opcode. x_go.
  - unfold write_logic, write_logic_op, write_opcode. x_go.
  - unfold write_forward, write_opcode, t_first. flatten. x_go. apply X_interface_config.
  - unfold write_indirect_forward, write_opcode, t_first. flatten. x_go.
    destruct (if_config v); [apply X_indirect_interface|apply X_nil].
  - unfold write_request_tag, write_opcode, t_first. flatten. x_go.
Qed.
Lemma X_command {E : Env} c : X (write_command c) (t_command c).
Proof. apply X_list. apply X_action. Qed.

(** Frames. *)
Lemma X_frame {E : Env} v : X (write_fframe v) (t_frame v).
Proof.
  unfold write_fframe, write_nframe, write_tframe, t_frame, t_varint. cbv zeta. flatten. x_go.
  apply X_seq; [apply X_address|]. apply X_seq; [apply X_F, LFrames.F_ncontrol|].
  apply X_seq; [apply X_F, LFrames.F_hopping|]. apply X_seq; [apply X_access_class|]. apply X_seq; [apply X_address|].
  apply X_seq; [apply X_F, LFrames.F_tcontrol|]. x_go.
  apply X_seq; [apply (X_opt write_u8 (fun x => [(8, x)])); intros; x_go|].
  do 3 (apply X_seq; [apply X_opt; intros; apply X_varint|]).
  apply X_seq; [apply (X_opt write_ack (fun a => [(8, ack_start a); (8, ack_stop a)])); intros; unfold write_ack; x_go|].
  apply X_seq; [apply X_command|x_leaf].
Qed.
Lemma X_bframe {E : Env} v : X (write_bframe v) (t_bframe v).
Proof. unfold write_bframe, write_address_type, t_bframe. flatten. x_go. Qed.

(** ** Use *)
Lemma emits_X w bad k t : settled w bad k -> X w t -> ~ bad -> emits w t.
Proof.
  intros (_ & H) HX Hb. destruct (H Hb) as (l & Hl & _). unfold to_bytes in Hl. destruct w as [b| |]; [|discriminate..].
  pose proof (HX b eq_refl) as ->. split; [reflexivity|]. eexists. split; [reflexivity|]. split; [apply bytes_of_bits_bytes|].
  apply padded.
Qed.
Lemma action_settled {E : Env} a : settled (write_action a) (unwritable a) (whole_bytes (8 * size_of a + odd_bits a)).
Proof. exact (F_settled _ _ _ _ _ (F_action a)). Qed.
Lemma action_emits {E : Env} a : ~ unwritable a -> emits (write_action a) (t_action a).
Proof. exact (emits_X _ _ _ _ (action_settled a) (X_action a)). Qed.
Lemma command_emits {E : Env} c :
  ~ (Exists too_long (flat_map lengths_of c) \/ Exists too_large (flat_map varints_of c) \/
     Exists (fun k => too_long (N.of_nat k mod 2 ^ 32)) (flat_map payloads_of c)) -> emits (write_command c) (t_command c).
Proof. exact (emits_X _ _ _ _ (command_settled c) (X_command c)). Qed.
Lemma frame_emits {E : Env} v :
  ~ (Exists too_long (frame_lengths v) \/ Exists too_large (frame_varints v) \/
     Exists (fun k => too_long (N.of_nat k mod 2 ^ 32)) (frame_payloads v)) -> emits (write_fframe v) (t_frame v).
Proof. exact (emits_X _ _ _ _ (frame_settled v) (X_frame v)). Qed.
Lemma bframe_emits {E : Env} v : emits (write_bframe v) (t_bframe v).
Proof. exact (emits_X _ _ _ _ (bframe_settled v) (X_bframe v) (fun H => H)). Qed.

Ltac em S XL := intros; eapply emits_X; [apply S|apply XL|tauto].
Lemma types_emit {E : Env} :
  (forall v, ~ too_long v -> emits (write_length v) (octets (enc_length v))) /\
  (forall v, ~ too_large (vi_value v) -> emits (write_varint v) (octets (enc_varint v))) /\
  (forall v, ~ too_long (fo_offset v) -> emits (write_file_offset v) (t_offset v)) /\
  (forall v, emits (write_channel_header v) (t_channel_header v)) /\
  (forall v, emits (write_channel v) (t_channel v)) /\
  (forall v, emits (write_channel_status v) (t_channel_status v)) /\
  (forall v, emits (write_sub_band v) (t_sub_band v)) /\
  (forall v, ~ too_large (vi_value (sp_period v)) -> emits (write_sub_profile v) (t_sub_profile v)) /\
  (forall v, emits (write_access_class v) (t_access_class v)) /\
  (forall v, ~ Exists (fun s => too_large (vi_value (sp_period s))) (ap_sub_profiles v) ->
    emits (write_access_profile v) (t_access_profile v)) /\
  (forall v, ~ Exists too_large (address_varints v) -> emits (write_address v) (t_address v)) /\
  (forall v, emits (write_nls_state v) (octets (enc_nls_state v))) /\
  (forall v, ~ Exists too_large (address_varints (ad_address v)) -> emits (write_addressee v) (t_addressee v)) /\
  (forall v, emits (write_qos v) (t_qos v)) /\
  (forall v, ~ (too_large (vi_value (ds_timeout v)) \/ Exists too_large (address_varints (ad_address (ds_addressee v)))) ->
    emits (write_dash7_status v) (t_dash7_status v)) /\
  (forall v, ~ Exists too_large (address_varints (ad_address (tx_addressee v))) ->
    emits (write_dash7_tx_status v) (t_tx_status v)) /\
  (forall v, emits (write_file_header v) (t_file_header v)).
Proof.
  destruct (@types_settled E) as (S1 & S2 & S3 & S4 & S5 & S6 & S7 & S8 & S9 & S10 & S11 & S12 & S13 & S14 & S15 & S16 & _ & S18).
  split; [em S1 X_length|]. split; [em S2 X_varint|]. split; [em S3 X_offset|]. split; [em S4 X_channel_header|].
  split; [em S5 X_channel|]. split; [em S6 X_channel_status|]. split; [em S7 X_sub_band|]. split; [em S8 X_sub_profile|].
  split; [em S9 X_access_class|]. split; [em S10 X_access_profile|]. split; [em S11 X_address|]. split; [em S12 X_nls_state|].
  split; [em S13 X_addressee|]. split; [em S14 X_qos|]. split; [em S15 X_dash7_status|]. split; [em S16 X_tx_status|].
  em S18 X_file_header.
Qed.
Lemma operations_emit {E : Env} :
  (forall v, ~ Exists too_long (query_lengths v) -> emits (write_query v) (t_query v)) /\
  (forall v, ~ Exists too_large (dash7_config_varints v) -> emits (write_dash7_config v) (t_dash7_config v)) /\
  (forall v, emits (write_lorawan_config v) (t_lorawan v)) /\
  (forall v, ~ match v with IcDash7 c => Exists too_large (dash7_config_varints c) | _ => False end ->
    emits (write_interface_config v) (t_interface_config v)) /\
  (forall v, ~ match v with IiDash7 a => Exists too_large (address_varints (ad_address a)) | _ => False end ->
    emits (write_indirect_interface v) (t_indirect_interface v)) /\
  (forall v, ~ (Exists too_large (itf_status_varints (iso_status v)) \/
                too_long (N.of_nat (itf_status_size (iso_status v)) mod 2 ^ 32)) ->
    emits (write_itf_status_op v) (t_itf_status_op v)) /\
  (forall v, ~ too_long (N.of_nat (final_size (ifo_status v)) mod 2 ^ 32) -> emits (write_itf_final_op v) (t_itf_final_op v)).
Proof.
  destruct (@operations_settled E) as (S1 & S2 & S3 & _ & _ & S4 & S5 & S6 & S7).
  split; [em S1 X_query|]. split; [em S2 X_dash7_config|]. split; [em S3 X_lorawan|]. split; [em S4 X_interface_config|].
  split; [em S5 X_indirect_interface|]. split; [em S6 X_itf_status_op|]. em S7 X_itf_final_op.
Qed.
Lemma files_emit {E : Env} f : ~ Exists too_large (file_varints f) -> emits (write_file f) (t_file f).
Proof. destruct (@files_settled E) as (S1 & _). intros H. exact (emits_X _ _ _ _ (S1 f) (X_file f) H). Qed.

(** The documented bytes of well-formed values are those of the table. *)
Lemma wf_writable {E : Env} a : wf_action a -> ~ unwritable a.
Proof.
  intros H U. destruct (action_settled a) as (K & _). specialize (K U). rewrite (W_to_bytes _ _ (W_action a H)) in K. discriminate.
Qed.
Lemma table_layout {E : Env} a : wf_action a -> bits_of_fields (t_action a) = bits_of_bytes (enc_action a).
Proof.
  intros H. destruct (W_action a H) as (K & _). destruct (action_emits a (wf_writable a H)) as (G & _). congruence.
Qed.
