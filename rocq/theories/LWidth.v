(** How long the printed forms of parsed values are, compared with the bytes they take. *)
From Coq Require Import List NArith ZArith Bool Lia String Ascii.
From Verif Require Import Base Deku Utils Types Physical Link Network Session Data Query
  Interface File Operation Action Command Frames Display Cli Debug WellFormed SpecLayout SpecAction SpecFail SpecGrow LLayout LDigits.
Import ListNotations.
Open Scope string_scope.
Open Scope nat_scope.

Section Width.
Context (plain : N -> bool).
Definition W (v : dv) : nat := String.length (show_dv plain v).

(** Texts with [", "] between them. *)
Fixpoint sep (l : list nat) : nat := match l with [] => 0 | [x] => x | x :: tl => x + 2 + sep tl end.
Lemma concat_length l : String.length (concat ", " l) = sep (map String.length l).
Proof.
  induction l as [|a [|b l] IH]; [reflexivity|reflexivity|].
  change (concat ", " (a :: b :: l)) with (a ++ ", " ++ concat ", " (b :: l)). rewrite !str_app, IH. cbn [map sep String.length]. lia.
Qed.
Lemma sep_bound k l : Forall (fun x => x <= k) l -> sep l <= (k + 2) * List.length l.
Proof.
  induction 1 as [|x l Hx Hl IH]; [cbn; lia|]. destruct l as [|y l]; [cbn [sep List.length]; lia|].
  change (sep (x :: y :: l)) with (x + 2 + sep (y :: l)). cbn [List.length] in *. lia.
Qed.
Lemma sep_sum l : sep l <= list_sum (map (fun x => x + 2) l).
Proof.
  induction l as [|x l IH]; [cbn; lia|]. destruct l as [|y l]; [cbn; lia|].
  change (sep (x :: y :: l)) with (x + 2 + sep (y :: l)). cbn [map list_sum fold_right] in *. lia.
Qed.
Lemma W_tuple n l : W (DTuple n l) = String.length n + 2 + sep (map W l).
Proof. unfold W at 1. cbn [show_dv]. rewrite !str_app, concat_length, map_map. cbn [String.length]. unfold W. lia. Qed.
Lemma W_list l : W (DList l) = 2 + sep (map W l).
Proof. unfold W at 1. cbn [show_dv]. rewrite !str_app, concat_length, map_map. cbn [String.length]. unfold W. lia. Qed.
Lemma W_struct n l : W (DStruct n l) = String.length n + 5 + sep (map (fun p => String.length (fst p) + 2 + W (snd p)) l).
Proof.
  unfold W at 1. cbn [show_dv]. rewrite !str_app, concat_length, map_map. cbn [String.length].
  assert (Q : map (fun x : string * dv => String.length (let (f, y) := x in f ++ ": " ++ show_dv plain y)) l =
    map (fun p => String.length (fst p) + 2 + W (snd p)) l).
  { apply map_ext. intros [f y]. rewrite !str_app. cbn [String.length fst snd]. unfold W. lia. }
  rewrite Q. lia.
Qed.
Lemma W_unit s : W (DUnit s) = String.length s. Proof. reflexivity. Qed.
Lemma W_n n : W (d_n n) = String.length (show_N n).
Proof. unfold W, d_n. cbn [show_dv]. rewrite show_Z_N. reflexivity. Qed.

(** ** Leaves *)
Lemma w_u8 n : u8 n -> W (d_n n) <= 3.
Proof. intros H. rewrite W_n. apply (show_N_length n 2). change (10 ^ N.of_nat 3)%N with 1000%N. unfold u8 in H. lia. Qed.
Lemma w_64 n : (n < 64)%N -> W (d_n n) <= 2.
Proof. intros H. rewrite W_n. apply (show_N_length n 1). change (10 ^ N.of_nat 2)%N with 100%N. lia. Qed.
Lemma w_16 n : (n < 16)%N -> W (d_n n) <= 2.
Proof. intros H. apply w_64. lia. Qed.
Lemma w_8 n : (n < 8)%N -> W (d_n n) <= 2.
Proof. intros H. apply w_64. lia. Qed.
Lemma w_2k n : (n < 2 ^ 11)%N -> W (d_n n) <= 4.
Proof. intros H. rewrite W_n. apply (show_N_length n 3). change (10 ^ N.of_nat 4)%N with 10000%N. change (2 ^ 11)%N with 2048%N in H. lia. Qed.
Lemma w_u16 n : u16 n -> W (d_n n) <= 5.
Proof. intros H. rewrite W_n. apply (show_N_length n 4). change (10 ^ N.of_nat 5)%N with 100000%N. unfold u16 in H. change (2 ^ 16)%N with 65536%N in H. lia. Qed.
Lemma w_u32 n : u32 n -> W (d_n n) <= 10.
Proof. intros H. rewrite W_n. apply (show_N_length n 9). eapply N.lt_le_trans; [exact H|]. vm_compute. discriminate. Qed.
Lemma w_u64 n : u64 n -> W (d_n n) <= 20.
Proof. intros H. rewrite W_n. apply (show_N_length n 19). eapply N.lt_le_trans; [exact H|]. vm_compute. discriminate. Qed.
Lemma w_u128 n : u128 n -> W (d_n n) <= 39.
Proof. intros H. rewrite W_n. apply (show_N_length n 38). eapply N.lt_le_trans; [exact H|]. vm_compute. discriminate. Qed.
Lemma w_i8 z : i8 z -> W (DNum z) <= 4. Proof. apply show_i8. Qed.
Lemma w_bool b : W (d_bool b) <= 5. Proof. destruct b; cbn; lia. Qed.
Lemma w_bytes l : bytes l -> W (d_bytes l) <= 2 + 5 * List.length l.
Proof.
  intros H. unfold d_bytes. rewrite W_list, map_map. pose proof (sep_bound 3 (map (fun x => W (d_n x)) l)) as P. rewrite map_length in P.
  assert (Forall (fun x => x <= 3) (map (fun x => W (d_n x)) l)); [|specialize (P H0); lia].
  apply Forall_map. eapply Forall_impl; [|exact H]. intros x Hx. apply w_u8. exact Hx.
Qed.
Lemma w_text l : bytes l -> W (DText l) <= 2 + 6 * List.length l.
Proof. intros H. unfold W. cbn [show_dv]. rewrite !str_app. apply (escape_str_length plain) in H. cbn [String.length quote]. lia. Qed.

Create HintDb wd.
Hint Resolve w_u8 w_64 w_16 w_8 w_2k w_u16 w_u32 w_u64 w_u128 w_i8 w_bool w_bytes w_text : wd.
Ltac known x :=
  let k := fresh "k" in let H := fresh "H" in
  evar (k : nat); assert (H : W x <= k) by (subst k; eauto 2 with wd nocore); subst k; revert H; generalize (W x); intros.
Ltac lens := cbn [map sep String.length fst snd append List.length].
Ltac wid := rewrite ?W_struct, ?W_tuple; lens; rewrite ?W_struct, ?W_tuple; lens; rewrite ?W_struct, ?W_tuple, ?W_unit; lens;
  repeat match goal with |- context [W ?x] => known x end; try lia.
Ltac enum := intros []; cbn; lia.
Ltac conj := repeat match goal with H : _ /\ _ |- _ => destruct H end.

(** ** types.rs, physical, link *)
Lemma w_varint v : wf_varint v -> W (d_varint v) <= 37.
Proof.
  intros (_ & e & m & He & Hm & Hv). unfold d_varint.
  assert (W (d_n (vi_value v)) <= 6).
  { rewrite W_n. apply (show_N_length _ 5). rewrite Hv. change (10 ^ N.of_nat 6)%N with 1000000%N.
    assert (4 ^ e <= 4 ^ 7)%N by (apply N.pow_le_mono_r; lia). change (4 ^ 7)%N with 16384%N in H. nia. }
  wid.
Qed.
Lemma w_length n : wf_length n -> W (d_length n) <= 18.
Proof.
  intros H. unfold d_length. assert (W (d_n n) <= 10) by (apply w_u32; eapply N.lt_trans; [exact H|]; vm_compute; reflexivity). wid.
Qed.
Lemma w_opcode n : (n < 64)%N -> W (d_opcode n) <= 10.
Proof. intros H. unfold d_opcode. wid. Qed.
Hint Resolve w_varint w_length w_opcode : wd.
Lemma w_file_offset v : wf_file_offset v -> W (d_file_offset v) <= 55.
Proof. intros H. unfold wf_file_offset, d_file_offset in *. conj. wid. Qed.
Lemma w_bandwidth v : W (d_bandwidth v) <= 6. Proof. destruct v; cbn; lia. Qed.
Lemma w_channel_band v : W (d_channel_band v) <= 7. Proof. destruct v; cbn; lia. Qed.
Lemma w_channel_class v : W (d_channel_class v) <= 10. Proof. destruct v; cbn; lia. Qed.
Lemma w_channel_coding v : W (d_channel_coding v) <= 6. Proof. destruct v; cbn; lia. Qed.
Hint Resolve w_file_offset w_bandwidth w_channel_band w_channel_class w_channel_coding : wd.
Lemma w_channel_header v : W (d_channel_header v) <= 90.
Proof. unfold d_channel_header. wid. Qed.
Hint Resolve w_channel_header : wd.
Lemma w_channel v : wf_channel v -> W (d_channel v) <= 124.
Proof. intros H. unfold wf_channel, d_channel in *. wid. Qed.
Lemma w_channel_status v : wf_channel_status v -> W (d_channel_status v) <= 129.
Proof. intros H. unfold wf_channel_status, d_channel_status, d_channel_status_identifier in *. conj. wid. Qed.
Lemma w_sub_band v : wf_sub_band v -> W (d_sub_band v) <= 118.
Proof. intros H. unfold wf_sub_band, d_sub_band in *. conj. wid. Qed.
Lemma w_sub_profile v : wf_sub_profile v -> W (d_sub_profile v) <= 97.
Proof. intros H. unfold wf_sub_profile, d_sub_profile in *. conj. wid. Qed.
Lemma w_access_class v : wf_access_class v -> W (d_access_class v) <= 39.
Proof. intros H. unfold wf_access_class, d_access_class in *. conj. wid. Qed.
Hint Resolve w_channel w_access_class : wd.
Lemma w_items {A} (d : A -> dv) (P : A -> Prop) k l : (forall v, P v -> W (d v) <= k) -> Forall P l ->
  W (DList (map d l)) <= 2 + (k + 2) * List.length l.
Proof.
  intros H F. rewrite W_list, map_map. pose proof (sep_bound k (map (fun x => W (d x)) l)) as B. rewrite map_length in B.
  assert (Forall (fun x => x <= k) (map (fun x => W (d x)) l)); [|specialize (B H0); lia].
  apply Forall_map. eapply Forall_impl; [|exact F]. exact H.
Qed.
Lemma w_access_profile v : wf_access_profile v -> W (d_access_profile v) <= 1513.
Proof.
  intros (L1 & F1 & L2 & F2). unfold d_access_profile.
  pose proof (w_items _ _ _ _ w_sub_profile F1) as B1. pose proof (w_items _ _ _ _ w_sub_band F2) as B2. rewrite L1 in B1. rewrite L2 in B2.
  wid.
Qed.

(** ** network *)
Lemma w_group v : W (d_group_condition v) <= 11. Proof. destruct v; cbn; lia. Qed.
Lemma w_nls_method v : W (d_nls_method v) <= 12. Proof. destruct v; cbn; lia. Qed.
Lemma w_address_type v : W (d_address_type v) <= 4. Proof. destruct v; cbn; lia. Qed.
Hint Resolve w_group w_nls_method w_address_type : wd.
(** An address takes 4 characters without any byte, and then no more than 39 for each. *)
Lemma w_address a : wf_address a -> W (d_address a) <= 4 + 39 * address_size a.
Proof. destruct a; intros H; cbn [wf_address address_size d_address] in *; wid. Qed.
(** Method and state of network security. *)
Lemma w_nls m s : nls_matches m s -> wf_nls_state s -> W (d_nls_method m) + W (d_nls_state s) <= 8 + 9 * state_size s.
Proof.
  destruct m, s; intros M H; cbn [nls_matches] in M; try contradiction; cbn [state_size wf_nls_state d_nls_state] in *; try (cbn; lia);
    destruct H as (H1 & H2); rewrite H2; pose proof (w_bytes _ H1) as B; rewrite H2 in B; unfold d_nls_method; wid.
Qed.
Lemma w_addressee {E : Env} v : wf_addressee v -> W (d_addressee v) + 15 <= 99 * addressee_size v.
Proof.
  intros (_ & _ & N1 & A & B & C). unfold d_addressee, addressee_size.
  pose proof (w_nls _ _ N1 C) as N2. pose proof (w_address _ B) as A2. destruct is_wizzilab; cbn [app]; rewrite W_struct; lens;
    repeat (match goal with
    | |- context [W (d_nls_method ?x)] => revert N2; generalize (W (d_nls_method x))
    | |- context [W (d_nls_state ?x)] => revert N2; generalize (W (d_nls_state x))
    | |- context [W (d_address ?x)] => revert A2; generalize (W (d_address x))
    | |- context [W ?x] => known x end; intros); lia.
Qed.

(** ** session *)
Lemma w_interface_type v : W (d_interface_type v) <= 11. Proof. destruct v; cbn; lia. Qed.
Lemma w_response_mode v : W (d_response_mode v) <= 9. Proof. destruct v; cbn; lia. Qed.
Lemma w_retry_mode v : W (d_retry_mode v) <= 13. Proof. destruct v; cbn; lia. Qed.
Lemma w_final_code v : W (d_final_code v) <= 22. Proof. destruct v; cbn; lia. Qed.
Hint Resolve w_interface_type w_response_mode w_retry_mode w_final_code : wd.
Lemma w_qos v : W (d_qos v) <= 96. Proof. unfold d_qos. wid. Qed.
Hint Resolve w_qos : wd.
Ltac tight := repeat match goal with
  | H : context [W ?x] |- context [W ?x] => revert H; generalize (W x)
  | |- context [W ?x] => known x end; intros; lia.
Ltac open := rewrite ?W_struct, ?W_tuple; lens; rewrite ?W_struct, ?W_tuple; lens; rewrite ?W_struct, ?W_tuple; lens; rewrite ?W_struct, ?W_tuple, ?W_unit; lens.
Lemma w_dash7_status {E : Env} v : wf_dash7_status v -> W (d_dash7_status v) + 500 <= 99 * (10 + addressee_size (ds_addressee v)).
Proof.
  intros H. unfold wf_dash7_status, d_dash7_status in *. conj. pose proof (w_addressee (ds_addressee v)) as A. specialize (A ltac:(assumption)). open. tight.
Qed.
Lemma w_interface_status {E : Env} s : match s with IsHost | IsSerial => True | IsDash7 v => wf_dash7_status v | IsOther l => bytes l end ->
  W (d_interface_status s) <= 9 + 99 * itf_status_size s.
Proof.
  destruct s as [| |v|l]; intros H; cbn [d_interface_status itf_status_size]; try (cbn; lia).
  - pose proof (w_dash7_status v H). open. tight.
  - open. wid.
Qed.
Lemma w_final_status s : match s with FinDash7 _ => True | FinOther l => bytes l end -> W (d_final_status s) <= 9 + 99 * final_size s.
Proof. destruct s; intros H; cbn [d_final_status final_size]; wid. Qed.
Lemma w_dash7_tx {E : Env} v : wf_tx_status v -> W (d_dash7_tx_status v) + 500 <= 99 * (12 + addressee_size (tx_addressee v)).
Proof.
  intros H. unfold wf_tx_status, d_dash7_tx_status in *. conj. pose proof (w_addressee (tx_addressee v)) as A. specialize (A ltac:(assumption)). open. tight.
Qed.
Lemma w_tx_status {E : Env} s : match s with TxDash7 v => wf_tx_status v | TxOther l => bytes l end -> W (d_itf_tx_status s) <= 9 + 99 * tx_size s.
Proof.
  destruct s as [v|l]; intros H; cbn [d_itf_tx_status tx_size].
  - pose proof (w_dash7_tx v H). open. tight.
  - open. wid.
Qed.

(** ** data, query *)
Lemma w_condition v : W (d_action_condition v) <= 10. Proof. destruct v; cbn; lia. Qed.
Lemma w_storage v : W (d_storage_class v) <= 10. Proof. destruct v; cbn; lia. Qed.
Hint Resolve w_condition w_storage : wd.
Lemma w_user v : W (d_user_permissions v) <= 66. Proof. unfold d_user_permissions. wid. Qed.
Hint Resolve w_user : wd.
Lemma w_permissions v : W (d_file_permissions v) <= 250. Proof. unfold d_file_permissions. wid. Qed.
Lemma w_properties v : W (d_fs_properties v) <= 100. Proof. unfold d_fs_properties. wid. Qed.
Hint Resolve w_permissions w_properties : wd.
Lemma w_file_header v : wf_file_header v -> W (d_file_header v) <= 520.
Proof. intros H. unfold wf_file_header, d_file_header in *. conj. wid. Qed.
Hint Resolve w_file_header : wd.
Lemma w_arith_cmp v : W (d_arith_cmp v) <= 18. Proof. destruct v; cbn; lia. Qed.
Lemma w_range_cmp v : W (d_range_cmp v) <= 10. Proof. destruct v; cbn; lia. Qed.
Hint Resolve w_arith_cmp w_range_cmp : wd.
Lemma w_arith v : W (d_arith_params v) <= 78. Proof. unfold d_arith_params. wid. Qed.
Lemma w_range v : W (d_range_params v) <= 65. Proof. unfold d_range_params. wid. Qed.
Hint Resolve w_arith w_range : wd.
Lemma size_1 n : 1 <= length_size n. Proof. unfold length_size. repeat destruct (_ <? _)%N; lia. Qed.
Lemma w_query q : wf_query q -> W (d_query q) + 60 <= 99 * query_size q.
Proof.
  intros H. assert (L := size_1).
  destruct q as [q|q|q|q|q|q]; cbn [wf_query d_query query_size] in *; unfold wf_mask, d_non_void, d_cmp_zero, d_cmp_value, d_cmp_other, d_bitmap_range, d_string_search, query_size, offset_size in *; conj.
  - pose proof (L (nv_length q)). pose proof (L (fo_offset (nv_file q))). open. wid.
  - pose proof (L (cz_length q)). pose proof (L (fo_offset (cz_file q))). open. wid.
  - pose proof (L (cv_length q)). pose proof (L (fo_offset (cv_file q))). open. wid.
  - pose proof (L (co_length q)). pose proof (L (fo_offset (co_file1 q))). pose proof (L (fo_offset (co_file2 q))). open. wid.
  - pose proof (L (br_length q)). pose proof (L (br_start q)). pose proof (L (br_stop q)). pose proof (L (fo_offset (br_file q))). open. wid.
  - pose proof (L (ss_length q)). pose proof (L (fo_offset (ss_file q))). open. wid.
Qed.

(** ** interface *)
Lemma w_lorawan v : wf_lorawan_config v -> W (d_lorawan v) <= 120.
Proof. intros H. unfold wf_lorawan_config, d_lorawan in *. conj. wid. Qed.
Hint Resolve w_lorawan : wd.
Lemma w_dash7_config {E : Env} v : wf_dash7_config v ->
  W (d_dash7_config v) <= 60 + 99 * (2 + (match e_feat with Subiot => 0 | _ => 1 end) + addressee_size (dc_addressee v)).
Proof.
  intros H. unfold wf_dash7_config, d_dash7_config, is_subiot in *. conj. pose proof (w_addressee (dc_addressee v)) as A. specialize (A ltac:(assumption)).
  destruct e_feat; cbn [app]; open; tight.
Qed.
Lemma w_interface_config {E : Env} c : wf_interface_config c -> W (d_interface_config c) <= 70 + 99 * (interface_config_size c - 1).
Proof.
  destruct c as [| |c|c|c|i]; intros H; cbn [wf_interface_config d_interface_config interface_config_size] in *; try (cbn; lia).
  - unfold wf_abp, d_abp, wf_fixed in *. conj. open. wid.
  - unfold wf_otaa, d_otaa, wf_fixed in *. conj. open. wid.
  - pose proof (w_dash7_config c H). open. tight.
  - conj. open. wid.
Qed.

(** ** file *)
Lemma w_method v : W (d_eng_method v) <= 11. Proof. destruct v; cbn; lia. Qed.
Hint Resolve w_method is_utf8_bytes : wd.
Lemma w_file b f : wf_file b f -> W (d_file f) <= 9 + 99 * file_size f.
Proof.
  destruct f as [i p|a|v|v|v|a|v|v|v|k|l]; intros H; cbn [wf_file d_file file_size] in *; conj.
  - pose proof (w_access_profile p) as P. specialize (P ltac:(assumption)). unfold wf_access_profile in *. conj. open. unfold two_digits. rewrite str_app.
    pose proof (show_N_length (i / 10) 0). pose proof (show_N_length (i mod 10) 0). change (10 ^ N.of_nat 1)%N with 10%N in *.
    assert (i / 10 < 10)%N by (apply N.div_lt_upper_bound; lia). pose proof (N.mod_lt i 10). lens. tight.
  - destruct a; try contradiction. cbn [d_address address_size]. open. wid.
  - unfold wf_factory_settings, d_factory in *. conj. open. wid.
  - unfold wf_firmware_version, d_firmware in *. conj. pose proof (w_text (fw_app v)). pose proof (w_text (fw_sha v)).
    assert (W (DText (fw_app v)) <= 38 /\ W (DText (fw_sha v)) <= 44) by (split; [replace 38 with (2 + 6 * List.length (fw_app v)) by lia|replace 44 with (2 + 6 * List.length (fw_sha v)) by lia]; auto using is_utf8_bytes). conj. open. wid.
  - unfold wf_engineering_mode, d_engineering_mode in *. conj. open. wid.
  - destruct a; try contradiction. cbn [d_address address_size]. open. wid.
  - unfold wf_phy_status, d_phy_status in *. conj.
    assert (B : W (DList (map d_channel_status (ps_channels v))) <= 2 + (129 + 2) * List.length (ps_channels v))
      by (eapply w_items; [exact w_channel_status|assumption]). open. tight.
  - unfold wf_dll_config, d_dll_config in *. conj. open. wid.
  - unfold wf_dll_status, d_dll_status in *. conj. open. wid.
  - open. wid.
  - unfold wf_payload in *. conj. open. wid.
Qed.

(** ** operations and actions *)
Lemma w_header v : W (d_action_header v) <= 46. Proof. unfold d_action_header. wid. Qed.
Hint Resolve w_header : wd.
Definition bare (a : action) : bool :=
  match a with AIndirectForward v => match if_config v with None => true | Some _ => false end | _ => false end.
Definition tag (a : action) : bool := match a with ARequestTag _ | AResponseTag _ => true | _ => false end.
Lemma w_level v : W (d_permission_level v) <= 4. Proof. destruct v; cbn; lia. Qed.
Lemma w_status_type v : W (d_status_type v) <= 14. Proof. destruct v; cbn; lia. Qed.
Lemma w_chunk_step v : W (d_chunk_step v) <= 8. Proof. destruct v; cbn; lia. Qed.
Lemma w_logic_op v : W (d_logic_op v) <= 4. Proof. destruct v; cbn; lia. Qed.
Hint Resolve w_level w_status_type w_chunk_step w_logic_op : wd.
Lemma w_file_data (c : file_data -> dv) v b n : (forall x, c x = DTuple n [d_file_data x]) -> String.length n <= 18 ->
  (fd_opcode v < 64)%N -> wf_file_offset (fd_offset v) -> wf_file b (fd_data v) ->
  W (c v) <= 99 * (1 + (offset_size (fd_offset v) + prefixed_size (file_size (fd_data v))) - if big_file (fd_data v) then 1 else 0).
Proof.
  intros C L O F D. rewrite C. unfold d_file_data, offset_size, prefixed_size. pose proof (size_1 (fo_offset (fd_offset v))).
  pose proof (size_1 (N.of_nat (file_size (fd_data v)) mod 2 ^ 32)). pose proof (w_file _ _ D). open. destruct (big_file _); tight.
Qed.
Lemma w_operand_status {E : Env} v : (so_opcode v < 64)%N ->
  match so_status v with
  | StatusAction s => u8 (as_action_id s) /\ u8 (as_status s)
  | StatusInterface s =>
      (iso_type s = ItUnknown -> exists l, iso_status s = IsOther l) /\
      match iso_status s with IsHost | IsSerial => True | IsDash7 v => wf_dash7_status v | IsOther l => bytes l end
  | StatusInterfaceFinal s => u8 (ifo_id s) /\ match ifo_status s with FinDash7 _ => True | FinOther l => bytes l end
  end -> W (d_action (AStatus v)) <= 99 * size_of (AStatus v).
Proof.
  intros O H. unfold size_of. cbn [d_action]. unfold d_status_operand. destruct (so_status v) as [s|s|s]; cbn [d_status].
  - unfold d_action_status, d_status_code. conj. open. wid.
  - destruct H as (H1 & H2). pose proof (w_interface_status _ H2) as P. unfold d_itf_status_op, prefixed_size.
    pose proof (size_1 (N.of_nat (itf_status_size (iso_status s)) mod 2 ^ 32)). destruct (iso_type s) eqn:T; cbn [itf_type_size]; open; tight.
  - destruct H as (H1 & H2). pose proof (w_final_status _ H2) as P. unfold d_itf_final_op, prefixed_size.
    pose proof (size_1 (N.of_nat (final_size (ifo_status s)) mod 2 ^ 32)). open. tight.
Qed.
Lemma w_action {E : Env} o a : parsed_action (if is_tx_status a then a else with_opcode o a) -> (stored_opcode a < 64)%N ->
  W (d_action a) + (if tag a then 28 else 0) <= 99 * (size_of a - if swells a then 1 else 0) + if bare a then 47 else 0.
Proof.
  intros H S. destruct H as [H|[(l & H & Hl)|(F & v & H & Hv)]].
  - destruct a; cbn [is_tx_status with_opcode wf_action stored_opcode d_action swells bare tag] in *; try contradiction; unfold size_of;
      unfold wf_file_id_op, wf_action_query, wf_file_properties in H; cbn [fi_opcode fi_file_id aq_query fpr_file_id fpr_file_header rf_offset rf_length rf_opcode
        prq_permission cf_src cf_dst rt_id rq_id fw_config if_config if_overloaded fw_opcode] in H; conj.
    all: try (unfold d_nop, d_extension, d_chunk, d_logic, d_file_id_op, d_file_properties, d_copy_file, d_response_tag, d_request_tag; open; wid; fail).
    all: try (unfold d_action_query; match goal with H : wf_query ?q |- _ => pose proof (w_query q H) end; open; tight).
    all: try (destruct H as (_ & H1 & H2); eapply Nat.le_trans; [|apply Nat.le_add_r]; rewrite Nat.add_0_r;
      match goal with |- W (DTuple ?n [d_file_data _]) <= _ => eapply (w_file_data (fun x => DTuple n [d_file_data x])); [reflexivity|cbn; lia|exact S|exact H1|exact H2] end).
    + unfold d_read_file_data, offset_size. pose proof (size_1 (fo_offset (rf_offset v))). pose proof (size_1 (rf_length v)). open. wid.
    + unfold d_permission_request. destruct (prq_permission v). unfold wf_fixed, d_permission in *. conj. open. wid.
    + destruct H as (_ & H). eapply Nat.le_trans; [|apply Nat.le_add_r]. rewrite Nat.add_0_r, Nat.sub_0_r. apply w_operand_status; [exact S|].
      cbn [so_type so_status] in H. destruct (so_status v) as [s|s|s]; destruct (so_type v); try contradiction; try exact H.
      * unfold wf_itf_status_op in H. destruct (iso_type s), (iso_status s); try contradiction; (split; [discriminate|exact H]).
      * destruct H as (_ & H). unfold wf_itf_final_op in H. destruct (ifo_status s); [rewrite H; split; [reflexivity|trivial]|].
        unfold wf_payload in H. split; apply H.
    + unfold wf_forward in H. cbn [fw_config] in H. conj. unfold d_forward. pose proof (w_interface_config _ H0) as P.
      assert (1 <= interface_config_size (fw_config v)) by (destruct (fw_config v); cbn; lia). open. tight.
    + unfold wf_indirect_forward in H. cbn [if_config if_overloaded] in H. conj. unfold d_indirect_forward, d_opt.
      destruct (if_config v) as [c|]; [|open; wid]. destruct (if_overloaded v); [|contradiction].
      destruct c as [| |a|i]; cbn [wf_indirect_interface d_indirect_interface] in *; [open; wid|open; wid| |conj; open; wid].
      pose proof (w_addressee a H0). open. tight.
  - assert (Q : exists k, a = AStatus k /\ so_status k = StatusInterface (mkItfStatusOp ItUnknown (IsOther l))).
    { destruct a; cbn [is_tx_status with_opcode] in H; try discriminate H. eexists. split; [reflexivity|]. unfold unknown_status in H. congruence. }
    destruct Q as (k & -> & Q). cbn [tag bare swells]. rewrite !Nat.add_0_r, Nat.sub_0_r. apply w_operand_status; [exact S|]. rewrite Q. cbn [iso_status iso_type].
    split; [eauto|apply Hl].
  - assert (a = ATxStatus v) as -> by (destruct a; cbn [is_tx_status with_opcode] in H; congruence). clear H.
    destruct Hv as (H1 & H2 & H3). cbn [tag bare swells d_action]. unfold size_of, d_tx_status, prefixed_size.
    pose proof (w_tx_status (txo_status v)) as P. assert (P' : W (d_itf_tx_status (txo_status v)) <= 9 + 99 * tx_size (txo_status v)).
    { apply P. destruct (txo_status v); [apply H3|apply H3]. } clear P.
    pose proof (size_1 (N.of_nat (tx_size (txo_status v)) mod 2 ^ 32)). open. tight.
Qed.
End Width.
