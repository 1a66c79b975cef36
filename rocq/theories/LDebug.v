(** Every derived Debug text determines the value. *)
From Coq Require Import List NArith ZArith Bool Lia String Ascii.
From Verif Require Import Base Deku Utils Types Physical Link Network Session Data Query
  Interface File Operation Action Command Frames Display Cli Debug WellFormed SpecDebug LText.
Import ListNotations.
Open Scope string_scope.

Create HintDb dbg.

Lemma struct_eq n l k : DStruct n l = DStruct n k -> l = k.
Proof. congruence. Qed.
Lemma field_eq (f : string) (x y : dv) l k : (f, x) :: l = (f, y) :: k -> x = y /\ l = k.
Proof. intros H. injection H as -> ->. auto. Qed.
Lemma tuple_eq n l k : DTuple n l = DTuple n k -> l = k.
Proof. congruence. Qed.
Lemma item_eq (x y : dv) l k : x :: l = y :: k -> x = y /\ l = k.
Proof. intros H. injection H as -> ->. auto. Qed.
Lemma tuple1_eq n m x y : DTuple n [x] = DTuple m [y] -> n = m /\ x = y.
Proof. intros H. injection H as -> ->. auto. Qed.
Lemma list_eq l k : DList l = DList k -> l = k.
Proof. congruence. Qed.
Lemma map_eq {A} (f : A -> dv) (P : A -> Prop) :
  (forall a b, P a -> P b -> f a = f b -> a = b) ->
  forall l k, Forall P l -> Forall P k -> map f l = map f k -> l = k.
Proof.
  intros I l. induction l as [|x l IH]; intros [|y k] Hl Hk H; try discriminate; [reflexivity|].
  cbn [map] in H. apply item_eq in H as [H1 H2]. apply Forall_cons_iff in Hl as [Hx Hl].
  apply Forall_cons_iff in Hk as [Hy Hk]. f_equal; auto.
Qed.
Lemma map_inj {A} (f : A -> dv) : (forall a b, f a = f b -> a = b) -> forall l k, map f l = map f k -> l = k.
Proof.
  intros I l k H. apply (map_eq f (fun _ => True)); auto; apply Forall_forall; auto.
Qed.
Lemma d_n_inj a b : d_n a = d_n b -> a = b.
Proof. unfold d_n. intros H. injection H as H. lia. Qed.
Lemma d_num_inj a b : DNum a = DNum b -> a = b.
Proof. congruence. Qed.
Lemma d_text_inj a b : DText a = DText b -> a = b.
Proof. congruence. Qed.
Lemma d_bool_inj a b : d_bool a = d_bool b -> a = b.
Proof. destruct a, b; try reflexivity; discriminate. Qed.
Lemma d_bytes_inj a b : d_bytes a = d_bytes b -> a = b.
Proof. intros H. apply list_eq in H. apply (map_inj d_n d_n_inj). exact H. Qed.
Lemma d_opt_inj {A} (f : A -> dv) : (forall a b, f a = f b -> a = b) -> forall a b, d_opt f a = d_opt f b -> a = b.
Proof.
  intros I [a|] [b|]; cbn [d_opt]; intros H; try discriminate; [|reflexivity].
  apply tuple1_eq in H as [_ H]. f_equal. auto.
Qed.
#[export] Hint Resolve d_n_inj d_num_inj d_text_inj d_bool_inj d_bytes_inj : dbg.

Ltac enum := let a := fresh in let b := fresh in
  intros a b; destruct a, b; try reflexivity; let H := fresh in intros H; discriminate H.
Ltac fields H :=
  apply struct_eq in H;
  repeat (let F := fresh "F" in apply field_eq in H as [F H]).
(** A struct: field by field. *)
Ltac struct X := intros [] [] H; unfold X in H; fields H;
  f_equal; eauto with dbg.

Ltac variant := let a := fresh "a" in let b := fresh "b" in let H := fresh "H" in
  intros a b H; destruct a, b; try discriminate H; try reflexivity;
  apply tuple1_eq in H as [_ H]; f_equal; eauto with dbg.

(** Names are checked by evaluation; parts by the lemmas below. *)
Ltac gd :=
  repeat match goal with
  | |- good (DNum _) => apply g_num
  | |- good (DUnit _) => apply g_unit
  | |- good (DTuple _ _) => apply g_tuple
  | |- good (DStruct _ _) => apply g_struct
  | |- good (DList _) => apply g_list
  | |- Forall _ (_ :: _) => constructor
  | |- Forall _ [] => constructor
  | |- _ :: _ <> [] => discriminate
  | |- _ /\ _ => split
  | |- _ = "" \/ _ => right
  | |- name _ = true => reflexivity
  | |- good (snd _) => cbn [snd]
  end.
Lemma good_map {A} (f : A -> dv) (P : A -> Prop) l : (forall a, P a -> good (f a)) -> Forall P l -> Forall good (map f l).
Proof. intros G H. apply Forall_map. revert H. apply Forall_impl. exact G. Qed.
Lemma good_map_all {A} (f : A -> dv) l : (forall a, good (f a)) -> Forall good (map f l).
Proof. intros G. apply Forall_map, Forall_forall. auto. Qed.
Lemma good_n n : good (d_n n).
Proof. constructor. Qed.
Lemma good_bool b : good (d_bool b).
Proof. destruct b; constructor; reflexivity. Qed.
Lemma good_bytes l : good (d_bytes l).
Proof. constructor. apply good_map_all. apply good_n. Qed.
Lemma good_opt {A} (f : A -> dv) o : (forall a, good (f a)) -> good (d_opt f o).
Proof. intros G. destruct o; cbn [d_opt]; gd. apply G. Qed.
#[export] Hint Resolve good_n good_bool good_bytes good_opt good_map_all g_num g_list : dbg.

Lemma d_varint_inj : forall a b, d_varint a = d_varint b -> a = b.
Proof. struct d_varint. Qed.
Lemma good_varint : forall v, good (d_varint v).
Proof. intros []; unfold d_varint; gd; auto with dbg. Qed.
#[export] Hint Resolve d_varint_inj good_varint : dbg.
Lemma d_length_inj : forall a b, d_length a = d_length b -> a = b.
Proof. intros a b H. apply tuple1_eq in H as [_ H]. eauto with dbg. Qed.
Lemma good_length : forall v, good (d_length v).
Proof. intros v. unfold d_length; gd; auto with dbg. Qed.
#[export] Hint Resolve d_length_inj good_length : dbg.
Lemma d_opcode_inj : forall a b, d_opcode a = d_opcode b -> a = b.
Proof. intros a b H. apply tuple1_eq in H as [_ H]. eauto with dbg. Qed.
Lemma good_opcode : forall v, good (d_opcode v).
Proof. intros v. unfold d_opcode; gd; auto with dbg. Qed.
#[export] Hint Resolve d_opcode_inj good_opcode : dbg.
Lemma d_status_code_inj : forall a b, d_status_code a = d_status_code b -> a = b.
Proof. intros a b H. apply tuple1_eq in H as [_ H]. eauto with dbg. Qed.
Lemma good_status_code : forall v, good (d_status_code v).
Proof. intros v. unfold d_status_code; gd; auto with dbg. Qed.
#[export] Hint Resolve d_status_code_inj good_status_code : dbg.
Lemma d_file_offset_inj : forall a b, d_file_offset a = d_file_offset b -> a = b.
Proof. struct d_file_offset. Qed.
Lemma good_file_offset : forall v, good (d_file_offset v).
Proof. intros []; unfold d_file_offset; gd; auto with dbg. Qed.
#[export] Hint Resolve d_file_offset_inj good_file_offset : dbg.
Lemma d_bandwidth_inj : forall a b, d_bandwidth a = d_bandwidth b -> a = b.
Proof. enum. Qed.
Lemma good_bandwidth : forall v, good (d_bandwidth v).
Proof. intros []; constructor; reflexivity. Qed.
#[export] Hint Resolve d_bandwidth_inj good_bandwidth : dbg.
Lemma d_channel_band_inj : forall a b, d_channel_band a = d_channel_band b -> a = b.
Proof. enum. Qed.
Lemma good_channel_band : forall v, good (d_channel_band v).
Proof. intros []; constructor; reflexivity. Qed.
#[export] Hint Resolve d_channel_band_inj good_channel_band : dbg.
Lemma d_channel_class_inj : forall a b, d_channel_class a = d_channel_class b -> a = b.
Proof. enum. Qed.
Lemma good_channel_class : forall v, good (d_channel_class v).
Proof. intros []; constructor; reflexivity. Qed.
#[export] Hint Resolve d_channel_class_inj good_channel_class : dbg.
Lemma d_channel_coding_inj : forall a b, d_channel_coding a = d_channel_coding b -> a = b.
Proof. enum. Qed.
Lemma good_channel_coding : forall v, good (d_channel_coding v).
Proof. intros []; constructor; reflexivity. Qed.
#[export] Hint Resolve d_channel_coding_inj good_channel_coding : dbg.
Lemma d_channel_header_inj : forall a b, d_channel_header a = d_channel_header b -> a = b.
Proof. struct d_channel_header. Qed.
Lemma good_channel_header : forall v, good (d_channel_header v).
Proof. intros []; unfold d_channel_header; gd; auto with dbg. Qed.
#[export] Hint Resolve d_channel_header_inj good_channel_header : dbg.
Lemma d_channel_inj : forall a b, d_channel a = d_channel b -> a = b.
Proof. struct d_channel. Qed.
Lemma good_channel : forall v, good (d_channel v).
Proof. intros []; unfold d_channel; gd; auto with dbg. Qed.
#[export] Hint Resolve d_channel_inj good_channel : dbg.
Lemma d_channel_status_identifier_inj : forall a b, d_channel_status_identifier a = d_channel_status_identifier b -> a = b.
Proof. struct d_channel_status_identifier. Qed.
Lemma good_channel_status_identifier : forall v, good (d_channel_status_identifier v).
Proof. intros []; unfold d_channel_status_identifier; gd; auto with dbg. Qed.
#[export] Hint Resolve d_channel_status_identifier_inj good_channel_status_identifier : dbg.
Lemma d_sub_band_inj : forall a b, d_sub_band a = d_sub_band b -> a = b.
Proof. struct d_sub_band. Qed.
Lemma good_sub_band : forall v, good (d_sub_band v).
Proof. intros []; unfold d_sub_band; gd; auto with dbg. Qed.
#[export] Hint Resolve d_sub_band_inj good_sub_band : dbg.
Lemma d_channel_status_inj : forall a b, d_channel_status a = d_channel_status b -> a = b.
Proof. struct d_channel_status. Qed.
Lemma good_channel_status : forall v, good (d_channel_status v).
Proof. intros []; unfold d_channel_status; gd; auto with dbg. Qed.
#[export] Hint Resolve d_channel_status_inj good_channel_status : dbg.
Lemma d_sub_profile_inj : forall a b, d_sub_profile a = d_sub_profile b -> a = b.
Proof. struct d_sub_profile. Qed.
Lemma good_sub_profile : forall v, good (d_sub_profile v).
Proof. intros []; unfold d_sub_profile; gd; auto with dbg. Qed.
#[export] Hint Resolve d_sub_profile_inj good_sub_profile : dbg.
Lemma d_access_class_inj : forall a b, d_access_class a = d_access_class b -> a = b.
Proof. struct d_access_class. Qed.
Lemma good_access_class : forall v, good (d_access_class v).
Proof. intros []; unfold d_access_class; gd; auto with dbg. Qed.
#[export] Hint Resolve d_access_class_inj good_access_class : dbg.
Lemma d_sub_profiles_inj : forall l k, DList (map d_sub_profile l) = DList (map d_sub_profile k) -> l = k.
Proof. intros l k H. apply list_eq in H. apply (map_inj d_sub_profile d_sub_profile_inj). exact H. Qed.
Lemma d_sub_bands_inj : forall l k, DList (map d_sub_band l) = DList (map d_sub_band k) -> l = k.
Proof. intros l k H. apply list_eq in H. apply (map_inj d_sub_band d_sub_band_inj). exact H. Qed.
#[export] Hint Resolve d_sub_profiles_inj d_sub_bands_inj : dbg.
Lemma d_access_profile_inj : forall a b, d_access_profile a = d_access_profile b -> a = b.
Proof. struct d_access_profile. Qed.
Lemma good_access_profile : forall v, good (d_access_profile v).
Proof. intros []; unfold d_access_profile; gd; auto with dbg. Qed.
#[export] Hint Resolve d_access_profile_inj good_access_profile : dbg.
Lemma d_group_condition_inj : forall a b, d_group_condition a = d_group_condition b -> a = b.
Proof. enum. Qed.
Lemma good_group_condition : forall v, good (d_group_condition v).
Proof. intros []; constructor; reflexivity. Qed.
#[export] Hint Resolve d_group_condition_inj good_group_condition : dbg.
Lemma d_nls_method_inj : forall a b, d_nls_method a = d_nls_method b -> a = b.
Proof. enum. Qed.
Lemma good_nls_method : forall v, good (d_nls_method v).
Proof. intros []; constructor; reflexivity. Qed.
#[export] Hint Resolve d_nls_method_inj good_nls_method : dbg.
Lemma d_nls_state_inj : forall a b, d_nls_state a = d_nls_state b -> a = b.
Proof. variant. Qed.
Lemma good_nls_state : forall v, good (d_nls_state v).
Proof. intros []; cbn [d_nls_state]; gd; auto with dbg. Qed.
#[export] Hint Resolve d_nls_state_inj good_nls_state : dbg.
Lemma d_address_type_inj : forall a b, d_address_type a = d_address_type b -> a = b.
Proof. enum. Qed.
Lemma good_address_type : forall v, good (d_address_type v).
Proof. intros []; constructor; reflexivity. Qed.
#[export] Hint Resolve d_address_type_inj good_address_type : dbg.
Lemma d_address_inj : forall a b, d_address a = d_address b -> a = b.
Proof. variant. Qed.
Lemma good_address : forall v, good (d_address v).
Proof. intros []; cbn [d_address]; gd; auto with dbg. Qed.
#[export] Hint Resolve d_address_inj good_address : dbg.
Lemma d_addressee_inj {E : Env} : forall a b, real_addressee a -> real_addressee b ->
  d_addressee a = d_addressee b -> a = b.
Proof.
  intros [g t u m x y z] [g' t' u' m' x' y' z'] Ra Rb H. unfold d_addressee, is_wizzilab, real_addressee in *.
  destruct e_feat; cbn [app ad_group ad_type ad_use_vid ad_nls ad_access ad_address ad_state] in *; fields H;
  [destruct Ra as [-> ->], Rb as [-> ->]|destruct Ra as [-> ->], Rb as [-> ->]|]; f_equal; eauto with dbg.
Qed.
Lemma good_addressee {E : Env} : forall v, good (d_addressee v).
Proof. intros v. unfold d_addressee. destruct is_wizzilab; cbn [app]; gd; auto with dbg. Qed.
#[export] Hint Resolve d_addressee_inj good_addressee : dbg.
Lemma d_interface_type_inj : forall a b, d_interface_type a = d_interface_type b -> a = b.
Proof. enum. Qed.
Lemma good_interface_type : forall v, good (d_interface_type v).
Proof. intros []; constructor; reflexivity. Qed.
#[export] Hint Resolve d_interface_type_inj good_interface_type : dbg.
Lemma d_response_mode_inj : forall a b, d_response_mode a = d_response_mode b -> a = b.
Proof. enum. Qed.
Lemma good_response_mode : forall v, good (d_response_mode v).
Proof. intros []; constructor; reflexivity. Qed.
#[export] Hint Resolve d_response_mode_inj good_response_mode : dbg.
Lemma d_retry_mode_inj : forall a b, d_retry_mode a = d_retry_mode b -> a = b.
Proof. enum. Qed.
Lemma good_retry_mode : forall v, good (d_retry_mode v).
Proof. intros []; constructor; reflexivity. Qed.
#[export] Hint Resolve d_retry_mode_inj good_retry_mode : dbg.
Lemma d_qos_inj : forall a b, d_qos a = d_qos b -> a = b.
Proof. struct d_qos. Qed.
Lemma good_qos : forall v, good (d_qos v).
Proof. intros []; unfold d_qos; gd; auto with dbg. Qed.
#[export] Hint Resolve d_qos_inj good_qos : dbg.
Lemma d_dash7_status_inj {E : Env} : forall a b, real_addressee (ds_addressee a) -> real_addressee (ds_addressee b) ->
  d_dash7_status a = d_dash7_status b -> a = b.
Proof.
  intros a b Ra Rb H. unfold d_dash7_status in H. fields H. clear H.
  repeat match goal with
  | F : d_n _ = d_n _ |- _ => apply d_n_inj in F
  | F : d_bool _ = d_bool _ |- _ => apply d_bool_inj in F
  | F : d_channel _ = d_channel _ |- _ => apply d_channel_inj in F
  | F : d_varint _ = d_varint _ |- _ => apply d_varint_inj in F
  | F : d_addressee _ = d_addressee _ |- _ => apply d_addressee_inj in F; [|assumption|assumption]
  end.
  destruct a, b. cbn in *. subst. reflexivity.
Qed.
Lemma good_dash7_status {E : Env} : forall v, good (d_dash7_status v).
Proof. intros v; unfold d_dash7_status; gd; auto with dbg. Qed.
#[export] Hint Resolve d_dash7_status_inj good_dash7_status : dbg.
Lemma d_interface_status_inj {E : Env} : forall a b, real_interface_status a -> real_interface_status b ->
  d_interface_status a = d_interface_status b -> a = b.
Proof.
  intros a b Ra Rb H; destruct a, b; try discriminate H; try reflexivity;
  apply tuple1_eq in H as [_ H]; f_equal; eauto with dbg.
Qed.
Lemma good_interface_status {E : Env} : forall v, good (d_interface_status v).
Proof. intros []; cbn [d_interface_status]; gd; auto with dbg. Qed.
#[export] Hint Resolve d_interface_status_inj good_interface_status : dbg.
Lemma d_final_code_inj : forall a b, d_final_code a = d_final_code b -> a = b.
Proof. enum. Qed.
Lemma good_final_code : forall v, good (d_final_code v).
Proof. intros []; constructor; reflexivity. Qed.
#[export] Hint Resolve d_final_code_inj good_final_code : dbg.
Lemma d_final_status_inj : forall a b, d_final_status a = d_final_status b -> a = b.
Proof. variant. Qed.
Lemma good_final_status : forall v, good (d_final_status v).
Proof. intros []; cbn [d_final_status]; gd; auto with dbg. Qed.
#[export] Hint Resolve d_final_status_inj good_final_status : dbg.
Lemma d_dash7_tx_status_inj {E : Env} : forall a b, real_addressee (tx_addressee a) -> real_addressee (tx_addressee b) ->
  d_dash7_tx_status a = d_dash7_tx_status b -> a = b.
Proof.
  intros [] [] Ra Rb H. unfold d_dash7_tx_status in H. fields H. f_equal; eauto with dbg.
Qed.
Lemma good_dash7_tx_status {E : Env} : forall v, good (d_dash7_tx_status v).
Proof. intros v; unfold d_dash7_tx_status; gd; auto with dbg. Qed.
#[export] Hint Resolve d_dash7_tx_status_inj good_dash7_tx_status : dbg.
Lemma d_itf_tx_status_inj {E : Env} : forall a b, real_tx_status a -> real_tx_status b ->
  d_itf_tx_status a = d_itf_tx_status b -> a = b.
Proof.
  intros a b Ra Rb H; destruct a, b; try discriminate H; try reflexivity;
  apply tuple1_eq in H as [_ H]; f_equal; eauto with dbg.
Qed.
Lemma good_itf_tx_status {E : Env} : forall v, good (d_itf_tx_status v).
Proof. intros []; cbn [d_itf_tx_status]; gd; auto with dbg. Qed.
#[export] Hint Resolve d_itf_tx_status_inj good_itf_tx_status : dbg.
Lemma d_action_condition_inj : forall a b, d_action_condition a = d_action_condition b -> a = b.
Proof. enum. Qed.
Lemma good_action_condition : forall v, good (d_action_condition v).
Proof. intros []; constructor; reflexivity. Qed.
#[export] Hint Resolve d_action_condition_inj good_action_condition : dbg.
Lemma d_storage_class_inj : forall a b, d_storage_class a = d_storage_class b -> a = b.
Proof. enum. Qed.
Lemma good_storage_class : forall v, good (d_storage_class v).
Proof. intros []; constructor; reflexivity. Qed.
#[export] Hint Resolve d_storage_class_inj good_storage_class : dbg.
Lemma d_user_permissions_inj : forall a b, d_user_permissions a = d_user_permissions b -> a = b.
Proof. struct d_user_permissions. Qed.
Lemma good_user_permissions : forall v, good (d_user_permissions v).
Proof. intros []; unfold d_user_permissions; gd; auto with dbg. Qed.
#[export] Hint Resolve d_user_permissions_inj good_user_permissions : dbg.
Lemma d_file_permissions_inj : forall a b, d_file_permissions a = d_file_permissions b -> a = b.
Proof. struct d_file_permissions. Qed.
Lemma good_file_permissions : forall v, good (d_file_permissions v).
Proof. intros []; unfold d_file_permissions; gd; auto with dbg. Qed.
#[export] Hint Resolve d_file_permissions_inj good_file_permissions : dbg.
Lemma d_fs_properties_inj : forall a b, d_fs_properties a = d_fs_properties b -> a = b.
Proof. struct d_fs_properties. Qed.
Lemma good_fs_properties : forall v, good (d_fs_properties v).
Proof. intros []; unfold d_fs_properties; gd; auto with dbg. Qed.
#[export] Hint Resolve d_fs_properties_inj good_fs_properties : dbg.
Lemma d_file_header_inj : forall a b, d_file_header a = d_file_header b -> a = b.
Proof. struct d_file_header. Qed.
Lemma good_file_header : forall v, good (d_file_header v).
Proof. intros []; unfold d_file_header; gd; auto with dbg. Qed.
#[export] Hint Resolve d_file_header_inj good_file_header : dbg.
Lemma d_arith_cmp_inj : forall a b, d_arith_cmp a = d_arith_cmp b -> a = b.
Proof. enum. Qed.
Lemma good_arith_cmp : forall v, good (d_arith_cmp v).
Proof. intros []; constructor; reflexivity. Qed.
#[export] Hint Resolve d_arith_cmp_inj good_arith_cmp : dbg.
Lemma d_arith_params_inj : forall a b, d_arith_params a = d_arith_params b -> a = b.
Proof. struct d_arith_params. Qed.
Lemma good_arith_params : forall v, good (d_arith_params v).
Proof. intros []; unfold d_arith_params; gd; auto with dbg. Qed.
#[export] Hint Resolve d_arith_params_inj good_arith_params : dbg.
Lemma d_range_cmp_inj : forall a b, d_range_cmp a = d_range_cmp b -> a = b.
Proof. enum. Qed.
Lemma good_range_cmp : forall v, good (d_range_cmp v).
Proof. intros []; constructor; reflexivity. Qed.
#[export] Hint Resolve d_range_cmp_inj good_range_cmp : dbg.
Lemma d_range_params_inj : forall a b, d_range_params a = d_range_params b -> a = b.
Proof. struct d_range_params. Qed.
Lemma good_range_params : forall v, good (d_range_params v).
Proof. intros []; unfold d_range_params; gd; auto with dbg. Qed.
#[export] Hint Resolve d_range_params_inj good_range_params : dbg.
Lemma d_non_void_inj : forall a b, d_non_void a = d_non_void b -> a = b.
Proof. struct d_non_void. Qed.
Lemma good_non_void : forall v, good (d_non_void v).
Proof. intros []; unfold d_non_void; gd; auto with dbg. Qed.
#[export] Hint Resolve d_non_void_inj good_non_void : dbg.
Lemma d_cmp_zero_inj : forall a b, d_cmp_zero a = d_cmp_zero b -> a = b.
Proof. struct d_cmp_zero. Qed.
Lemma good_cmp_zero : forall v, good (d_cmp_zero v).
Proof. intros []; unfold d_cmp_zero; gd; auto with dbg. Qed.
#[export] Hint Resolve d_cmp_zero_inj good_cmp_zero : dbg.
Lemma d_cmp_value_inj : forall a b, d_cmp_value a = d_cmp_value b -> a = b.
Proof. struct d_cmp_value. Qed.
Lemma good_cmp_value : forall v, good (d_cmp_value v).
Proof. intros []; unfold d_cmp_value; gd; auto with dbg. Qed.
#[export] Hint Resolve d_cmp_value_inj good_cmp_value : dbg.
Lemma d_cmp_other_inj : forall a b, d_cmp_other a = d_cmp_other b -> a = b.
Proof. struct d_cmp_other. Qed.
Lemma good_cmp_other : forall v, good (d_cmp_other v).
Proof. intros []; unfold d_cmp_other; gd; auto with dbg. Qed.
#[export] Hint Resolve d_cmp_other_inj good_cmp_other : dbg.
Lemma d_bitmap_range_inj : forall a b, d_bitmap_range a = d_bitmap_range b -> a = b.
Proof. struct d_bitmap_range. Qed.
Lemma good_bitmap_range : forall v, good (d_bitmap_range v).
Proof. intros []; unfold d_bitmap_range; gd; auto with dbg. Qed.
#[export] Hint Resolve d_bitmap_range_inj good_bitmap_range : dbg.
Lemma d_string_search_inj : forall a b, d_string_search a = d_string_search b -> a = b.
Proof. struct d_string_search. Qed.
Lemma good_string_search : forall v, good (d_string_search v).
Proof. intros []; unfold d_string_search; gd; auto with dbg. Qed.
#[export] Hint Resolve d_string_search_inj good_string_search : dbg.
Lemma d_query_inj : forall a b, d_query a = d_query b -> a = b.
Proof. variant. Qed.
Lemma good_query : forall v, good (d_query v).
Proof. intros []; cbn [d_query]; gd; auto with dbg. Qed.
#[export] Hint Resolve d_query_inj good_query : dbg.
Lemma d_dash7_config_inj {E : Env} : forall a b, real_dash7_config a -> real_dash7_config b ->
  d_dash7_config a = d_dash7_config b -> a = b.
Proof.
  intros [q d x a] [q' d' x' a'] [Xa Ra] [Xb Rb] H. unfold d_dash7_config, is_subiot in *.
  destruct e_feat eqn:F0; cbn [app dc_qos dc_dormant dc_exec_delay dc_addressee] in *; fields H; clear H;
  f_equal; try congruence; eauto with dbg.
Qed.
Lemma good_dash7_config {E : Env} : forall v, good (d_dash7_config v).
Proof. intros v. unfold d_dash7_config. destruct is_subiot; cbn [app]; gd; auto with dbg. Qed.
#[export] Hint Resolve d_dash7_config_inj good_dash7_config : dbg.
Lemma d_lorawan_inj : forall a b, d_lorawan a = d_lorawan b -> a = b.
Proof. struct d_lorawan. Qed.
Lemma good_lorawan : forall v, good (d_lorawan v).
Proof. intros []; unfold d_lorawan; gd; auto with dbg. Qed.
#[export] Hint Resolve d_lorawan_inj good_lorawan : dbg.
Lemma d_otaa_inj : forall a b, d_otaa a = d_otaa b -> a = b.
Proof. struct d_otaa. Qed.
Lemma good_otaa : forall v, good (d_otaa v).
Proof. intros []; unfold d_otaa; gd; auto with dbg. Qed.
#[export] Hint Resolve d_otaa_inj good_otaa : dbg.
Lemma d_abp_inj : forall a b, d_abp a = d_abp b -> a = b.
Proof. struct d_abp. Qed.
Lemma good_abp : forall v, good (d_abp v).
Proof. intros []; unfold d_abp; gd; auto with dbg. Qed.
#[export] Hint Resolve d_abp_inj good_abp : dbg.
Lemma d_interface_config_inj {E : Env} : forall a b, real_interface_config a -> real_interface_config b ->
  d_interface_config a = d_interface_config b -> a = b.
Proof.
  intros a b Ra Rb H; destruct a, b; try discriminate H; try reflexivity;
  apply tuple1_eq in H as [_ H]; f_equal; eauto with dbg.
Qed.
Lemma good_interface_config {E : Env} : forall v, good (d_interface_config v).
Proof. intros []; cbn [d_interface_config]; gd; auto with dbg. Qed.
#[export] Hint Resolve d_interface_config_inj good_interface_config : dbg.
Lemma d_indirect_interface_inj {E : Env} : forall a b, real_indirect a -> real_indirect b ->
  d_indirect_interface a = d_indirect_interface b -> a = b.
Proof.
  intros a b Ra Rb H; destruct a, b; try discriminate H; try reflexivity;
  apply tuple1_eq in H as [_ H]; f_equal; eauto with dbg.
Qed.
Lemma good_indirect_interface {E : Env} : forall v, good (d_indirect_interface v).
Proof. intros []; cbn [d_indirect_interface]; gd; auto with dbg. Qed.
#[export] Hint Resolve d_indirect_interface_inj good_indirect_interface : dbg.
Lemma d_dll_config_inj : forall a b, d_dll_config a = d_dll_config b -> a = b.
Proof. struct d_dll_config. Qed.
Lemma good_dll_config : forall v, good (d_dll_config v).
Proof. intros []; unfold d_dll_config; gd; auto with dbg. Qed.
#[export] Hint Resolve d_dll_config_inj good_dll_config : dbg.
Lemma d_dll_status_inj : forall a b, d_dll_status a = d_dll_status b -> a = b.
Proof. struct d_dll_status. Qed.
Lemma good_dll_status : forall v, good (d_dll_status v).
Proof. intros []; unfold d_dll_status; gd; auto with dbg. Qed.
#[export] Hint Resolve d_dll_status_inj good_dll_status : dbg.
Lemma d_eng_method_inj : forall a b, d_eng_method a = d_eng_method b -> a = b.
Proof. enum. Qed.
Lemma good_eng_method : forall v, good (d_eng_method v).
Proof. intros []; constructor; reflexivity. Qed.
#[export] Hint Resolve d_eng_method_inj good_eng_method : dbg.
Lemma d_engineering_mode_inj : forall a b, d_engineering_mode a = d_engineering_mode b -> a = b.
Proof. struct d_engineering_mode. Qed.
Lemma good_engineering_mode : forall v, good (d_engineering_mode v).
Proof. intros []; unfold d_engineering_mode; gd; auto with dbg. Qed.
#[export] Hint Resolve d_engineering_mode_inj good_engineering_mode : dbg.
Lemma d_factory_inj : forall a b, d_factory a = d_factory b -> a = b.
Proof.
  intros a b H. unfold d_factory in H. fields H.
  repeat match goal with
  | F : d_n _ = d_n _ |- _ => apply d_n_inj in F
  | F : DNum _ = DNum _ |- _ => apply d_num_inj in F
  end.
  clear H. destruct a, b. cbn in *. subst. reflexivity.
Qed.
Lemma good_factory : forall v, good (d_factory v).
Proof. intros []; unfold d_factory; gd; auto with dbg. Qed.
#[export] Hint Resolve d_factory_inj good_factory : dbg.
Lemma d_firmware_inj : forall a b, d_firmware a = d_firmware b -> a = b.
Proof. struct d_firmware. Qed.
Lemma good_firmware : forall v, is_utf8 (fw_app v) -> is_utf8 (fw_sha v) -> good (d_firmware v).
Proof. intros v A B; unfold d_firmware; gd; auto with dbg; constructor; assumption. Qed.
#[export] Hint Resolve d_firmware_inj good_firmware : dbg.
Lemma d_channels_inj : forall l k, DList (map d_channel_status l) = DList (map d_channel_status k) -> l = k.
Proof. intros l k H. apply list_eq in H. apply (map_inj d_channel_status d_channel_status_inj). exact H. Qed.
#[export] Hint Resolve d_channels_inj : dbg.
Lemma d_phy_status_inj : forall a b, d_phy_status a = d_phy_status b -> a = b.
Proof. struct d_phy_status. Qed.
Lemma good_phy_status : forall v, good (d_phy_status v).
Proof. intros v; unfold d_phy_status; gd; auto with dbg. Qed.
#[export] Hint Resolve d_phy_status_inj good_phy_status : dbg.
(** The fifteen names of access profiles. *)
Lemma below_15 i : (i < 15)%N -> In i (map N.of_nat (seq 0 15)).
Proof.
  intros H. apply in_map_iff. exists (N.to_nat i). split; [apply N2Nat.id|]. apply in_seq. lia.
Qed.
Lemma two_digits_inj i j : (i < 15)%N -> (j < 15)%N -> two_digits i = two_digits j -> i = j.
Proof.
  intros Hi Hj. apply below_15 in Hi, Hj. cbn in Hi, Hj.
  decompose [or] Hi; decompose [or] Hj; subst; try contradiction; vm_compute; congruence.
Qed.
Lemma profile_name i : (i < 15)%N -> name ("AccessProfile" ++ two_digits i) = true.
Proof. intros Hi. apply below_15 in Hi. cbn in Hi. decompose [or] Hi; subst; try contradiction; reflexivity. Qed.
Lemma profile_other i n : (i < 15)%N -> "AccessProfile" ++ two_digits i = n ->
  ~ In n ["UId"; "FactorySettings"; "FirmwareVersion"; "EngineeringMode"; "VId"; "PhyStatus"; "DllConfig";
          "DllStatus"; "NwlSecurityKey"; "Other"].
Proof. intros _ <- K. cbn in K. decompose [or] K; try contradiction; discriminate. Qed.
Lemma d_file_inj : forall a b, real_file a -> real_file b -> d_file a = d_file b -> a = b.
Proof.
  intros a b Ra Rb H.
  destruct a as [i p|a|v|v|v|a|v|v|v|k|l], b as [i' p'|a'|v'|v'|v'|a'|v'|v'|v'|k'|l'];
  try discriminate H; cbn [d_file] in H; apply tuple1_eq in H as [N H]; f_equal; eauto with dbg.
  - apply two_digits_inj; auto. apply (sapp_cancel "AccessProfile"). exact N.
  - fields H. eauto with dbg.
  - fields H. eauto with dbg.
Qed.
Lemma good_file : forall v, real_file v -> good (d_file v).
Proof.
  intros [i p|a|v|v|v|a|v|v|v|k|l] R; cbn [d_file]; cbn [real_file] in R;
  [|gd; auto with dbg..].
  - apply g_tuple; [right; apply profile_name; exact R|discriminate|]. gd. auto with dbg.
  - destruct R. auto with dbg.
Qed.
#[export] Hint Resolve d_file_inj good_file : dbg.
Lemma d_action_status_inj : forall a b, d_action_status a = d_action_status b -> a = b.
Proof. struct d_action_status. Qed.
Lemma good_action_status : forall v, good (d_action_status v).
Proof. intros []; unfold d_action_status; gd; auto with dbg. Qed.
#[export] Hint Resolve d_action_status_inj good_action_status : dbg.
Lemma d_permission_inj : forall a b, d_permission a = d_permission b -> a = b.
Proof. variant. Qed.
Lemma good_permission : forall v, good (d_permission v).
Proof. intros []; cbn [d_permission]; gd; auto with dbg. Qed.
#[export] Hint Resolve d_permission_inj good_permission : dbg.
Lemma d_permission_level_inj : forall a b, d_permission_level a = d_permission_level b -> a = b.
Proof. enum. Qed.
Lemma good_permission_level : forall v, good (d_permission_level v).
Proof. intros []; constructor; reflexivity. Qed.
#[export] Hint Resolve d_permission_level_inj good_permission_level : dbg.
Lemma d_action_header_inj : forall a b, d_action_header a = d_action_header b -> a = b.
Proof. struct d_action_header. Qed.
Lemma good_action_header : forall v, good (d_action_header v).
Proof. intros []; unfold d_action_header; gd; auto with dbg. Qed.
#[export] Hint Resolve d_action_header_inj good_action_header : dbg.
Lemma d_nop_inj : forall a b, d_nop a = d_nop b -> a = b.
Proof. struct d_nop. Qed.
Lemma good_nop : forall v, good (d_nop v).
Proof. intros []; unfold d_nop; gd; auto with dbg. Qed.
#[export] Hint Resolve d_nop_inj good_nop : dbg.
Lemma d_extension_inj : forall a b, d_extension a = d_extension b -> a = b.
Proof. struct d_extension. Qed.
Lemma good_extension : forall v, good (d_extension v).
Proof. intros []; unfold d_extension; gd; auto with dbg. Qed.
#[export] Hint Resolve d_extension_inj good_extension : dbg.
Lemma d_file_id_op_inj : forall a b, d_file_id_op a = d_file_id_op b -> a = b.
Proof. struct d_file_id_op. Qed.
Lemma good_file_id_op : forall v, good (d_file_id_op v).
Proof. intros []; unfold d_file_id_op; gd; auto with dbg. Qed.
#[export] Hint Resolve d_file_id_op_inj good_file_id_op : dbg.
Lemma d_file_data_inj : forall a b, real_file (fd_data a) -> real_file (fd_data b) ->
  d_file_data a = d_file_data b -> a = b.
Proof. intros [] [] Ra Rb H. unfold d_file_data in H. fields H. f_equal; eauto with dbg. Qed.
Lemma good_file_data : forall v, real_file (fd_data v) -> good (d_file_data v).
Proof. intros v R; unfold d_file_data; gd; auto with dbg. Qed.
#[export] Hint Resolve d_file_data_inj good_file_data : dbg.
Lemma d_file_properties_inj : forall a b, d_file_properties a = d_file_properties b -> a = b.
Proof. struct d_file_properties. Qed.
Lemma good_file_properties : forall v, good (d_file_properties v).
Proof. intros []; unfold d_file_properties; gd; auto with dbg. Qed.
#[export] Hint Resolve d_file_properties_inj good_file_properties : dbg.
Lemma d_read_file_data_inj : forall a b, d_read_file_data a = d_read_file_data b -> a = b.
Proof. struct d_read_file_data. Qed.
Lemma good_read_file_data : forall v, good (d_read_file_data v).
Proof. intros []; unfold d_read_file_data; gd; auto with dbg. Qed.
#[export] Hint Resolve d_read_file_data_inj good_read_file_data : dbg.
Lemma d_action_query_inj : forall a b, d_action_query a = d_action_query b -> a = b.
Proof. struct d_action_query. Qed.
Lemma good_action_query : forall v, good (d_action_query v).
Proof. intros []; unfold d_action_query; gd; auto with dbg. Qed.
#[export] Hint Resolve d_action_query_inj good_action_query : dbg.
Lemma d_permission_request_inj : forall a b, d_permission_request a = d_permission_request b -> a = b.
Proof. struct d_permission_request. Qed.
Lemma good_permission_request : forall v, good (d_permission_request v).
Proof. intros []; unfold d_permission_request; gd; auto with dbg. Qed.
#[export] Hint Resolve d_permission_request_inj good_permission_request : dbg.
Lemma d_copy_file_inj : forall a b, d_copy_file a = d_copy_file b -> a = b.
Proof. struct d_copy_file. Qed.
Lemma good_copy_file : forall v, good (d_copy_file v).
Proof. intros []; unfold d_copy_file; gd; auto with dbg. Qed.
#[export] Hint Resolve d_copy_file_inj good_copy_file : dbg.
Lemma d_status_type_inj : forall a b, d_status_type a = d_status_type b -> a = b.
Proof. enum. Qed.
Lemma good_status_type : forall v, good (d_status_type v).
Proof. intros []; constructor; reflexivity. Qed.
#[export] Hint Resolve d_status_type_inj good_status_type : dbg.
Lemma d_itf_status_op_inj {E : Env} : forall a b, real_interface_status (iso_status a) -> real_interface_status (iso_status b) ->
  d_itf_status_op a = d_itf_status_op b -> a = b.
Proof. intros [] [] Ra Rb H. unfold d_itf_status_op in H. fields H. f_equal; eauto with dbg. Qed.
Lemma good_itf_status_op {E : Env} : forall v, good (d_itf_status_op v).
Proof. intros v; unfold d_itf_status_op; gd; auto with dbg. Qed.
#[export] Hint Resolve d_itf_status_op_inj good_itf_status_op : dbg.
Lemma d_itf_final_op_inj : forall a b, d_itf_final_op a = d_itf_final_op b -> a = b.
Proof. struct d_itf_final_op. Qed.
Lemma good_itf_final_op : forall v, good (d_itf_final_op v).
Proof. intros []; unfold d_itf_final_op; gd; auto with dbg. Qed.
#[export] Hint Resolve d_itf_final_op_inj good_itf_final_op : dbg.
Definition real_status {E : Env} (s : status) : Prop :=
  match s with StatusInterface s => real_interface_status (iso_status s) | _ => True end.
Lemma d_status_inj {E : Env} : forall a b, real_status a -> real_status b ->
  d_status a = d_status b -> a = b.
Proof.
  intros a b Ra Rb H; destruct a, b; try discriminate H; try reflexivity;
  apply tuple1_eq in H as [_ H]; f_equal; eauto with dbg.
Qed.
Lemma good_status {E : Env} : forall v, good (d_status v).
Proof. intros []; cbn [d_status]; gd; auto with dbg. Qed.
#[export] Hint Resolve d_status_inj good_status : dbg.
Lemma d_status_operand_inj {E : Env} : forall a b, real_status (so_status a) -> real_status (so_status b) ->
  d_status_operand a = d_status_operand b -> a = b.
Proof. intros [] [] Ra Rb H. unfold d_status_operand in H. fields H. f_equal; eauto with dbg. Qed.
Lemma good_status_operand {E : Env} : forall v, good (d_status_operand v).
Proof. intros v; unfold d_status_operand; gd; auto with dbg. Qed.
#[export] Hint Resolve d_status_operand_inj good_status_operand : dbg.
Lemma d_response_tag_inj : forall a b, d_response_tag a = d_response_tag b -> a = b.
Proof.
  intros [] [] H. unfold d_response_tag in H. fields H.
  repeat match goal with
  | F : DStruct _ _ = DStruct _ _ |- _ => fields F; clear F
  | F : DTuple _ _ = DTuple _ _ |- _ => apply tuple1_eq in F as [_ F]
  end.
  f_equal; eauto with dbg.
Qed.
Lemma good_response_tag : forall v, good (d_response_tag v).
Proof. intros v; unfold d_response_tag; gd; auto with dbg. Qed.
#[export] Hint Resolve d_response_tag_inj good_response_tag : dbg.
Lemma d_chunk_step_inj : forall a b, d_chunk_step a = d_chunk_step b -> a = b.
Proof. enum. Qed.
Lemma good_chunk_step : forall v, good (d_chunk_step v).
Proof. intros []; constructor; reflexivity. Qed.
#[export] Hint Resolve d_chunk_step_inj good_chunk_step : dbg.
Lemma d_chunk_inj : forall a b, d_chunk a = d_chunk b -> a = b.
Proof. struct d_chunk. Qed.
Lemma good_chunk : forall v, good (d_chunk v).
Proof. intros []; unfold d_chunk; gd; auto with dbg. Qed.
#[export] Hint Resolve d_chunk_inj good_chunk : dbg.
Lemma d_logic_op_inj : forall a b, d_logic_op a = d_logic_op b -> a = b.
Proof. enum. Qed.
Lemma good_logic_op : forall v, good (d_logic_op v).
Proof. intros []; constructor; reflexivity. Qed.
#[export] Hint Resolve d_logic_op_inj good_logic_op : dbg.
Lemma d_logic_inj : forall a b, d_logic a = d_logic b -> a = b.
Proof. struct d_logic. Qed.
Lemma good_logic : forall v, good (d_logic v).
Proof. intros []; unfold d_logic; gd; auto with dbg. Qed.
#[export] Hint Resolve d_logic_inj good_logic : dbg.
Lemma d_forward_inj {E : Env} : forall a b, real_interface_config (fw_config a) -> real_interface_config (fw_config b) -> d_forward a = d_forward b -> a = b.
Proof.
  intros [] [] Ra Rb H. unfold d_forward in H. fields H.
  repeat match goal with
  | F : DStruct _ _ = DStruct _ _ |- _ => fields F; clear F
  | F : DTuple _ _ = DTuple _ _ |- _ => apply tuple1_eq in F as [_ F]
  end.
  f_equal; eauto with dbg.
Qed.
Lemma good_forward {E : Env} : forall v, good (d_forward v).
Proof. intros v; unfold d_forward; gd; auto with dbg. Qed.
#[export] Hint Resolve d_forward_inj good_forward : dbg.
Definition real_opt {E : Env} (o : option indirect_interface) : Prop :=
  match o with Some c => real_indirect c | None => True end.
Lemma d_opt_indirect_inj {E : Env} : forall a b, real_opt a -> real_opt b ->
  d_opt d_indirect_interface a = d_opt d_indirect_interface b -> a = b.
Proof.
  intros [a|] [b|] Ra Rb H; try discriminate H; [|reflexivity].
  apply tuple1_eq in H as [_ H]. f_equal; eauto with dbg.
Qed.
#[export] Hint Resolve d_opt_indirect_inj : dbg.
Lemma d_indirect_forward_inj {E : Env} : forall a b, real_opt (if_config a) -> real_opt (if_config b) -> d_indirect_forward a = d_indirect_forward b -> a = b.
Proof.
  intros [] [] Ra Rb H. unfold d_indirect_forward in H. fields H.
  repeat match goal with
  | F : DStruct _ _ = DStruct _ _ |- _ => fields F; clear F
  | F : DTuple _ _ = DTuple _ _ |- _ => apply tuple1_eq in F as [_ F]
  end.
  f_equal; eauto with dbg.
Qed.
Lemma good_indirect_forward {E : Env} : forall v, good (d_indirect_forward v).
Proof. intros v; unfold d_indirect_forward; gd; auto with dbg. Qed.
#[export] Hint Resolve d_indirect_forward_inj good_indirect_forward : dbg.
Lemma d_request_tag_inj : forall a b, d_request_tag a = d_request_tag b -> a = b.
Proof.
  intros [] [] H. unfold d_request_tag in H. fields H.
  repeat match goal with
  | F : DStruct _ _ = DStruct _ _ |- _ => fields F; clear F
  | F : DTuple _ _ = DTuple _ _ |- _ => apply tuple1_eq in F as [_ F]
  end.
  f_equal; eauto with dbg.
Qed.
Lemma good_request_tag : forall v, good (d_request_tag v).
Proof. intros v; unfold d_request_tag; gd; auto with dbg. Qed.
#[export] Hint Resolve d_request_tag_inj good_request_tag : dbg.
Lemma d_tx_status_inj {E : Env} : forall a b, real_tx_status (txo_status a) -> real_tx_status (txo_status b) -> d_tx_status a = d_tx_status b -> a = b.
Proof.
  intros [] [] Ra Rb H. unfold d_tx_status in H. fields H.
  repeat match goal with
  | F : DStruct _ _ = DStruct _ _ |- _ => fields F; clear F
  | F : DTuple _ _ = DTuple _ _ |- _ => apply tuple1_eq in F as [_ F]
  end.
  f_equal; eauto with dbg.
Qed.
Lemma good_tx_status {E : Env} : forall v, good (d_tx_status v).
Proof. intros v; unfold d_tx_status; gd; auto with dbg. Qed.
#[export] Hint Resolve d_tx_status_inj good_tx_status : dbg.
Lemma d_action_inj {E : Env} : forall a b, real_action a -> real_action b -> d_action a = d_action b -> a = b.
Proof.
  intros a b Ra Rb H; destruct a, b; try discriminate H; apply tuple1_eq in H as [_ H]; f_equal;
  cbn [real_action] in *; eauto with dbg.
Qed.
Lemma good_action {E : Env} : forall v, real_action v -> good (d_action v).
Proof. intros [] R; cbn [d_action]; cbn [real_action] in R; gd; auto with dbg. Qed.
#[export] Hint Resolve d_action_inj good_action : dbg.
Lemma d_command_inj {E : Env} : forall a b, Forall real_action a -> Forall real_action b ->
  d_command a = d_command b -> a = b.
Proof.
  intros a b Ra Rb H. unfold d_command in H. fields H. apply list_eq in F.
  exact (map_eq d_action real_action d_action_inj a b Ra Rb F).
Qed.
Lemma good_command {E : Env} : forall c, Forall real_action c -> good (d_command c).
Proof. intros c R. unfold d_command. gd. apply (good_map d_action real_action); auto with dbg. Qed.
#[export] Hint Resolve d_command_inj good_command : dbg.
Lemma d_tcontrol_inj : forall a b, d_tcontrol a = d_tcontrol b -> a = b.
Proof. struct d_tcontrol. Qed.
Lemma good_tcontrol : forall v, good (d_tcontrol v).
Proof. intros []; unfold d_tcontrol; gd; auto with dbg. Qed.
#[export] Hint Resolve d_tcontrol_inj good_tcontrol : dbg.
Lemma d_ack_inj : forall a b, d_ack a = d_ack b -> a = b.
Proof. struct d_ack. Qed.
Lemma good_ack : forall v, good (d_ack v).
Proof. intros []; unfold d_ack; gd; auto with dbg. Qed.
#[export] Hint Resolve d_ack_inj good_ack : dbg.
Lemma d_opt_n_inj a b : d_opt d_n a = d_opt d_n b -> a = b.
Proof. apply d_opt_inj. apply d_n_inj. Qed.
Lemma d_opt_varint_inj a b : d_opt d_varint a = d_opt d_varint b -> a = b.
Proof. apply d_opt_inj. apply d_varint_inj. Qed.
Lemma d_opt_ack_inj a b : d_opt d_ack a = d_opt d_ack b -> a = b.
Proof. apply d_opt_inj. apply d_ack_inj. Qed.
#[export] Hint Resolve d_opt_n_inj d_opt_varint_inj d_opt_ack_inj : dbg.
Lemma d_tframe_inj {E : Env} : forall a b, Forall real_action (tf_command a) -> Forall real_action (tf_command b) ->
  d_tframe a = d_tframe b -> a = b.
Proof.
  intros a b Ra Rb H. unfold d_tframe in H. fields H. clear H.
  repeat match goal with
  | F : d_n _ = d_n _ |- _ => apply d_n_inj in F
  | F : d_tcontrol _ = d_tcontrol _ |- _ => apply d_tcontrol_inj in F
  | F : d_opt d_n _ = _ |- _ => apply d_opt_n_inj in F
  | F : d_opt d_varint _ = _ |- _ => apply d_opt_varint_inj in F
  | F : d_opt d_ack _ = _ |- _ => apply d_opt_ack_inj in F
  | F : d_command _ = d_command _ |- _ => apply d_command_inj in F; [|assumption|assumption]
  end.
  destruct a, b. cbn in *. subst. reflexivity.
Qed.
Lemma good_tframe {E : Env} : forall v, Forall real_action (tf_command v) -> good (d_tframe v).
Proof. intros v R; unfold d_tframe; gd; auto with dbg. Qed.
#[export] Hint Resolve d_tframe_inj good_tframe : dbg.
Lemma d_ncontrol_inj : forall a b, d_ncontrol a = d_ncontrol b -> a = b.
Proof. struct d_ncontrol. Qed.
Lemma good_ncontrol : forall v, good (d_ncontrol v).
Proof. intros []; unfold d_ncontrol; gd; auto with dbg. Qed.
#[export] Hint Resolve d_ncontrol_inj good_ncontrol : dbg.
Lemma d_hopping_inj : forall a b, d_hopping a = d_hopping b -> a = b.
Proof. struct d_hopping. Qed.
Lemma good_hopping : forall v, good (d_hopping v).
Proof. intros []; unfold d_hopping; gd; auto with dbg. Qed.
#[export] Hint Resolve d_hopping_inj good_hopping : dbg.
Lemma d_opt_hopping_inj a b : d_opt d_hopping a = d_opt d_hopping b -> a = b.
Proof. apply d_opt_inj. apply d_hopping_inj. Qed.
#[export] Hint Resolve d_opt_hopping_inj : dbg.
Lemma d_nframe_inj {E : Env} : forall a b, Forall real_action (tf_command (nf_frame a)) ->
  Forall real_action (tf_command (nf_frame b)) -> d_nframe a = d_nframe b -> a = b.
Proof. intros [] [] Ra Rb H. unfold d_nframe in H. fields H. f_equal; eauto with dbg. Qed.
Lemma good_nframe {E : Env} : forall v, Forall real_action (tf_command (nf_frame v)) -> good (d_nframe v).
Proof. intros v R; unfold d_nframe; gd; auto with dbg. Qed.
#[export] Hint Resolve d_nframe_inj good_nframe : dbg.
Lemma d_bframe_inj : forall a b, d_bframe a = d_bframe b -> a = b.
Proof.
  intros [] [] H. unfold d_bframe in H. fields H.
  repeat match goal with
  | F : DStruct _ _ = DStruct _ _ |- _ => fields F; clear F
  | F : DTuple _ _ = DTuple _ _ |- _ => apply tuple1_eq in F as [_ F]
  end.
  f_equal; eauto with dbg.
Qed.
Lemma good_bframe : forall v, good (d_bframe v).
Proof. intros v; unfold d_bframe; gd; auto with dbg. Qed.
#[export] Hint Resolve d_bframe_inj good_bframe : dbg.
Lemma d_fframe_inj {E : Env} : forall a b, real_frame a -> real_frame b -> d_fframe a = d_fframe b -> a = b.
Proof.
  intros [] [] Ra Rb H. unfold d_fframe, real_frame in *. fields H.
  repeat match goal with F : DStruct _ _ = DStruct _ _ |- _ => fields F; clear F end.
  f_equal; eauto with dbg.
Qed.
Lemma good_fframe {E : Env} : forall v, real_frame v -> good (d_fframe v).
Proof. intros v R; unfold d_fframe, real_frame in *; gd; auto with dbg. Qed.
#[export] Hint Resolve d_fframe_inj good_fframe : dbg.
