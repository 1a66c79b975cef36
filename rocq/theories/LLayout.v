(** Every writer produces the documented bytes (SpecLayout.v). *)
From Coq Require Import List NArith ZArith Bool Lia ZifyBool ZifyNat ZifyN Arith.
From Verif Require Import Base Deku Utils Types Physical Link Network Session Data Query
  Interface File Operation Action Command LBits LReader LTypes WellFormed SpecLayout.
Import ListNotations.
Open Scope N_scope.

(** [w] writes exactly the bytes [l]. *)
Definition W (w : writer) (l : list N) : Prop := w = Ok (bits_of_bytes l) /\ bytes l.

(** ** Bit fields *)
Definition fits (f : N * N) : Prop := snd f < 2 ^ fst f.
Definition width (l : list (N * N)) : N := fold_right (fun f a => fst f + a) 0 l.
Definition field_bits (l : list (N * N)) : list bool :=
  flat_map (fun f => bits_of (N.to_nat (fst f)) (snd f)) l.

Lemma pack_acc l a :
  fold_left (fun a f => a * 2 ^ fst f + snd f) l a = a * 2 ^ width l + pack l.
Proof.
  unfold pack. revert a. induction l as [|f l IH]; intros a; cbn [fold_left width fold_right].
  - cbn. lia.
  - fold (width l). rewrite IH, (IH (0 * _ + _)), N.pow_add_r. lia.
Qed.

Lemma pack_cons w v l : pack ((w, v) :: l) = v * 2 ^ width l + pack l.
Proof. unfold pack at 1. cbn [fold_left fst snd]. rewrite pack_acc. lia. Qed.

Lemma pack_lt l : Forall fits l -> pack l < 2 ^ width l.
Proof.
  induction 1 as [|[w v] l Hf _ IH]; [cbn; lia|].
  rewrite pack_cons. cbn [width fold_right fst]. fold (width l). rewrite N.pow_add_r.
  unfold fits in Hf. cbn [fst snd] in Hf. nia.
Qed.

Lemma bits_of_pack l : Forall fits l -> bits_of (N.to_nat (width l)) (pack l) = field_bits l.
Proof.
  induction 1 as [|[w v] l Hf Hl IH]; [reflexivity|].
  rewrite pack_cons. cbn [width fold_right fst field_bits flat_map]. fold (width l). fold (field_bits l).
  rewrite N2Nat.inj_add, <- IH.
  replace (2 ^ width l) with (2 ^ N.of_nat (N.to_nat (width l))) by (rewrite N2Nat.id; reflexivity).
  rewrite <- bits_of_join; [reflexivity|]. rewrite N2Nat.id. apply pack_lt. assumption.
Qed.

(** Writing the fields one by one, then [w]. *)
Fixpoint emit (l : list (N * N)) (w : writer) : writer :=
  match l with [] => w | (n, v) :: tl => write_uint (N.to_nat n) v +++ emit tl w end.
Fixpoint emit_last (l : list (N * N)) : writer :=
  match l with
  | [] => wnil
  | [(n, v)] => write_uint (N.to_nat n) v
  | (n, v) :: tl => write_uint (N.to_nat n) v +++ emit_last tl
  end.

Lemma wseq_nil_r w : w +++ wnil = w.
Proof. destruct w; cbn; try reflexivity. rewrite app_nil_r. reflexivity. Qed.
Lemma wseq_nil_l w : wnil +++ w = w.
Proof. destruct w; reflexivity. Qed.
Lemma wseq_assoc a b c : (a +++ b) +++ c = a +++ b +++ c.
Proof.
  destruct a as [x| |]; cbn; try reflexivity. destruct b as [y| |]; cbn; try reflexivity.
  destruct c as [z| |]; cbn; try reflexivity. rewrite app_assoc. reflexivity.
Qed.

Lemma emit_bits l b : emit l (Ok b) = Ok (field_bits l ++ b).
Proof.
  induction l as [|[n v] l IH]; [reflexivity|]. cbn [emit]. rewrite IH. cbn.
  rewrite app_assoc. reflexivity.
Qed.
Lemma emit_last_eq l : emit_last l = emit l wnil.
Proof.
  induction l as [|[n v] l IH]; [reflexivity|]. destruct l as [|f l].
  - cbn [emit emit_last]. rewrite wseq_nil_r. reflexivity.
  - cbn [emit_last emit]. cbn [emit_last emit] in IH. rewrite IH. reflexivity.
Qed.

Lemma W_pack k l w tl : Forall fits l -> width l = 8 * N.of_nat k -> W w tl ->
  W (emit l w) (be_bytes k (pack l) ++ tl).
Proof.
  intros Hf Hw (-> & Hb). split.
  - rewrite emit_bits, bits_of_bytes_app, bits_of_be. f_equal. f_equal.
    rewrite <- bits_of_pack by assumption. f_equal. lia.
  - apply Forall_app. split; [apply be_bytes_bytes|assumption].
Qed.

Lemma be_bytes_1 v : v < 256 -> be_bytes 1 v = [v].
Proof. intros H. cbn [be_bytes]. change (256 ^ N.of_nat 0) with 1. rewrite N.div_1_r, N.mod_small; auto. Qed.

Lemma W_pack8 l w tl : Forall fits l -> width l = 8 -> W w tl -> W (emit l w) (pack l :: tl).
Proof.
  intros Hf Hw H. pose proof (W_pack 1 l w tl Hf Hw H) as K.
  rewrite be_bytes_1 in K; [exact K|]. pose proof (pack_lt l Hf) as L. rewrite Hw in L. exact L.
Qed.
Lemma W_nil : W wnil [].
Proof. split; [reflexivity|constructor]. Qed.
Lemma W_pack8_last l : Forall fits l -> width l = 8 -> W (emit_last l) [pack l].
Proof. intros Hf Hw. rewrite emit_last_eq. apply W_pack8; auto using W_nil. Qed.

Lemma write_bool_uint b : write_bool b = write_uint 1 (bit b).
Proof. destruct b; reflexivity. Qed.
Lemma write_pad_uint n : write_pad n = write_uint n 0.
Proof. unfold write_pad, write_uint. rewrite bits_of_0. reflexivity. Qed.

(** ** Bytes *)
Lemma W_u8 x w tl : x < 256 -> W w tl -> W (write_u8 x +++ w) (x :: tl).
Proof. intros Hx (-> & H). split; [reflexivity|constructor; assumption]. Qed.
Lemma W_u8_last x : x < 256 -> W (write_u8 x) [x].
Proof. intros Hx. split; [unfold write_u8, write_uint; rewrite bits_of_bytes_cons; cbn [bits_of_bytes]; rewrite app_nil_r; reflexivity|constructor; [assumption|constructor]]. Qed.
Lemma W_app a b la lb : W a la -> W b lb -> W (a +++ b) (la ++ lb).
Proof.
  intros (-> & Ha) (-> & Hb). split; [cbn; rewrite bits_of_bytes_app; reflexivity|].
  apply Forall_app; auto.
Qed.
Lemma W_u16 v : W (write_u16be v) (be_bytes 2 v).
Proof. split; [|apply be_bytes_bytes]. unfold write_u16be, write_uint. rewrite bits_of_be. reflexivity. Qed.
Lemma W_u32 v : W (write_u32be v) (be_bytes 4 v).
Proof. split; [|apply be_bytes_bytes]. unfold write_u32be, write_uint. rewrite bits_of_be. reflexivity. Qed.
Lemma W_u64 v : W (write_u64be v) (be_bytes 8 v).
Proof. split; [|apply be_bytes_bytes]. unfold write_u64be, write_uint. rewrite bits_of_be. reflexivity. Qed.
Lemma W_list {A} (w : A -> writer) enc l :
  Forall (fun x => W (w x) (enc x)) l -> W (write_list w l) (flat_map enc l).
Proof.
  induction 1 as [|x l Hx _ IH]; [apply W_nil|]. cbn [write_list flat_map]. apply W_app; assumption.
Qed.
Lemma W_vec l : bytes l -> W (write_vec_u8 l) l.
Proof. intros H. split; [apply write_bytes|assumption]. Qed.
Lemma W_bytes l : bytes l -> W (write_list write_u8 l) l.
Proof. apply W_vec. Qed.
Lemma W_native {E : Env} k v : W (write_native k v) (enc_native k v).
Proof.
  unfold write_native, enc_native, to_host, le_bytes. split; [destruct e_host; reflexivity|].
  destruct e_host; [apply Forall_rev|]; apply be_bytes_bytes.
Qed.
Lemma enc_i8_eq z : i8 z -> u8_of_i8 z = enc_i8 z.
Proof.
  unfold i8, u8_of_i8, enc_i8. intros H. destruct (Z.ltb_spec z 0); f_equal; divlia.
Qed.
Lemma enc_i8_lt z : i8 z -> enc_i8 z < 256.
Proof. unfold i8, enc_i8. intros H. destruct (Z.ltb_spec z 0); lia. Qed.
Lemma W_i8 z w tl : i8 z -> W w tl -> W (write_i8 z +++ w) (enc_i8 z :: tl).
Proof.
  intros Hz H. unfold write_i8. rewrite enc_i8_eq by assumption. apply W_u8; [|assumption].
  apply enc_i8_lt; assumption.
Qed.
Lemma W_i8_last z : i8 z -> W (write_i8 z) [enc_i8 z].
Proof.
  intros Hz. unfold write_i8. rewrite enc_i8_eq by assumption. apply W_u8_last.
  apply enc_i8_lt; assumption.
Qed.

Lemma W_length v : wf_length v -> W (write_length v) (enc_length v).
Proof. intros H. split; [apply layout_length; assumption|apply enc_length_bytes; assumption]. Qed.
Lemma W_varint v : wf_varint v -> W (write_varint v) (enc_varint v).
Proof.
  intros H. pose proof (wf_varint_max v H) as Hm. split; [apply layout_varint; assumption|].
  unfold enc_varint. cbv zeta. constructor; [|constructor].
  pose proof (mantissa_small _ Hm) as M.
  pose proof (varint_exponent_spec _ Hm) as (E & _ & _).
  destruct H as (-> & _). cbn [andb]. unfold byte. lia.
Qed.

(** Field fits: enums by cases, the rest from the hypotheses. *)
Ltac fit :=
  repeat constructor; unfold fits; cbn [fst snd];
  repeat match goal with
  | |- bit ?b < _ => destruct b; reflexivity
  | |- 0 < _ => reflexivity
  | |- ?f ?v < _ => is_var v; destruct v; reflexivity
  end;
  try assumption; try lia;
  try (match goal with |- ?f ?x < _ => destruct x; reflexivity end).
Ltac flat := rewrite ?wseq_assoc, ?write_bool_uint, ?write_pad_uint.
Ltac pack8 l := first [apply (W_pack8 l); [fit|reflexivity|] | apply (W_pack8_last l); [fit|reflexivity]].
Ltac pk :=
  match goal with
  | |- W _ (pack ?l :: ?tl) => pack8 l
  end.

Lemma W_file_offset v : wf_file_offset v -> W (write_file_offset v) (enc_file_offset v).
Proof. intros (H1 & H2). apply W_u8; [exact H1|]. apply W_length. assumption. Qed.

(** ** physical *)
Lemma W_channel_header v w tl : W w tl ->
  W (write_channel_header v +++ w) (enc_channel_header v :: tl).
Proof. intros H. unfold write_channel_header, enc_channel_header. flat. pk. exact H. Qed.
Lemma W_channel v : wf_channel v -> W (write_channel v) (enc_channel v).
Proof. intros H. apply W_channel_header. apply W_u16. Qed.
Lemma W_channel_status v : wf_channel_status v -> W (write_channel_status v) (enc_channel_status v).
Proof.
  intros (H1 & H2). unfold write_channel_status, write_channel_status_identifier, enc_channel_status.
  cbv zeta. flat. destruct v as [[b bw i] n]. cbn [cs_identifier csi_band csi_bandwidth csi_index cs_noise_floor] in *.
  apply (W_pack 2 [(3, code_band b); (2, code_bandwidth bw); (11, i)]); [fit|reflexivity|].
  apply W_u8_last. assumption.
Qed.
Lemma W_sub_band v : wf_sub_band v -> W (write_sub_band v) (enc_sub_band v).
Proof.
  intros (H1 & H2 & H3 & H4 & H5). unfold write_sub_band, enc_sub_band.
  apply W_app; [apply W_u16|]. apply W_app; [apply W_u16|]. apply W_i8; [assumption|].
  apply W_u8; [assumption|]. apply W_u8_last. assumption.
Qed.

(** ** link *)
Lemma W_sub_profile v : wf_sub_profile v -> W (write_sub_profile v) (enc_sub_profile v).
Proof. intros (H1 & H2). apply W_u8; [assumption|]. apply W_varint. assumption. Qed.
Lemma W_access_class v w tl : wf_access_class v -> W w tl ->
  W (write_access_class v +++ w) (enc_access_class v :: tl).
Proof. intros (H1 & H2) H. unfold write_access_class, enc_access_class. flat. pk. exact H. Qed.
Lemma W_access_profile v : wf_access_profile v -> W (write_access_profile v) (enc_access_profile v).
Proof.
  intros (_ & H1 & _ & H2). unfold write_access_profile, enc_access_profile.
  apply W_channel_header. apply W_app; apply W_list.
  - eapply Forall_impl; [|exact H1]. apply W_sub_profile.
  - eapply Forall_impl; [|exact H2]. apply W_sub_band.
Qed.

(** ** network *)
Lemma W_address v : wf_address v -> W (write_address v) (enc_address v).
Proof.
  destruct v; cbn [wf_address write_address enc_address]; intros H;
    [apply W_varint; assumption|apply W_nil|apply W_u64|apply W_u16].
Qed.
Lemma W_nls_state v : wf_nls_state v -> W (write_nls_state v) (enc_nls_state v).
Proof. destruct v; cbn; [intros _; apply W_nil|intros (H & _); apply W_vec; assumption..]. Qed.
Lemma W_addressee {E : Env} v : wf_addressee v -> W (write_addressee v) (enc_addressee v).
Proof.
  intros (_ & _ & _ & H4 & H5 & H6).
  unfold write_addressee, enc_addressee, write_nls_method, nls_bits, is_wizzilab.
  destruct v as [g t u n c a s]. cbn [ad_group ad_type ad_use_vid ad_nls ad_access ad_address ad_state] in *.
  assert (T : W (write_access_class c +++ write_address a +++ write_nls_state s)
                (enc_access_class c :: enc_address a ++ enc_nls_state s)).
  { apply W_access_class; [assumption|]. apply W_app; [apply W_address|apply W_nls_state]; assumption. }
  destruct e_feat.
  - flat. rewrite wseq_nil_l. pk. exact T.
  - flat. rewrite wseq_nil_l. pk. exact T.
  - flat. pk. exact T.
Qed.

(** ** session *)
Lemma W_qos v w tl : W w tl -> W (write_qos v +++ w) (enc_qos v :: tl).
Proof. intros H. unfold write_qos, enc_qos. flat. pk. exact H. Qed.
Lemma W_dash7_status {E : Env} v : wf_dash7_status v -> W (write_dash7_status v) (enc_dash7_status v).
Proof.
  intros (H1 & H2 & H3 & H4 & H5 & H6 & H7 & H8). unfold write_dash7_status, enc_dash7_status.
  apply W_app; [apply W_channel; assumption|]. cbn [app].
  apply W_u8; [assumption|]. apply W_u8; [assumption|]. apply W_u8; [assumption|].
  flat. pk. apply W_u8; [assumption|]. apply W_u8; [assumption|].
  apply W_app; [apply W_varint|apply W_addressee]; assumption.
Qed.

(** ** data *)
Lemma W_file_header v : wf_file_header v -> W (write_file_header v) (enc_file_header v).
Proof.
  intros (H1 & H2 & H3 & H4). unfold write_file_header, enc_file_header. cbv zeta. cbn [app].
  destruct v as [[x y [u1 u2 u3] [g1 g2 g3]] [e c s] al it sz ac].
  cbn [fh_perm fh_prop fh_alp_file fh_itf_file fh_size fh_alloc fp_encrypted fp_exec fp_user fp_guest
       up_read up_write up_exec pr_enabled pr_condition pr_class] in *.
  unfold write_file_permissions, write_user_permissions, write_fs_properties.
  cbn [fp_encrypted fp_exec fp_user fp_guest up_read up_write up_exec pr_enabled pr_condition pr_class].
  flat. pk. pk. apply W_u8; [assumption|]. apply W_u8; [assumption|].
  apply W_app; apply W_u32.
Qed.

(** ** query *)
Lemma W_query q : wf_query q -> W (write_query q) (enc_query q).
Proof.
  destruct q as [v|v|v|v|v|v]; cbn [wf_query]; intros H; unfold write_query; cbn [query_id enc_query].
  - destruct H as (H1 & H2). unfold write_non_void. flat. pk.
    apply W_app; [apply W_length|apply W_file_offset]; assumption.
  - destruct H as (H1 & (H2 & _) & H3). unfold write_cmp_zero, write_arith_params. flat. pk.
    apply W_app; [apply W_length; assumption|].
    apply W_app; [apply W_vec|apply W_file_offset]; assumption.
  - destruct H as (H1 & (H2 & _) & (H3 & _) & H4). unfold write_cmp_value, write_arith_params. flat. pk.
    apply W_app; [apply W_length; assumption|]. apply W_app; [apply W_vec; assumption|].
    apply W_app; [apply W_vec|apply W_file_offset]; assumption.
  - destruct H as (H1 & (H2 & _) & H3 & H4). unfold write_cmp_other, write_arith_params. flat. pk.
    apply W_app; [apply W_length; assumption|]. apply W_app; [apply W_vec; assumption|].
    apply W_app; apply W_file_offset; assumption.
  - destruct H as (H1 & H2 & H3 & (H4 & _) & H5). unfold write_bitmap_range, write_range_params. flat. pk.
    apply W_app; [apply W_length; assumption|]. apply W_app; [apply W_length; assumption|].
    apply W_app; [apply W_length; assumption|].
    apply W_app; [apply W_vec|apply W_file_offset]; assumption.
  - destruct H as (H0 & H1 & (H2 & _) & (H3 & _) & H4). unfold write_string_search. flat. pk.
    apply W_app; [apply W_length; assumption|]. apply W_app; [apply W_vec; assumption|].
    apply W_app; [apply W_vec|apply W_file_offset]; assumption.
Qed.

(** ** interface *)
Lemma W_dash7_config {E : Env} v : wf_dash7_config v -> W (write_dash7_config v) (enc_dash7_config v).
Proof.
  intros (H1 & H2 & _ & H3). unfold write_dash7_config, enc_dash7_config, is_subiot.
  apply W_qos. apply W_app; [apply W_varint; assumption|].
  destruct e_feat; (apply W_app; [first [apply W_varint; assumption | apply W_nil] | apply W_addressee; assumption]).
Qed.
Lemma W_lorawan v w tl : wf_lorawan_config v -> W w tl ->
  W (write_lorawan_config v +++ w) (enc_lorawan_config v ++ tl).
Proof.
  intros (H1 & H2) H. unfold write_lorawan_config, enc_lorawan_config. flat. cbn [app]. pk.
  apply W_u8; [assumption|]. apply W_u8; assumption.
Qed.
Lemma W_interface_config {E : Env} v : wf_interface_config v ->
  W (write_interface_config v) (enc_interface_config v).
Proof.
  destruct v as [| |c|c|c|i]; cbn [wf_interface_config write_interface_config enc_interface_config]; intros H.
  - apply W_u8_last; reflexivity.
  - apply W_u8_last; reflexivity.
  - destruct H as (H1 & (H2 & _) & (H3 & _) & H4 & H5). apply W_u8; [reflexivity|].
    unfold write_abp. apply W_lorawan; [assumption|]. apply W_app; [apply W_vec; assumption|].
    apply W_app; [apply W_vec; assumption|]. apply W_app; apply W_native.
  - destruct H as (H1 & (H2 & _) & (H3 & _) & (H4 & _)). apply W_u8; [reflexivity|].
    unfold write_otaa. apply W_lorawan; [assumption|]. apply W_app; [apply W_vec; assumption|].
    apply W_app; apply W_vec; assumption.
  - apply W_u8; [reflexivity|]. apply W_dash7_config. assumption.
  - apply W_u8_last. apply H.
Qed.
Lemma W_indirect_interface {E : Env} v : wf_indirect_interface v ->
  W (write_indirect_interface v) (enc_indirect_interface v).
Proof.
  destruct v as [| |a|i]; cbn [wf_indirect_interface write_indirect_interface enc_indirect_interface]; intros H.
  - apply W_u8_last; reflexivity.
  - apply W_u8_last; reflexivity.
  - apply W_u8; [reflexivity|]. apply W_addressee. assumption.
  - apply W_u8_last. apply H.
Qed.

(** ** file *)
Lemma utf8_char_bytes c : scalar c -> bytes (utf8_char c).
Proof.
  unfold scalar, utf8_char, bytes. intros H.
  destruct (N.ltb_spec c 0x80); [repeat constructor; unfold byte; lia|].
  destruct (N.ltb_spec c 0x800); [repeat constructor; unfold byte; divlia|].
  destruct (N.ltb_spec c 0x10000); repeat constructor; unfold byte; divlia.
Qed.
Lemma is_utf8_bytes l : is_utf8 l -> bytes l.
Proof.
  intros (cs & H & ->). induction H as [|c cs Hc _ IH]; [constructor|].
  cbn [flat_map]. apply Forall_app. split; [apply utf8_char_bytes|]; assumption.
Qed.
Lemma W_string n s : length s = n -> bytes s -> W (write_string n s) s.
Proof.
  intros H Hb. unfold write_string. rewrite H, Nat.min_id, Nat.sub_diag. cbn [repeat].
  rewrite app_nil_r, <- H, firstn_all. apply W_vec. assumption.
Qed.
Lemma W_pad16 w tl : W w tl -> W (write_pad 16 +++ w) (0 :: 0 :: tl).
Proof. intros (-> & H). split; [reflexivity|]. repeat (constructor; [reflexivity|]). assumption. Qed.

Lemma W_file {E : Env} b f : wf_file b f -> W (write_file f) (enc_file f).
Proof.
  destruct f as [i p|a|v|v|v|a|v|v|v|k|l]; cbn [wf_file write_file enc_file].
  - intros (_ & _ & H). apply W_access_profile. assumption.
  - intros (_ & H). apply W_address. destruct a; try contradiction. exact H.
  - intros (_ & H). unfold wf_factory_settings in H. decompose [and] H; clear H.
    unfold write_factory_settings. cbn [flat_map app]. rewrite <- !app_assoc.
    repeat first [ apply W_i8; [assumption|] | apply W_u8; [assumption|]
                 | apply W_app; [apply W_u32|] | apply W_u16 | rewrite app_nil_l | progress cbn [app] ].
  - intros (_ & H1 & H2 & H3 & H4 & H5 & H6). unfold write_firmware_version.
    apply W_u8; [assumption|]. apply W_u8; [assumption|].
    apply W_app; apply W_string; auto using is_utf8_bytes.
  - intros (_ & H1 & H2 & H3 & H4). unfold write_engineering_mode. cbn [app].
    apply (W_u8 (eng_method_id (em_mode v))); [destruct (em_mode v); reflexivity|].
    apply W_u8; [assumption|]. apply W_u8; [assumption|].
    apply W_app; [apply W_channel; assumption|]. apply W_i8_last. assumption.
  - intros (_ & H). apply W_address. destruct a; try contradiction. exact H.
  - intros (_ & H1 & H2 & H3 & H4 & H5 & H6 & H7). unfold write_phy_status.
    repeat (apply W_app; [apply W_u32|]). apply W_app; [apply W_u16|]. cbn [app].
    apply W_u8; [assumption|]. apply W_list. eapply Forall_impl; [|exact H7]. apply W_channel_status.
  - intros (_ & H1 & H2 & H3 & H4 & H5). unfold write_dll_config.
    apply W_u8; [assumption|]. apply W_pad16.
    repeat (apply W_u8; [assumption|]). apply W_u8_last. assumption.
  - intros (_ & H1 & H2 & H3 & H4 & H5 & H6 & H7). unfold write_dll_status. cbn [app].
    repeat (apply W_u8; [assumption|]). apply W_channel_header.
    repeat (apply W_app; [apply W_u16|]). apply W_app; apply W_u32.
  - intros _. apply W_native.
  - intros (_ & H & _). apply W_vec. assumption.
Qed.

(** Encoded files fit the length prefix. *)
Lemma flat_map_length {A B} (f : A -> list B) n l :
  Forall (fun x => length (f x) = n) l -> length (flat_map f l) = (n * length l)%nat.
Proof.
  induction 1 as [|x l Hx _ IH]; cbn [flat_map length]; [lia|]. rewrite app_length, Hx, IH. lia.
Qed.
Lemma enc_file_length {E : Env} b f : wf_file b f -> wf_length (N.of_nat (length (enc_file f))).
Proof.
  destruct f as [i p|a|v|v|v|a|v|v|v|k|l]; cbn [wf_file enc_file].
  - intros (_ & _ & H1 & _ & H2 & _). unfold enc_access_profile. cbn [length].
    rewrite app_length, (flat_map_length enc_sub_profile 2), (flat_map_length enc_sub_band 7).
    + rewrite H1, H2. reflexivity.
    + apply Forall_forall. reflexivity.
    + apply Forall_forall. reflexivity.
  - intros (_ & H). destruct a; try contradiction; reflexivity.
  - reflexivity.
  - intros (_ & _ & _ & _ & H1 & _ & H2). cbn [length]. rewrite app_length, H1, H2. reflexivity.
  - reflexivity.
  - intros (_ & H). destruct a; try contradiction; reflexivity.
  - intros (_ & _ & _ & _ & _ & H5 & H6 & _). rewrite !app_length, !be_bytes_length.
    rewrite (flat_map_length enc_channel_status 3) by (apply Forall_forall; reflexivity).
    unfold u8 in H5. unfold wf_length. cbn [length]. lia.
  - reflexivity.
  - reflexivity.
  - intros _. unfold enc_native, le_bytes. destruct e_host; rewrite ?rev_length, be_bytes_length; reflexivity.
  - intros (_ & _ & H). exact H.
Qed.

(** ** operations *)
Lemma W_prefixed w l : W w l -> wf_length (N.of_nat (length l)) ->
  W (write_length_prefixed w) (enc_prefixed l).
Proof.
  intros (-> & Hb) Hl. unfold write_length_prefixed, to_bytes, rbind.
  rewrite bytes_of_bits_of_bytes by assumption. unfold enc_prefixed, length_of_usize.
  rewrite N.mod_small by (unfold wf_length in Hl; lia).
  apply W_app; [apply W_length; assumption|apply W_vec; assumption].
Qed.

Lemma file_id_try_from_ok {E : Env} b : b < 256 -> file_id_try_from b = Ok (file_id_of b).
Proof.
  intros H. unfold file_id_try_from, d_from_bytes, start. cbn [Nat.eqb].
  unfold read_file_id, bind. unfold read_u8.
  rewrite read_uint_ok by (try apply RWf_new; rewrite view_new; cbn; lia).
  rewrite view_new. cbn [bits_of_bytes]. rewrite app_nil_r, firstn_all2 by (rewrite bits_of_length; lia).
  rewrite N_of_bits_bits_of_small by exact H.
  unfold read_id_unit, file_id_is_pat.
  destruct (file_id_of b); destruct e_rewind; reflexivity.
Qed.

Lemma W_file_payload {E : Env} o f : u8 (fo_file_id o) -> wf_file (fo_file_id o) f ->
  W (write_file_payload f o) (enc_prefixed (enc_file f)).
Proof.
  intros Hu H. unfold write_file_payload. rewrite file_id_try_from_ok by exact Hu. cbn [rbind].
  apply W_prefixed; [eapply W_file|eapply enc_file_length]; eassumption.
Qed.

Lemma W_hdr h op w tl : op < 64 -> W w tl ->
  W (write_header h +++ write_opcode op +++ w) (hdr_byte h op :: tl).
Proof. intros Ho H. unfold write_header, write_opcode, hdr_byte, first_byte. flat. pk. exact H. Qed.

Lemma W_file_data {E : Env} op v : op < 64 -> wf_file_data op v -> W (write_file_data op v) (enc_file_data op v).
Proof.
  intros Ho (_ & H1 & H2). apply W_hdr; [assumption|].
  apply W_app; [apply W_file_offset; assumption|]. apply W_file_payload; [apply H1|assumption].
Qed.
Lemma W_file_id_op op v : op < 64 -> wf_file_id_op op v -> W (write_file_id_op op v) (enc_file_id_op op v).
Proof. intros Ho (_ & H). apply W_hdr; [assumption|]. apply W_u8_last. assumption. Qed.
Lemma W_file_properties op v : op < 64 -> wf_file_properties op v ->
  W (write_file_properties op v) (enc_file_properties op v).
Proof.
  intros Ho (_ & H1 & H2). apply W_hdr; [assumption|]. apply W_u8; [assumption|].
  apply W_file_header. assumption.
Qed.
Lemma W_action_query op v : op < 64 -> wf_action_query op v ->
  W (write_action_query op v) (enc_action_query op v).
Proof. intros Ho (_ & H). apply W_hdr; [assumption|]. apply W_query. assumption. Qed.
Lemma W_nop op v : op < 64 -> W (write_nop op v) [hdr_byte (nop_header v) op].
Proof.
  intros Ho. unfold write_nop, write_header, write_opcode, hdr_byte, first_byte. flat. pk.
Qed.

Lemma enc_dash7_status_length {E : Env} s : wf_dash7_status s ->
  wf_length (N.of_nat (length (enc_dash7_status s))).
Proof.
  intros (_ & _ & _ & _ & _ & _ & _ & H). unfold enc_dash7_status, enc_channel, enc_varint, enc_addressee.
  rewrite !app_length. cbn [length]. rewrite !app_length, !be_bytes_length.
  destruct H as (_ & _ & _ & _ & _ & H). unfold wf_length.
  assert (length (enc_address (ad_address (ds_addressee s))) <= 8)%nat.
  { destruct (ad_address (ds_addressee s)); cbn [enc_address enc_varint length]; rewrite ?be_bytes_length; lia. }
  assert (length (enc_nls_state (ad_state (ds_addressee s))) <= 5)%nat.
  { destruct (ad_state (ds_addressee s)); cbn in H |- *; try destruct H as (_ & ->); lia. }
  lia.
Qed.

Lemma W_status {E : Env} op v : wf_status_operand op v -> W (write_status (so_status v)) (enc_status (so_status v)).
Proof.
  intros (_ & H). destruct (so_status v) as [a|i|f]; cbn [write_status enc_status].
  - destruct (so_type v); try contradiction. destruct H as (H1 & H2).
    apply W_u8; [assumption|]. apply W_u8_last. assumption.
  - destruct (so_type v); try contradiction. unfold wf_itf_status_op in H. unfold write_itf_status_op.
    destruct i as [t s]. cbn [iso_type iso_status] in *.
    assert (P : W (write_length_prefixed (write_interface_status s)) (enc_prefixed (enc_interface_status s))).
    { destruct t, s; try contradiction; cbn [write_interface_status enc_interface_status];
        try (apply W_prefixed; [apply W_nil|reflexivity]).
      apply W_prefixed; [apply W_dash7_status; assumption|]. apply enc_dash7_status_length. assumption. }
    apply W_app; [|exact P].
    destruct t, s; try contradiction; cbn [code_itf_type]; unfold write_interface_type; cbn [interface_type_id];
      apply W_u8_last; reflexivity.
  - destruct (so_type v); try contradiction. destruct H as (_ & H). unfold wf_itf_final_op in H.
    unfold write_itf_final_op. destruct f as [i s]. cbn [ifo_id ifo_status] in *.
    destruct s as [c|l]; cbn [write_interface_final_status enc_interface_final].
    + subst i. apply W_u8; [reflexivity|]. apply W_prefixed; [|reflexivity].
      apply (W_u8_last (final_status_code_id c)). destruct c; reflexivity.
    + destruct H as (H1 & _ & H2 & H3). apply W_u8; [assumption|].
      apply W_prefixed; [apply W_vec|]; assumption.
Qed.

Lemma W_action {E : Env} a : wf_action a -> W (write_action a) (enc_action a).
Proof.
  destruct a as [v|v|v|v|v|v|v|v|v|v|v|v|v|v|v|v|v|v|v|v|v|v|v|v|v|v|v|v];
    cbn [wf_action enc_action write_action action_opcode]; intros H;
    lazymatch goal with
    | |- W (write_nop _ _) _ => apply W_nop; reflexivity
    | |- W (write_file_id_op _ _) _ => apply W_file_id_op; [reflexivity|assumption]
    | |- W (write_file_data _ _) _ => apply W_file_data; [reflexivity|assumption]
    | |- W (write_file_properties _ _) _ => apply W_file_properties; [reflexivity|assumption]
    | |- W (write_action_query _ _) _ => apply W_action_query; [reflexivity|assumption]
    | _ => idtac
    end.
  - destruct H as (_ & H1 & H2). apply W_hdr; [reflexivity|].
    apply W_app; [apply W_file_offset|apply W_length]; assumption.
  - destruct H as (_ & H). apply W_hdr; [reflexivity|].
    apply (W_u8 (permission_level_id (prq_level v))); [destruct (prq_level v); reflexivity|].
    destruct (prq_permission v) as [k]. cbn [write_permission]. apply W_u8; [reflexivity|].
    apply W_bytes. apply H.
  - destruct H as (_ & H1 & H2). apply W_hdr; [reflexivity|].
    apply W_u8; [assumption|]. apply W_u8_last. assumption.
  - unfold write_status_operand, write_status_type, write_opcode. pk. eapply W_status. eassumption.
  - destruct H as (_ & H). unfold write_response_tag, write_opcode, first_byte. flat. pk.
    apply W_u8_last. assumption.
  - contradiction.
  - unfold write_chunk, write_chunk_step, write_opcode. pk.
  - unfold write_logic, write_logic_op, write_opcode. pk.
  - destruct H as (_ & H). unfold write_forward, write_opcode, first_byte. flat. pk.
    apply W_interface_config. assumption.
  - destruct H as (_ & H). unfold write_indirect_forward, write_opcode, first_byte. flat. pk.
    destruct (if_overloaded v), (if_config v); try contradiction; cbn [write_opt].
    + apply W_indirect_interface. assumption.
    + apply W_nil.
  - destruct H as (_ & H). unfold write_request_tag, write_opcode, first_byte. flat. pk.
    apply W_u8_last. assumption.
Qed.

Lemma W_command {E : Env} c : Forall wf_action c -> W (write_command c) (enc_command c).
Proof. intros H. apply W_list. eapply Forall_impl; [|exact H]. apply W_action. Qed.

(** ** Use *)
Lemma W_to_bytes w l : W w l -> to_bytes w = Ok l.
Proof. intros (-> & H). unfold to_bytes, rbind. rewrite bytes_of_bits_of_bytes by assumption. reflexivity. Qed.
