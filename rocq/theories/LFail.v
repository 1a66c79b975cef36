(** When writers fail, and how many bits they write. *)
From Coq Require Import List NArith ZArith Bool Lia ZifyBool ZifyNat ZifyN Arith.
From Verif Require Import Base Deku Utils Types Physical Link Network Session Data Query
  Interface File Operation Action Command WellFormed SpecLayout SpecFail LBits LReader LTypes
  LUtf8 LLayout LRound LNumbers.
Import ListNotations.
Open Scope N_scope.

Definition badl (n : N) : bool := 2 ^ 30 <=? n.
Definition badv (n : N) : bool := 507904 <? n.
Definition badp (k : nat) : bool := 2 ^ 30 <=? N.of_nat k mod 2 ^ 32.

(** [w] writes the lengths [ls], the varints [vs] and prefixed payloads of sizes [ps]: it fails
    iff one of them cannot be written, and otherwise writes [n] bits. *)
Definition F (w : writer) (ls vs : list N) (ps : list nat) (n : nat) : Prop :=
  if existsb badl ls || existsb badv vs || existsb badp ps then w = Err EInvalidParam
  else exists l, w = Ok l /\ length l = n.

Lemma F_eq w ls vs ps n ls' vs' ps' n' : F w ls vs ps n -> ls = ls' -> vs = vs' -> ps = ps' -> n = n' ->
  F w ls' vs' ps' n'.
Proof. intros H <- <- <- <-. exact H. Qed.
Lemma F_ok l n : length l = n -> F (Ok l) [] [] [] n.
Proof. intros H. exists l. auto. Qed.
Lemma F_seq a b l1 v1 p1 n1 l2 v2 p2 n2 : F a l1 v1 p1 n1 -> F b l2 v2 p2 n2 ->
  F (a +++ b) (l1 ++ l2) (v1 ++ v2) (p1 ++ p2) (n1 + n2).
Proof.
  unfold F. rewrite !existsb_app.
  destruct (existsb badl l1), (existsb badv v1), (existsb badp p1); cbn [orb]; intros Ha;
    try (intros _; unfold wseq; rewrite Ha; rewrite ?orb_true_r; reflexivity).
  destruct Ha as (x & -> & Hx).
  destruct (existsb badl l2), (existsb badv v2), (existsb badp p2); cbn [orb]; intros Hb;
    try (rewrite Hb; reflexivity).
  destruct Hb as (y & -> & Hy). exists (x ++ y). split; [reflexivity|]. rewrite app_length. lia.
Qed.
Lemma F_nil : F wnil [] [] [] 0.
Proof. apply F_ok. reflexivity. Qed.
Lemma F_uint n v : F (write_uint n v) [] [] [] n.
Proof. apply F_ok, bits_of_length. Qed.
Lemma F_bool b : F (write_bool b) [] [] [] 1.
Proof. apply F_ok. reflexivity. Qed.
Lemma F_pad n : F (write_pad n) [] [] [] n.
Proof. apply F_ok, repeat_length. Qed.
Lemma F_native {E : Env} k v : F (write_native k v) [] [] [] (8 * k).
Proof. destruct (W_native k v) as (-> & _). apply F_ok. rewrite bits_of_bytes_length.
  unfold enc_native. destruct e_host; rewrite ?rev_length, be_bytes_length; reflexivity. Qed.
Lemma F_list {A} (w : A -> writer) lf vf pf nf l :
  (forall x, F (w x) (lf x) (vf x) (pf x) (nf x)) ->
  F (write_list w l) (flat_map lf l) (flat_map vf l) (flat_map pf l) (list_sum (map nf l)).
Proof.
  intros H. induction l as [|x l IH]; [apply F_nil|]. cbn [write_list flat_map map list_sum fold_right].
  apply F_seq; auto.
Qed.
Lemma flat_map_nil {A B} (l : list A) : flat_map (fun _ => @nil B) l = [].
Proof. induction l; auto. Qed.
Lemma flat_map_single {A B} (f : A -> B) l : flat_map (fun x => [f x]) l = map f l.
Proof. induction l as [|x l IH]; [reflexivity|]. cbn [flat_map map app]. rewrite IH. reflexivity. Qed.
Lemma list_sum_const {A} (l : list A) k : list_sum (map (fun _ => k) l) = (k * length l)%nat.
Proof. induction l as [|x l IH]; cbn [map list_sum fold_right length]; [lia|]. unfold list_sum in IH. rewrite IH. lia. Qed.
Lemma F_vec l : F (write_list write_u8 l) [] [] [] (8 * length l).
Proof.
  eapply F_eq; [apply (F_list write_u8 (fun _ => []) (fun _ => []) (fun _ => []) (fun _ => 8%nat)); intros; apply F_uint|..].
  all: try apply flat_map_nil. apply list_sum_const.
Qed.

Lemma extra_many v : 2 ^ 30 <= v -> 4 <= num_extra_bytes v.
Proof.
  intros H. assert (L : 30 <= N.log2 v).
  { change 30 with (N.log2 (2 ^ 30)). apply N.log2_le_mono. exact H. }
  unfold num_extra_bytes, required_bits. set (x := N.log2 v + 1 - 6). assert (Hx : 25 <= x) by (unfold x; lia).
  pose proof (N.div_mod' x 8) as D. pose proof (N.mod_lt x 8 ltac:(lia)) as M.
  destruct (N.ltb_spec 0 (x mod 8)); lia.
Qed.
Lemma write_length_fails v : 2 ^ 30 <= v -> write_length v = Err EInvalidParam.
Proof.
  intros H. pose proof (extra_many v H) as K. unfold write_length. set (k := num_extra_bytes v) in *.
  unfold write_bitsize at 1. change (Nat.ltb 32 2) with false. unfold write_bitsize.
  destruct (Nat.ltb_spec 32 (N.to_nat (6 + k * 8))); [reflexivity|lia].
Qed.
Lemma enc_length_size v : length (enc_length v) = length_size v.
Proof.
  unfold enc_length, length_size. destruct (v <? 2 ^ 6); [reflexivity|].
  destruct (v <? 2 ^ 14); [apply be_bytes_length|]. destruct (v <? 2 ^ 22); apply be_bytes_length.
Qed.
Lemma F_length v : F (write_length v) [v] [] [] (8 * length_size v).
Proof.
  unfold F. cbn [existsb orb]. rewrite !orb_false_r. unfold badl. destruct (N.leb_spec (2 ^ 30) v) as [L|L].
  - apply write_length_fails. exact L.
  - destruct (W_length v L) as (-> & _). eexists. split; [reflexivity|].
    rewrite bits_of_bytes_length, enc_length_size. reflexivity.
Qed.
Lemma F_varint v : F (write_varint v) [] [vi_value v] [] 8.
Proof.
  unfold F. cbn [existsb orb]. rewrite !orb_false_r. unfold badv, write_varint. destruct (N.ltb_spec 507904 (vi_value v)) as [L|L].
  - rewrite compress_too_large by exact L. reflexivity.
  - destruct (compress_in_range (vi_value v) (vi_ceil v) L) as (e & m & -> & _). eexists. split; [reflexivity|].
    rewrite app_length, !bits_of_length. reflexivity.
Qed.
Lemma F_prefixed w ls vs ps n k : F w ls vs ps n -> n = (8 * k)%nat ->
  F (write_length_prefixed w) ls vs (ps ++ [k]) (8 * prefixed_size k).
Proof.
  intros H ->. unfold F in *. rewrite existsb_app. cbn [existsb]. rewrite orb_false_r.
  unfold write_length_prefixed, to_bytes.
  destruct (existsb badl ls), (existsb badv vs), (existsb badp ps); cbn [orb] in *; try (rewrite H; reflexivity).
  destruct H as (l & -> & Hl). cbn [rbind]. pose proof (bytes_of_bits_length l k Hl) as Hb. rewrite Hb.
  unfold length_of_usize, badp. pose proof (F_length (N.of_nat k mod 2 ^ 32)) as HF.
  pose proof (F_vec (bytes_of_bits l)) as HV. rewrite Hb in HV.
  pose proof (F_seq _ _ _ _ _ _ _ _ _ _ HF HV) as HS. unfold F in HS. cbn [app existsb orb] in HS.
  rewrite !orb_false_r in HS. unfold badl in HS. destruct (2 ^ 30 <=? N.of_nat k mod 2 ^ 32); [exact HS|].
  destruct HS as (x & Ex & Hx). exists x. split; [exact Ex|]. unfold prefixed_size. lia.
Qed.

Ltac f_side := cbn [app length]; rewrite ?app_nil_r; (reflexivity || lia).
Ltac f_step := first [apply F_length | apply F_varint | apply F_native | apply F_vec | apply F_bool | apply F_pad
  | apply F_nil | apply F_uint].

Lemma F_file_offset v : F (write_file_offset v) [fo_offset v] [] [] (8 * offset_size v).
Proof. eapply F_eq; [eapply F_seq; f_step|..]; unfold offset_size; f_side. Qed.
Lemma F_channel_header v : F (write_channel_header v) [] [] [] 8.
Proof. eapply F_eq; [repeat eapply F_seq; f_step|..]; f_side. Qed.
Lemma F_channel v : F (write_channel v) [] [] [] 24.
Proof. eapply F_eq; [eapply F_seq; [apply F_channel_header|f_step]|..]; f_side. Qed.
Lemma F_channel_status v : F (write_channel_status v) [] [] [] 24.
Proof. eapply F_eq; [eapply F_seq; [repeat eapply F_seq; f_step|f_step]|..]; f_side. Qed.
Lemma F_sub_band v : F (write_sub_band v) [] [] [] 56.
Proof. eapply F_eq; [repeat eapply F_seq; f_step|..]; f_side. Qed.
Lemma F_sub_profile v : F (write_sub_profile v) [] [vi_value (sp_period v)] [] 16.
Proof. eapply F_eq; [repeat eapply F_seq; f_step|..]; f_side. Qed.
Lemma F_access_class v : F (write_access_class v) [] [] [] 8.
Proof. eapply F_eq; [repeat eapply F_seq; f_step|..]; f_side. Qed.
Lemma F_access_profile i p : F (write_access_profile p) [] (file_varints (FAccessProfile i p)) []
  (8 * file_size (FAccessProfile i p)).
Proof.
  eapply F_eq; [eapply F_seq; [apply F_channel_header|eapply F_seq]|..].
  - apply (F_list write_sub_profile (fun _ => []) (fun s => [vi_value (sp_period s)]) (fun _ => []) (fun _ => 16%nat)).
    apply F_sub_profile.
  - apply (F_list write_sub_band (fun _ => []) (fun _ => []) (fun _ => []) (fun _ => 56%nat)). apply F_sub_band.
  - rewrite !flat_map_nil. reflexivity.
  - rewrite flat_map_nil, app_nil_r, flat_map_single. reflexivity.
  - rewrite !flat_map_nil. reflexivity.
  - rewrite !list_sum_const. cbn [file_size]. lia.
Qed.
Lemma F_address a : F (write_address a) [] (address_varints a) [] (8 * address_size a).
Proof. destruct a; cbn [write_address address_varints address_size]; first [apply F_varint|apply F_nil|apply F_uint]. Qed.
Lemma F_nls_state s : F (write_nls_state s) [] [] [] (8 * state_size s).
Proof. destruct s; cbn [write_nls_state state_size]; first [apply F_nil|apply F_vec]. Qed.
Lemma F_addressee {E : Env} a : F (write_addressee a) [] (address_varints (ad_address a)) [] (8 * addressee_size a).
Proof.
  unfold write_addressee, write_nls_method, nls_bits. destruct is_wizzilab.
  - eapply F_eq; [repeat (eapply F_seq; [first [apply F_access_class|apply F_address|f_step]|]); apply F_nls_state|..];
      unfold addressee_size; cbn [app]; rewrite ?app_nil_r; (reflexivity || lia).
  - eapply F_eq; [repeat (eapply F_seq; [first [apply F_access_class|apply F_address|f_step]|]); apply F_nls_state|..];
      unfold addressee_size; cbn [app]; rewrite ?app_nil_r; (reflexivity || lia).
Qed.
Ltac f_next := lazymatch goal with
  | |- F (write_file_offset _) _ _ _ _ => apply F_file_offset
  | |- F (write_channel_header _) _ _ _ _ => apply F_channel_header
  | |- F (write_channel _) _ _ _ _ => apply F_channel
  | |- F (write_addressee _) _ _ _ _ => apply F_addressee
  | |- F (write_length _) _ _ _ _ => apply F_length
  | |- F (write_varint _) _ _ _ _ => apply F_varint
  | |- F (write_native _ _) _ _ _ _ => apply F_native
  | |- F (write_list write_u8 _) _ _ _ _ => apply F_vec
  | |- F (write_vec_u8 _) _ _ _ _ => apply F_vec
  | |- F (write_bool _) _ _ _ _ => apply F_bool
  | |- F (write_pad _) _ _ _ _ => apply F_pad
  | |- F wnil _ _ _ _ => apply F_nil
  | |- F _ _ _ _ _ => apply F_uint
  end.
Ltac f_all := repeat lazymatch goal with
  | |- F (wseq _ _) _ _ _ _ => eapply F_seq
  | |- F _ _ _ _ _ => f_next
  end.

Lemma file_id_any {E : Env} b : exists i, file_id_try_from b = Ok i.
Proof.
  unfold file_id_try_from, d_from_bytes, start. cbn [Nat.eqb]. unfold read_file_id, bind. unfold read_u8.
  rewrite read_uint_ok by (try apply RWf_new; rewrite view_new; cbn; lia).
  unfold read_id_unit, file_id_is_pat.
  destruct (file_id_of _); destruct e_rewind; eexists; reflexivity.
Qed.

Lemma F_dash7_status {E : Env} v : F (write_dash7_status v) [] (itf_status_varints (IsDash7 v)) []
  (8 * itf_status_size (IsDash7 v)).
Proof. eapply F_eq; [unfold write_dash7_status; f_all|..]; cbn [itf_status_size itf_status_varints]; f_side. Qed.
Lemma F_interface_status {E : Env} s : F (write_interface_status s) [] (itf_status_varints s) [] (8 * itf_status_size s).
Proof. destruct s; [apply F_nil|apply F_nil|apply F_dash7_status|apply F_vec]. Qed.
Lemma F_interface_final s : F (write_interface_final_status s) [] [] [] (8 * final_size s).
Proof. destruct s; [apply F_uint|apply F_vec]. Qed.
Lemma F_interface_tx {E : Env} s : F (write_interface_tx_status s) []
  match s with TxDash7 s => address_varints (ad_address (tx_addressee s)) | TxOther _ => [] end [] (8 * tx_size s).
Proof.
  destruct s; [|apply F_vec]. eapply F_eq; [unfold write_interface_tx_status, write_dash7_tx_status, write_i8; f_all|..];
    cbn [tx_size]; f_side.
Qed.
Lemma F_query q : F (write_query q) (query_lengths q) [] [] (8 * query_size q).
Proof.
  unfold write_query. destruct q; (eapply F_eq; [eapply F_seq; [f_next|];
    unfold write_non_void, write_cmp_zero, write_cmp_value, write_cmp_other, write_bitmap_range, write_string_search,
      write_arith_params, write_range_params, write_vec_u8;
    f_all|..]);
    unfold query_size; cbn [query_lengths]; f_side.
Qed.
Lemma F_file_header v : F (write_file_header v) [] [] [] 96.
Proof.
  unfold write_file_header, write_file_permissions, write_fs_properties, write_user_permissions.
  eapply F_eq; [f_all|..]; f_side.
Qed.
Lemma F_string n s : F (write_string n s) [] [] [] (8 * n).
Proof.
  unfold write_string. eapply F_eq; [apply F_vec|..]; try reflexivity.
  rewrite app_length, repeat_length, firstn_length. lia.
Qed.
Ltac f_all ::= repeat lazymatch goal with
  | |- F (wseq _ _) _ _ _ _ => eapply F_seq
  | |- F (write_query _) _ _ _ _ => apply F_query
  | |- F (write_file_header _) _ _ _ _ => apply F_file_header
  | |- F (write_string _ _) _ _ _ _ => apply F_string
  | |- F _ _ _ _ _ => f_next
  end.
Lemma F_file {E : Env} f : F (write_file f) [] (file_varints f) [] (8 * file_size f).
Proof.
  destruct f; cbn [write_file file_varints].
  - apply (F_access_profile i p).
  - apply F_address.
  - eapply F_eq; [unfold write_factory_settings, write_i8; f_all|..]; cbn [file_size]; f_side.
  - eapply F_eq; [unfold write_firmware_version; f_all|..]; cbn [file_size]; f_side.
  - eapply F_eq; [unfold write_engineering_mode, write_i8; f_all|..]; cbn [file_size]; f_side.
  - apply F_address.
  - eapply F_eq; [unfold write_phy_status; repeat (eapply F_seq; [f_next|]);
      apply (F_list write_channel_status (fun _ => []) (fun _ => []) (fun _ => []) (fun _ => 24%nat)); apply F_channel_status|..];
      rewrite ?flat_map_nil, ?list_sum_const; cbn [file_size]; f_side.
  - eapply F_eq; [unfold write_dll_config; f_all|..]; cbn [file_size]; f_side.
  - eapply F_eq; [unfold write_dll_status; f_all|..]; cbn [file_size]; f_side.
  - apply F_native.
  - apply F_vec.
Qed.
Lemma F_file_data {E : Env} op v : F (write_file_data op v) [fo_offset (fd_offset v)] (file_varints (fd_data v))
  [file_size (fd_data v)] (8 * (1 + (offset_size (fd_offset v) + prefixed_size (file_size (fd_data v))))).
Proof.
  unfold write_file_data, write_header, write_file_payload.
  destruct (file_id_any (fo_file_id (fd_offset v))) as (i & ->). cbn [rbind].
  eapply F_eq; [eapply F_seq; [eapply F_seq; f_next|eapply F_seq; [f_next|eapply F_seq; [f_next|
    eapply F_prefixed; [apply F_file|reflexivity]]]]|..]; f_side.
Qed.
Lemma F_interface_config {E : Env} c : F (write_interface_config c) []
  match c with IcDash7 c => dash7_config_varints c | _ => [] end [] (8 * interface_config_size c).
Proof.
  destruct c; cbn [write_interface_config].
  1, 2, 6: apply F_uint.
  - eapply F_eq; [unfold write_abp, write_lorawan_config, write_vec_u8; f_all|..]; cbn [interface_config_size]; f_side.
  - eapply F_eq; [unfold write_otaa, write_lorawan_config, write_vec_u8; f_all|..]; cbn [interface_config_size]; f_side.
  - unfold write_dash7_config, is_subiot, dash7_config_varints, interface_config_size. destruct e_feat;
      (eapply F_eq; [unfold write_qos; f_all|..]; f_side).
Qed.

(** Bits beyond the last whole byte. *)
Definition odd_bits (a : action) : nat := match a with ATxStatus _ => 6 | _ => 0 end.
Lemma F_action {E : Env} a : F (write_action a) (lengths_of a) (varints_of a) (payloads_of a) (8 * size_of a + odd_bits a).
Proof.
  destruct a; cbn [write_action lengths_of varints_of payloads_of odd_bits]; unfold size_of;
    lazymatch goal with
    | |- F (write_file_data _ _) _ _ _ _ => eapply F_eq; [apply F_file_data|reflexivity..|lia]
    | |- F (write_status_operand _ _) _ _ _ _ => idtac
    | |- F (write_tx_status_op _ _) _ _ _ _ => idtac
    | |- F (write_forward _ _) _ _ _ _ => idtac
    | |- F (write_indirect_forward _ _) _ _ _ _ => idtac
    | |- F (write_permission_request _ _) _ _ _ _ => idtac
    | |- _ =>
    unfold write_nop, write_read_file_data, write_file_id_op, write_action_query, write_copy_file,
      write_response_tag, write_chunk, write_logic, write_request_tag, write_file_properties, write_header;
    (eapply F_eq; [f_all|..]; f_side)
    end.
  - unfold write_permission_request, write_header. destruct (prq_permission v) as [k]. unfold write_permission. eapply F_eq; [f_all|..]; f_side.
  - unfold write_status_operand. destruct (so_status v) as [s|s|s]; cbn [write_status].
    + eapply F_eq; [unfold write_action_status; f_all|..]; f_side.
    + unfold write_itf_status_op, write_interface_type.
      assert (HT : F match interface_type_id (iso_type s) with Ok n => write_u8 n | _ => wnil end [] [] [] (8 * itf_type_size (iso_type s))).
      { destruct (iso_type s); first [apply F_uint|apply F_nil]. }
      eapply F_eq; [eapply F_seq; [f_next|eapply F_seq; [f_next|eapply F_seq; [exact HT|
        eapply F_prefixed; [apply F_interface_status|reflexivity]]]]|..]; f_side.
    + eapply F_eq; [eapply F_seq; [f_next|eapply F_seq; [f_next|eapply F_seq; [f_next|
        eapply F_prefixed; [apply F_interface_final|reflexivity]]]]|..]; f_side.
  - unfold write_tx_status_op. eapply F_eq; [do 4 (eapply F_seq; [f_next|]); eapply F_prefixed; [apply F_interface_tx|reflexivity]|..]; f_side.
  - unfold write_forward. eapply F_eq; [do 3 (eapply F_seq; [f_next|]); apply F_interface_config|..]; f_side.
  - unfold write_indirect_forward. destruct (if_config v) as [c|]; cbn [write_opt].
    + destruct c; cbn [write_indirect_interface]; (eapply F_eq; [f_all|..]; f_side).
    + eapply F_eq; [f_all|..]; f_side.
Qed.
