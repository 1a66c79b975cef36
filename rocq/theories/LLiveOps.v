(** The readers of the operands: where they run out of input, some continuation is accepted. *)
From Coq Require Import List NArith ZArith Bool Lia ZifyBool ZifyNat ZifyN Arith.
From Verif Require Import Base Deku Utils Types Physical Link Network Session Data Query
  Interface File Operation Action Command WellFormed SpecLayout SpecDecode LBits LReader LLayout LNiceOps
  LDecode LDecodeTypes LDecodeOps LDecodeAct LDecodeCmd LDecodeTx LJoin LLive.
Import ListNotations.
Open Scope N_scope.

Create HintDb st.
Create HintDb lv.
#[global] Hint Resolve St_some Liv_u16 Liv_u32 Liv_u64 Liv_byte Liv_i8 Liv_native_4 Liv_native_16 Liv_bytes_5 Liv_bytes_8 Liv_vec : lv.
#[global] Hint Resolve St_some : st.
Ltac st := repeat first
  [ solve [auto with st nocore] | apply St_give; exact I | apply (St_one _ 0); [reflexivity|exact I]
  | apply St_bind with (P := Any); [loc| |intros ? _] | apply St_times; [loc|] ].
Ltac lv := repeat first
  [ solve [auto with lv nocore] | apply Liv_ret | apply Liv_fail; discriminate
  | apply Liv_bind with (P := Any); [|intros ?|intros ? _; solve [st]] ].

Lemma St_num k : St (num k) Any. Proof. unfold num. st. Qed.
Lemma St_host {E : Env} k : St (host_num k) Any. Proof. unfold host_num. st. Qed.
Lemma St_signed : St signed Any. Proof. unfold signed. st. Qed.
#[global] Hint Resolve St_num St_host St_signed : st.
Lemma St_length : St dec_length Any. Proof. unfold dec_length. st. Qed.
Lemma St_varint : St dec_varint Any. Proof. unfold dec_varint. st. Qed.
#[global] Hint Resolve St_length St_varint : st.
Lemma St_file_offset : St dec_file_offset Any. Proof. unfold dec_file_offset. st. Qed.
Lemma St_channel_header : St dec_channel_header Any. Proof. witness [0]. Qed.
#[global] Hint Resolve St_file_offset St_channel_header : st.
Lemma St_channel : St dec_channel Any. Proof. unfold dec_channel. st. Qed.
Lemma St_channel_status : St dec_channel_status Any. Proof. witness [0; 0; 0]. Qed.
Lemma St_sub_band : St dec_sub_band Any. Proof. unfold dec_sub_band. st. Qed.
Lemma St_sub_profile : St dec_sub_profile Any. Proof. unfold dec_sub_profile. st. Qed.
#[global] Hint Resolve St_channel St_channel_status St_sub_band St_sub_profile : st.
Lemma St_access_profile : St dec_access_profile Any. Proof. unfold dec_access_profile. st. Qed.
Lemma St_address t : St (dec_address t) Any. Proof. destruct t; cbn [dec_address]; st. Qed.
Lemma St_nls m : St (dec_nls_state m) Any. Proof. destruct m; cbn [dec_nls_state]; st. Qed.
#[global] Hint Resolve St_access_profile St_address St_nls : st.
Lemma St_addressee {E : Env} : St dec_addressee Any.
Proof. destruct E as [[] h w]; witness [16; 0]. Qed.
Lemma St_qos : St dec_qos Any. Proof. witness [0]. Qed.
#[global] Hint Resolve St_addressee St_qos : st.
Lemma St_dash7_status {E : Env} : St dec_dash7_status Any. Proof. unfold dec_dash7_status. st. Qed.
Lemma St_final : St dec_final Any. Proof. witness [0]. Qed.
Lemma St_file_header : St dec_file_header Any. Proof. witness [0; 0; 0; 0; 0; 0; 0; 0; 0; 0; 0; 0]. Qed.
#[global] Hint Resolve St_dash7_status St_final St_file_header : st.
Lemma St_query : St dec_query Any. Proof. witness [0; 0; 0; 0]. Qed.
Lemma St_dash7_config {E : Env} : St dec_dash7_config Any. Proof. unfold dec_dash7_config. destruct e_feat; st. Qed.
Lemma St_lorawan : St dec_lorawan Any. Proof. unfold dec_lorawan. st. Qed.
Lemma St_interface_config {E : Env} : St dec_interface_config Any. Proof. witness [0]. Qed.
Lemma St_indirect_interface {E : Env} : St dec_indirect_interface Any. Proof. witness [0]. Qed.
#[global] Hint Resolve St_query St_dash7_config St_lorawan St_interface_config St_indirect_interface : st.
Lemma St_text n : St (text n) Any.
Proof.
  exists (repeat 0 (N.to_nat n)), (repeat 0 (N.to_nat n)). split; [apply bytes_repeat|]. split; [|exact I]. unfold text, andthen.
  pose proof (fill n [] ) as F. cbn [length app] in F. rewrite Nat.sub_0_r in F.
  destruct (N.to_nat n) as [|k] eqn:En.
  - assert (n = 0) by lia. subst n. reflexivity.
  - rewrite F by lia. assert (U : forall j, utf8_valid (repeat 0 j) = true) by (induction j; [reflexivity|exact IHj]).
    rewrite U. reflexivity.
Qed.
#[global] Hint Resolve St_text : st.
Lemma St_eng : St (let* b := one in named code_eng [EmOff; EmContTx; EmTransientTx; EmPerRx; EmPerTx] b) Any.
Proof. witness [0]. Qed.
Lemma St_file {E : Env} id n : St (dec_file id n) Any.
Proof.
  unfold dec_file.
  destruct (id =? 0); [st|]. destruct (id =? 1); [st|]. destruct (id =? 2); [st|].
  destruct (id =? 5); [witness [0; 0; 0; 0; 0; 0; 0]|]. destruct (id =? 6); [st|]. destruct (id =? 9); [st|].
  destruct (id =? 10); [st|]. destruct (id =? 11); [st|]. destruct (id =? 14); [st|].
  destruct (_ && _); st.
Qed.
#[global] Hint Resolve St_file : st.

(** ** Readers *)
Ltac one_byte d := apply Liv_group; [exact d|loc|ni|].
Lemma Liv_varint : Liv read_varint dec_varint Any.
Proof. one_byte Dec_varint; [apply NI_fail; destruct v1; discriminate|]. st. Qed.
Lemma Liv_length : Liv read_length dec_length Any.
Proof.
  split; [apply Dec_A, Dec_length|]. split; [apply Loc_length|]. intros r Hr Hl He _.
  pose proof (Dec_length r Hr) as H. unfold DecAt in H.
  destruct (octets (view r)) as [|b tl] eqn:Eo; [exact St_length|].
  exists (repeat 0 (N.to_nat (b / 64) - length tl)). eexists. split; [apply bytes_repeat|]. split; [|exact I].
  cbn [app]. unfold dec_length, andthen, one in *. unfold num, andthen in *.
  destruct (some_bytes (b / 64) tl) as [[x y]|] eqn:Es; [destruct H as (k & _ & _ & H); congruence|].
  rewrite fill; [reflexivity|]. unfold some_bytes in Es. destruct (N.leb_spec (b / 64) (N.of_nat (length tl))); [discriminate|]. lia.
Qed.
#[global] Hint Resolve Liv_varint Liv_length : lv.
Lemma Liv_file_offset : Liv read_file_offset dec_file_offset Any.
Proof. unfold read_file_offset, dec_file_offset. lv. Qed.
Lemma Liv_channel_header : Liv read_channel_header dec_channel_header Any.
Proof. one_byte Dec_channel_header. st. Qed.
#[global] Hint Resolve Liv_file_offset Liv_channel_header : lv.
Lemma Liv_channel : Liv read_channel dec_channel Any.
Proof. unfold read_channel, dec_channel. lv. Qed.
Lemma Liv_sub_band : Liv read_sub_band dec_sub_band Any.
Proof. unfold read_sub_band, dec_sub_band. lv. Qed.
Lemma Liv_sub_profile : Liv read_sub_profile dec_sub_profile Any.
Proof. unfold read_sub_profile, dec_sub_profile. lv. Qed.
#[global] Hint Resolve Liv_channel Liv_sub_band Liv_sub_profile : lv.

Lemma Liv_g_csi : Liv g_csi d_csi Any.
Proof. apply Liv_group; [exact Dec_g_csi|unfold d_csi; loc|unfold g_csi, read_channel_band, read_bandwidth; ni|witness [0]]. Qed.
Lemma Liv_channel_status : Liv read_channel_status dec_channel_status Any.
Proof.
  eapply Liv_ext with (m := x <- g_csi ;; y <- read_u8 ;; n <- read_u8 ;;
     ret (mkChannelStatus (mkChannelStatusIdentifier (fst (fst x)) (snd (fst x)) (snd x * 2 ^ N.of_nat 8 + y)) n)).
  - apply Liv_bind with (P := Any) (D := d_csi)
      (K := fun x => let* y := one in let* n := one in
         give (mkChannelStatus (mkChannelStatusIdentifier (fst (fst x)) (snd (fst x)) (snd x * 2 ^ N.of_nat 8 + y)) n));
      [exact Liv_g_csi|intros x; lv|intros x _; st].
  - intros r Hr. unfold read_channel_status, read_channel_status_identifier, g_csi.
    transitivity ((b <- read_channel_band ;; w <- read_bandwidth ;; i <- read_uint 3 ;; y <- read_uint 8 ;;
      n <- read_u8 ;; ret (mkChannelStatus (mkChannelStatusIdentifier b w (i * 2 ^ N.of_nat 8 + y)) n)) r); [|revert r Hr; rsame].
    transitivity ((b <- read_channel_band ;; w <- read_bandwidth ;; i <- read_uint 11 ;;
      n <- read_u8 ;; ret (mkChannelStatus (mkChannelStatusIdentifier b w i) n)) r); [revert r Hr; rsame|].
    revert r Hr. eapply bind_same; [apply PB_enum|]. intros b. eapply bind_same; [apply PB_enum|]. intros w r Hr.
    unfold bind at 1. change 11%nat with (3 + 8)%nat. rewrite read_uint_split by assumption. revert r Hr. rsame.
  - intros l. unfold dec_channel_status, d_csi, andthen, give. destruct l as [|a l]; [reflexivity|]. cbn [one].
    destruct l as [|b l].
    + unfold named. destruct (find _ all_bands); [|reflexivity]. unfold give. destruct (find _ [KHz200; KHz25]); reflexivity.
    + unfold named. destruct (find _ all_bands); [|reflexivity]. unfold give. destruct (find _ [KHz200; KHz25]); [|reflexivity].
      destruct l as [|n l]; [reflexivity|]. cbn [one fst snd]. do 5 f_equal. change (2 ^ N.of_nat 8) with 256. lia.
Qed.
Lemma Liv_access_profile : Liv read_access_profile dec_access_profile Any.
Proof.
  unfold read_access_profile, dec_access_profile, read_array. apply Liv_bind with (P := Any); [exact Liv_channel_header|intros h|intros; st].
  apply Liv_bind with (P := Any); [apply (Liv_times 4), St_sub_profile; exact Liv_sub_profile|intros p|intros; st].
  apply Liv_bind with (P := Any); [apply (Liv_times 8), St_sub_band; exact Liv_sub_band|intros b; apply Liv_ret|intros; st].
Qed.
#[global] Hint Resolve Liv_channel_status Liv_access_profile : lv.
Lemma Liv_access_class : Liv read_access_class (let* k := one in give (mkAccessClass (part 4 4 k) (part 0 4 k))) Any.
Proof. one_byte Dec_access_class. st. Qed.
Lemma Liv_address t : Liv (read_address t) (dec_address t) Any.
Proof. destruct t; cbn [read_address dec_address]; lv. Qed.
Lemma Liv_nls_state n : Liv (read_nls_state n) (dec_nls_state n) Any.
Proof. destruct n; cbn [read_nls_state dec_nls_state]; lv. Qed.
Lemma Liv_control {E : Env} : Liv g_control d_control Any.
Proof.
  apply Liv_group; [exact Dec_control|unfold d_control; loc| |].
  - destruct E as [f h w]. unfold g_control, is_wizzilab, read_nls_method, nls_bits, is_wizzilab, read_group_condition, read_address_type.
    cbn [e_feat]. destruct f; cbn [e_feat].
    1-2: apply (NI_bind _ 2); [lia| |]; [ni|intros g; ni].
    ni.
  - destruct E as [[] h w]; witness [16].
Qed.
#[global] Hint Resolve Liv_access_class Liv_address Liv_nls_state : lv.
Lemma Liv_addressee {E : Env} : Liv read_addressee dec_addressee Any.
Proof.
  eapply Liv_ext with (m := x <- g_control ;; c <- read_access_class ;; a <- read_address (snd (fst (fst x))) ;;
     s <- read_nls_state (snd x) ;;
     ret (mkAddressee (fst (fst (fst x))) (snd (fst (fst x))) (snd (fst x)) (snd x) c a s))
    (D := let* x := d_control in let* c := (let* k := one in give (mkAccessClass (part 4 4 k) (part 0 4 k))) in
     let* a := dec_address (snd (fst (fst x))) in let* s := dec_nls_state (snd x) in
     give (mkAddressee (fst (fst (fst x))) (snd (fst (fst x))) (snd (fst x)) (snd x) c a s)).
  - apply Liv_bind with (P := Any); [exact Liv_control|intros x; lv|intros x _; st].
  - unfold read_addressee, g_control. destruct E as [[] h w]; unfold is_wizzilab; cbn [e_feat]; rsame.
  - intros l. unfold dec_addressee, d_control. destruct E as [[] h w]; cbn [e_feat]; revert l; dsame.
Qed.
Lemma Liv_qos : Liv read_qos dec_qos Any.
Proof. one_byte Dec_qos. st. Qed.
Lemma Liv_flags : Liv g_flags (let* f := one in give (flag 7 f, flag 6 f, flag 5 f, flag 4 f)) Any.
Proof. one_byte Dec_flags. st. Qed.
Lemma Liv_final : Liv read_final_status_code dec_final Any.
Proof. one_byte Dec_final. st. Qed.
#[global] Hint Resolve Liv_addressee Liv_qos Liv_flags Liv_final : lv.
Lemma Liv_dash7_status {E : Env} : Liv read_dash7_status dec_dash7_status Any.
Proof.
  eapply Liv_ext with (m := c <- read_channel ;; rx <- read_u8 ;; lb <- read_u8 ;; tr <- read_u8 ;; x <- g_flags ;;
    f <- read_u8 ;; s <- read_u8 ;; t <- read_varint ;; ad <- read_addressee ;;
    ret (mkDash7Status c rx lb tr (fst (fst (fst x))) (snd (fst (fst x))) (snd (fst x)) (snd x) f s t ad))
    (D := let* c := dec_channel in let* rx := one in let* lb := one in let* tr := one in
    let* x := (let* f := one in give (flag 7 f, flag 6 f, flag 5 f, flag 4 f)) in
    let* f := one in let* s := one in let* t := dec_varint in let* ad := dec_addressee in
    give (mkDash7Status c rx lb tr (fst (fst (fst x))) (snd (fst (fst x))) (snd (fst x)) (snd x) f s t ad)).
  - lv.
  - unfold read_dash7_status, g_flags. rsame.
  - unfold dec_dash7_status. dsame.
Qed.
Lemma Liv_permissions : Liv read_file_permissions
  (let* p := one in give (mkFilePerm (flag 7 p) (flag 6 p) (mkUserPerm (flag 5 p) (flag 4 p) (flag 3 p))
                           (mkUserPerm (flag 2 p) (flag 1 p) (flag 0 p)))) Any.
Proof.
  one_byte Dec_permissions; [|st].
  apply (NI_bind _ 3); [cbn; lia|ni|intros ?]. apply (NI_bind _ 3); [cbn; lia|ni|intros ?]. ni.
Qed.
Lemma Liv_fs_properties : Liv read_fs_properties
  (let* q := one in
   let* c := named code_condition [AcList; AcRead; AcWrite; AcWriteFlush] (part 4 3 q) in
   let* s := named code_storage [Transient; Volatile; Restorable; Permanent] (part 0 2 q) in
   give (mkFsProp (flag 7 q) c s)) Any.
Proof. one_byte Dec_fs_properties. witness [0]. Qed.
Lemma Liv_file_header : Liv read_file_header dec_file_header Any.
Proof.
  eapply Liv_ext with (m := read_file_header)
    (D := let* p := (let* p := one in give (mkFilePerm (flag 7 p) (flag 6 p) (mkUserPerm (flag 5 p) (flag 4 p) (flag 3 p))
                           (mkUserPerm (flag 2 p) (flag 1 p) (flag 0 p)))) in
     let* q := (let* q := one in
   let* c := named code_condition [AcList; AcRead; AcWrite; AcWriteFlush] (part 4 3 q) in
   let* s := named code_storage [Transient; Volatile; Restorable; Permanent] (part 0 2 q) in
   give (mkFsProp (flag 7 q) c s)) in
     let* a := one in let* i := one in let* size := num 4 in let* alloc := num 4 in
     give (mkFileHeader p q a i size alloc)).
  - unfold read_file_header. apply Liv_bind with (P := Any); [exact Liv_permissions|intros p|intros p _].
    + apply Liv_bind with (P := Any); [exact Liv_fs_properties|intros q; lv|intros q _; st].
    + apply St_bind with (P := Any); [loc|witness [0]|intros q _; st].
  - reflexivity.
  - unfold dec_file_header. dsame.
Qed.
#[global] Hint Resolve Liv_dash7_status Liv_file_header : lv.

(** ** query *)
Lemma Liv_g_query : Liv g_query d_query Any.
Proof.
  apply Liv_group; [exact Dec_g_query|unfold d_query; loc| |witness [0]].
  unfold g_query. apply (NI_bind _ 3); [lia|apply NI_uint|intros x]. cbn [assoc].
  repeat match goal with |- NI _ (match (if ?c then _ else _) with _ => _ end) => destruct c end; cbn [Nat.sub].
  1: ni.
  1-3: apply (NI_bind _ 1); [lia|apply NI_bool; lia|intros m]; apply (NI_bind _ 4); [lia|ni|intros p; ni].
  1: apply (NI_bind _ 1); [lia|apply NI_bool; lia|intros m]; apply (NI_bind _ 4); [lia|ni|intros p; ni].
  1-2: ni.
Qed.
Lemma St_when c n : St (when c (some_bytes n)) Any.
Proof. destruct c; cbn [when]; st. Qed.
#[global] Hint Resolve St_when : st.
Lemma Liv_cond_vec m l : Liv (read_cond_vec m l) (when m (some_bytes l)) Any.
Proof. destruct m; cbn [read_cond_vec when]; lv. Qed.
#[global] Hint Resolve Liv_cond_vec : lv.
Lemma Liv_k_query h : Liv (k_query h) (kd_query h) Any.
Proof.
  destruct h as [|k m p|m p|m e]; cbn [k_query kd_query]; [lv| |lv|lv].
  apply Liv_if; [|apply Liv_if]; lv.
Qed.
Lemma St_k_query h : St (kd_query h) Any.
Proof.
  destruct h as [|k m p|m p|m e]; cbn [kd_query]; [st| |st|st].
  destruct (k =? 1); [|destruct (k =? 2)]; st.
Qed.
Lemma Liv_query : Liv read_query dec_query Any.
Proof.
  eapply Liv_ext with (m := h <- g_query ;; k_query h) (D := let* h := d_query in kd_query h).
  - apply Liv_bind with (P := Any); [exact Liv_g_query|intros h; apply Liv_k_query|intros h _; apply St_k_query].
  - intros r Hr. unfold read_query, g_query, query_readers. rewrite bind_bind. apply bind_ext. clear.
    intros x. cbn [assoc].
    destruct (N.eqb_spec x 0); [subst; unfold read_non_void; rsame1|].
    destruct (N.eqb_spec x 1); [subst; unfold read_cmp_zero; rsame1|].
    destruct (N.eqb_spec x 2); [subst; unfold read_cmp_value; rsame1|].
    destruct (N.eqb_spec x 3); [subst; unfold read_cmp_other; rsame1|].
    destruct (N.eqb_spec x 4); [subst; unfold read_bitmap_range; rsame1|].
    destruct (N.eqb_spec x 7); [subst; unfold read_string_search; rsame1|].
    reflexivity.
  - intros l. unfold dec_query, d_query. rewrite andthen_andthen. apply andthen_ext. clear. intros b. cbv zeta.
    destruct (N.eqb_spec (part 5 3 b) 0) as [Hk|_]; [rewrite ?Hk; cbn [orb N.eqb Pos.eqb]; reflexivity|].
    destruct (N.eqb_spec (part 5 3 b) 1) as [Hk|_]; [rewrite ?Hk; cbn [orb N.eqb Pos.eqb]; dsame|].
    destruct (N.eqb_spec (part 5 3 b) 2) as [Hk|_]; [rewrite ?Hk; cbn [orb N.eqb Pos.eqb]; dsame|].
    destruct (N.eqb_spec (part 5 3 b) 3) as [Hk|_]; [rewrite ?Hk; cbn [orb N.eqb Pos.eqb]; dsame|]. cbn [orb].
    destruct (N.eqb_spec (part 5 3 b) 4) as [Hk|_]; [rewrite ?Hk; cbn [orb N.eqb Pos.eqb]; dsame|].
    destruct (N.eqb_spec (part 5 3 b) 7) as [Hk|_]; reflexivity.
Qed.
#[global] Hint Resolve Liv_query : lv.

(** ** interface *)
Lemma Liv_dash7_config {E : Env} : Liv read_dash7_config dec_dash7_config Any.
Proof. unfold read_dash7_config, dec_dash7_config, is_subiot. destruct e_feat; lv. Qed.
Lemma Liv_g_lorawan : Liv g_lorawan (let* b := one in give (flag 2 b, flag 1 b)) Any.
Proof. one_byte Dec_g_lorawan. st. Qed.
#[global] Hint Resolve Liv_dash7_config Liv_g_lorawan : lv.
Lemma Liv_lorawan : Liv read_lorawan_config dec_lorawan Any.
Proof.
  eapply Liv_ext with (m := x <- g_lorawan ;; p <- read_u8 ;; r <- read_u8 ;; ret (mkLorawanConfig (fst x) (snd x) p r))
    (D := let* x := (let* b := one in give (flag 2 b, flag 1 b)) in let* p := one in let* r := one in give (mkLorawanConfig (fst x) (snd x) p r)).
  - lv.
  - unfold read_lorawan_config, g_lorawan. rsame.
  - unfold dec_lorawan. dsame.
Qed.
#[global] Hint Resolve Liv_lorawan : lv.
