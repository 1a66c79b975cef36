(** Canonical input: the types. *)
From Coq Require Import List NArith ZArith Bool Lia ZifyBool ZifyNat ZifyN Arith.
From Verif Require Import Base Deku Utils Types Physical Link Network Session Data Query
  Interface File Operation Action Command WellFormed SpecLayout SpecDecode SpecCanonical LBits LReader
  LNumbers LDecode LCanon.
Import ListNotations.
Open Scope N_scope.

(** ** Equations about one byte *)
Definition every_byte : list N := map N.of_nat (seq 0 256).
Lemma every_byte_in b : b < 256 -> In b every_byte.
Proof. intros H. unfold every_byte. apply in_map_iff. exists (N.to_nat b). split; [lia|]. apply in_seq. lia. Qed.
Lemma byte_eq (f g : N -> N) : forallb (fun b => f b =? g b) every_byte = true -> forall b, b < 256 -> f b = g b.
Proof. intros H b Hb. rewrite forallb_forall in H. apply N.eqb_eq. apply H. apply every_byte_in. exact Hb. Qed.
Lemma byte_eqb (f g : N -> bool) : forallb (fun b => Bool.eqb (f b) (g b)) every_byte = true -> forall b, b < 256 -> f b = g b.
Proof. intros H b Hb. rewrite forallb_forall in H. apply eqb_prop. apply H. apply every_byte_in. exact Hb. Qed.
Ltac exh b Hb :=
  match goal with
  | |- @eq N ?x ?y =>
      let f := eval pattern b in x in let g := eval pattern b in y in
      match f with ?F _ => match g with ?G _ => apply (byte_eq F G); [vm_compute; reflexivity|exact Hb] end end
  | |- @eq bool ?x ?y =>
      let f := eval pattern b in x in let g := eval pattern b in y in
      match f with ?F _ => match g with ?G _ => apply (byte_eqb F G); [vm_compute; reflexivity|exact Hb] end end
  end.
(** The decoders for a byte and for that byte with its padding cleared are the same. *)
Ltac same_parts b Hb := cbv beta;
  repeat match goal with
  | |- context [part ?lo ?n ?x] =>
      lazymatch x with b => fail | _ => idtac end;
      let H := fresh in assert (H : part lo n x = part lo n b) by exh b Hb; rewrite H; clear H
  | |- context [flag ?lo ?x] =>
      lazymatch x with b => fail | _ => idtac end;
      let H := fresh in assert (H : flag lo x = flag lo b) by exh b Hb; rewrite H; clear H
  end.
Ltac leaf := cbn; rewrite <- ?app_assoc; reflexivity.

Lemma Can_varint : Can dec_varint strict_varint enc_varint.
Proof.
  apply (Can_pad (fun b => match enc_varint (mkVarInt (b mod 32 * 4 ^ (b / 32)) false) with x :: _ => x | [] => 0 end)).
  - intros b Hb. exh b Hb.
  - intros b l Hb. cbv beta.
    match goal with |- give (mkVarInt ?x _) _ = give (mkVarInt ?y _) _ => assert (H : x = y) by exh b Hb end.
    rewrite H. reflexivity.
  - intros b Hb. apply Can_give. cbn [app]. unfold enc_varint. reflexivity.
Qed.
Lemma Can_file_offset : Can dec_file_offset strict_file_offset enc_file_offset.
Proof. apply Can_byte. intros f Hf. eapply Can_tail; [apply Can_length|]. reflexivity. Qed.

(** ** physical, link *)
Lemma Can_channel_header : Can dec_channel_header strict_channel_header (fun v => [enc_channel_header v]).
Proof.
  apply (Can_pad (fun b => b mod 128)).
  - intros b Hb. exh b Hb.
  - intros b l Hb. same_parts b Hb. reflexivity.
  - intros b Hb. apply Can_named. intros band H1. apply Can_named. intros class H2. apply Can_named.
    intros coding H3. apply Can_give. cbn [app]. f_equal. unfold enc_channel_header. cbn [ch_band ch_class ch_coding].
    rewrite H1, H2, H3. exh b Hb.
Qed.

Lemma Can_channel : Can dec_channel strict_channel enc_channel.
Proof. eapply Can_bind; [apply Can_channel_header|]. intros h. eapply Can_tail; [apply Can_num|]. reflexivity. Qed.
Lemma Can_channel_status : Can dec_channel_status dec_channel_status enc_channel_status.
Proof.
  apply Can_byte. intros a Ha. apply Can_byte. intros b Hb. apply Can_named. intros band H1.
  apply Can_named. intros width H2. apply Can_byte. intros n Hn. apply Can_give.
  unfold enc_channel_status. cbn [cs_identifier csi_band csi_bandwidth csi_index cs_noise_floor app].
  rewrite H1, H2.
  assert (P : pack [(3, part 5 3 a); (2, part 3 2 a); (11, 256 * part 0 3 a + b)] = a * 256 + b).
  { unfold pack. cbn [fold_left fst snd].
    change (2 ^ 3) with 8. change (2 ^ 2) with 4. change (2 ^ 11) with 2048.
    assert (part 5 3 a * 4 + part 3 2 a = a / 8) as Q by exh a Ha.
    assert (part 0 3 a = a mod 8) as -> by exh a Ha.
    pose proof (N.div_mod a 8 ltac:(discriminate)). lia. }
  assert (a * 256 + b = N_of_be [a; b]) as Q by (rewrite N_of_be_cons; cbn; lia).
  rewrite P, Q. pose proof (be_N_of_be [a; b]) as R. cbn [length] in R. rewrite R by (repeat constructor; assumption).
  reflexivity.
Qed.
Lemma Can_sub_band : Can dec_sub_band dec_sub_band enc_sub_band.
Proof.
  eapply Can_bind; [apply Can_num|]. intros a. eapply Can_bind; [apply Can_num|]. intros b.
  eapply Can_bind; [apply Can_signed|]. intros e. apply Can_byte. intros c _. apply Can_byte. intros d _.
  apply Can_give. cbn [app sb_start]. unfold enc_sub_band. cbn [sb_start sb_end sb_eirp sb_cca sb_duty].
  rewrite <- !app_assoc. reflexivity.
Qed.
Lemma Can_sub_profile : Can dec_sub_profile strict_sub_profile enc_sub_profile.
Proof. apply Can_byte. intros b _. eapply Can_tail; [apply Can_varint|]. reflexivity. Qed.
Lemma Can_access_profile : Can dec_access_profile strict_access_profile enc_access_profile.
Proof.
  eapply Can_bind; [apply Can_channel_header|]. intros h.
  eapply Can_bind; [apply Can_times, Can_sub_profile|]. intros p.
  eapply Can_tail; [apply Can_times, Can_sub_band|]. intros b.
  unfold enc_access_profile. cbn [ap_header ap_sub_profiles ap_sub_bands app]. reflexivity.
Qed.

Lemma Can_given {A B} pre (x : A) (K K' : A -> dec B) e :
  CanP pre (K x) (K' x) e -> CanP pre (andthen (give x) K) (andthen (give x) K') e.
Proof. exact (fun H => H). Qed.

(** ** network *)
Lemma Can_address t : Can (dec_address t) (strict_address t) enc_address.
Proof.
  destruct t; cbn [dec_address strict_address].
  - eapply Can_tail; [apply Can_varint|]. reflexivity.
  - apply Can_give. reflexivity.
  - eapply Can_tail; [apply Can_num|]. reflexivity.
  - eapply Can_tail; [apply Can_num|]. reflexivity.
Qed.
Lemma Can_nls_state n : Can (dec_nls_state n) (dec_nls_state n) enc_nls_state.
Proof.
  destruct n; cbn [dec_nls_state]; try (eapply Can_tail; [apply Can_some|]; reflexivity).
  apply Can_give. reflexivity.
Qed.
Lemma class_byte k : k < 256 -> enc_access_class (mkAccessClass (part 4 4 k) (part 0 4 k)) = k.
Proof. intros Hk. unfold enc_access_class. cbn [ac_specifier ac_mask]. exh k Hk. Qed.
Lemma Can_addressee {E : Env} : Can dec_addressee strict_addressee enc_addressee.
Proof.
  unfold dec_addressee, strict_addressee, enc_addressee. destruct e_feat.
  1, 2: apply (Can_pad (fun b => b mod 64)); [intros b Hb; exh b Hb|intros b l Hb; same_parts b Hb; reflexivity|];
    intros c Hc; apply Can_named; intros t H1; apply Can_given; apply Can_named; intros n H2;
    apply Can_byte; intros k Hk; eapply Can_bind; [apply Can_address|]; intros a;
    eapply Can_tail; [apply Can_nls_state|]; intros s;
    cbn [ad_group ad_type ad_use_vid ad_nls ad_access ad_address ad_state];
    rewrite class_byte, H1, H2 by exact Hk;
    replace (pack [(2, 0); (2, part 4 2 c); (4, part 0 4 c)]) with (c mod 64) by (symmetry; exh c Hc);
    cbn [app]; reflexivity.
  apply Can_byte; intros c Hc; apply Can_named; intros t H1; apply Can_named; intros g H3; apply Can_named; intros n H2;
    apply Can_byte; intros k Hk; eapply Can_bind; [apply Can_address|]; intros a;
    eapply Can_tail; [apply Can_nls_state|]; intros s;
    cbn [ad_group ad_type ad_use_vid ad_nls ad_access ad_address ad_state];
    rewrite class_byte, H1, H2, H3 by exact Hk;
    replace (pack [(2, part 6 2 c); (2, part 4 2 c); (1, bit (flag 3 c)); (3, part 0 3 c)]) with c by exh c Hc;
    cbn [app]; reflexivity.
Qed.

(** ** session *)
Lemma Can_qos : Can dec_qos dec_qos (fun v => [enc_qos v]).
Proof.
  apply Can_byte. intros b Hb. apply Can_named. intros r H1. apply Can_named. intros m H2. apply Can_give.
  unfold enc_qos. cbn [qos_stop qos_record qos_retry qos_resp app]. rewrite H1, H2. f_equal. exh b Hb.
Qed.
Lemma Can_dash7_status {E : Env} : Can dec_dash7_status strict_dash7_status enc_dash7_status.
Proof.
  eapply Can_bind; [apply Can_channel|]. intros c. apply Can_byte. intros rx _. apply Can_byte. intros lb _.
  apply Can_byte. intros tr _. apply (Can_pad (fun b => b / 16 * 16)).
  - intros b Hb. exh b Hb.
  - intros b l Hb. same_parts b Hb. reflexivity.
  - intros f Hf. apply Can_byte. intros tk _. apply Can_byte. intros sq _. eapply Can_bind; [apply Can_varint|].
    intros t. eapply Can_tail; [apply Can_addressee|]. intros a. unfold enc_dash7_status.
    cbn [ds_channel ds_rx_level ds_link_budget ds_target_rx_level ds_nls ds_missed ds_retry ds_unicast
         ds_fifo_token ds_seq ds_timeout ds_addressee].
    replace (pack _) with (f / 16 * 16) by exh f Hf. cbn [app]. rewrite <- !app_assoc. reflexivity.
Qed.
Lemma Can_final : Can dec_final dec_final (fun c => [code_final c]).
Proof.
  apply Can_byte. intros b _. unfold named. destruct (find _ _) as [x|] eqn:F; [|intros l _; reflexivity].
  apply find_some in F as [_ F]. apply N.eqb_eq in F. apply Can_give. rewrite F. reflexivity.
Qed.

(** ** data *)
Lemma Can_file_header : Can dec_file_header strict_file_header enc_file_header.
Proof.
  apply Can_byte. intros p Hp. apply (Can_pad (fun b => b / 16 * 16 + b mod 4)).
  - intros b Hb. exh b Hb.
  - intros b l Hb. same_parts b Hb. reflexivity.
  - intros q Hq. apply Can_named. intros c H1. apply Can_named. intros s H2. apply Can_byte. intros a _.
    apply Can_byte. intros i _. eapply Can_bind; [apply Can_num|]. intros size. eapply Can_tail; [apply Can_num|].
    intros alloc. unfold enc_file_header.
    cbn [fh_perm fh_prop fp_encrypted fp_exec fp_user fp_guest up_read up_write up_exec pr_enabled pr_condition
         pr_class fh_alp_file fh_itf_file fh_size fh_alloc]. rewrite H1, H2.
    replace (pack [(1, bit (flag 7 p)); (1, bit (flag 6 p)); (1, bit (flag 5 p)); (1, bit (flag 4 p));
                   (1, bit (flag 3 p)); (1, bit (flag 2 p)); (1, bit (flag 1 p)); (1, bit (flag 0 p))]) with p by exh p Hp.
    replace (pack [(1, bit (flag 7 q)); (3, part 4 3 q); (2, 0); (2, part 0 2 q)]) with (q / 16 * 16 + q mod 4)
      by exh q Hq.
    cbn [app]. reflexivity.
Qed.

(** ** query *)
Lemma Can_when c (D S : dec (list N)) : Can D S (fun l => l) -> Can (when c D) (when c S) (fun l => l).
Proof. destruct c; intros H; [exact H|]. apply Can_give. reflexivity. Qed.
Lemma Can_cases {B} pre (K K' : N -> dec B) e :
  (forall b, b < 256 -> exists w ok K'', (forall l, K' b l = only ok K'' l) /\ ok = (w =? b) /\
     (w = b \/ forall l, K w l = K b l) /\ CanP (pre ++ [w]) (K b) K'' e) ->
  CanP pre (andthen one K) (andthen one K') e.
Proof.
  intros H l Hl. unfold andthen, one. destruct l as [|b l]; [reflexivity|].
  apply Forall_cons_iff in Hl as [Hb Hl]. destruct (H b Hb) as (w & ok & K'' & Ho & -> & Hw & G).
  specialize (G l Hl). rewrite Ho.
  destruct (K b l) as [[v rest]|] eqn:E1.
  - destruct G as (BR & t & T & R & C). split; [exact BR|]. exists (w :: t).
    split; [rewrite T, <- app_assoc; reflexivity|]. split.
    { intros r. cbn [app]. destruct Hw as [->|Hw]; [|rewrite Hw]; apply R. }
    unfold only. destruct (N.eqb_spec w b) as [Q|Q].
    + destruct C as [(-> & C)|(-> & C)]; [left|right]; (split; [reflexivity|]); cbn [app]; rewrite Q.
      * rewrite C. reflexivity.
      * intros G. injection G as G. auto.
    + right. split; [reflexivity|]. cbn [app]. intros G. injection G as G _. apply Q. symmetry. exact G.
  - unfold only. destruct (w =? b); [exact G|reflexivity].
Qed.
Ltac plain b := exists b, true; eexists; split; [intros ?l; unfold only; reflexivity|];
  split; [symmetry; apply N.eqb_refl|]; split; [left; reflexivity|].
Lemma arith_byte b k : b < 256 -> part 5 3 b = k ->
  pack [(3, k); (1, bit (flag 4 b)); (1, bit (flag 3 b)); (3, part 0 3 b)] = b.
Proof. intros Hb <-. exh b Hb. Qed.
Ltac parts := repeat first [apply Can_named; intros ?c ?Hc | eapply Can_bind; [first [apply Can_length|apply Can_file_offset|apply Can_when, Can_some|apply Can_some]|]; intros ?x].
Lemma Can_query : Can dec_query strict_query enc_query.
Proof.
  apply Can_cases. intros b Hb. cbv beta zeta. unfold reject.
  destruct (N.eqb_spec (part 5 3 b) 0) as [K0|K0].
  { exists (b / 32 * 32). do 2 eexists. split; [intros l; reflexivity|]. split; [|split].
    - assert (Q : (part 0 5 b =? 0) = (b / 32 * 32 =? b)) by exh b Hb. exact Q.
    - right. intros l. assert (part 5 3 (b / 32 * 32) = part 5 3 b) as -> by exh b Hb. rewrite K0. reflexivity.
    - parts. apply Can_give. cbn [enc_query nv_length nv_file].
      assert (b / 32 = 0) as -> by (rewrite <- K0; exh b Hb). cbn [app]. reflexivity. }
  destruct (N.eqb_spec (part 5 3 b) 1) as [K1|K1].
  { plain b. parts. apply Can_give. cbn [enc_query cz_mask_present cz_params ap_signed ap_cmp cz_length cz_mask cz_file].
    rewrite Hc, arith_byte by assumption. cbn [app]. rewrite <- ?app_assoc. reflexivity. }
  destruct (N.eqb_spec (part 5 3 b) 2) as [K2|K2].
  { plain b. parts. apply Can_give. cbn [enc_query cv_mask_present cv_params ap_signed ap_cmp cv_length cv_mask cv_value cv_file].
    rewrite Hc, arith_byte by assumption. cbn [app]. rewrite <- ?app_assoc. reflexivity. }
  destruct (N.eqb_spec (part 5 3 b) 3) as [K3|K3].
  { plain b. parts. apply Can_give. cbn [enc_query co_mask_present co_params ap_signed ap_cmp co_length co_mask co_file1 co_file2].
    rewrite Hc, arith_byte by assumption. cbn [app]. rewrite <- ?app_assoc. reflexivity. }
  destruct (N.eqb_spec (part 5 3 b) 4) as [K4|K4].
  { plain b. parts. apply Can_give. cbn [enc_query br_mask_present br_params rp_signed rp_cmp br_length br_start br_stop br_mask br_file].
    rewrite Hc, arith_byte by assumption. cbn [app]. rewrite <- ?app_assoc. reflexivity. }
  destruct (N.eqb_spec (part 5 3 b) 7) as [K7|K7].
  { exists (b / 16 * 16 + b mod 8). do 2 eexists. split; [intros l; reflexivity|]. split; [|split].
    - assert (Q : (part 3 1 b =? 0) = (b / 16 * 16 + b mod 8 =? b)) by exh b Hb. exact Q.
    - right. intros l. assert (part 5 3 (b / 16 * 16 + b mod 8) = part 5 3 b) as -> by exh b Hb. rewrite K7.
      cbn [N.eqb Pos.eqb]. same_parts b Hb. reflexivity.
    - parts. apply Can_give. cbn [enc_query ss_mask_present ss_max_errors ss_length ss_mask ss_value ss_file].
      assert (pack [(3, 7); (1, bit (flag 4 b)); (1, 0); (3, part 0 3 b)] = b / 16 * 16 + b mod 8) as ->
        by (rewrite <- K7; exh b Hb).
      cbn [app]. rewrite <- ?app_assoc. reflexivity. }
  plain b. intros l _. reflexivity.
Qed.

(** ** interface *)
Lemma Can_dash7_config {E : Env} : Can dec_dash7_config strict_dash7_config enc_dash7_config.
Proof.
  unfold dec_dash7_config, strict_dash7_config, enc_dash7_config.
  eapply Can_bind; [apply Can_qos|]. intros q. eapply Can_bind; [apply Can_varint|]. intros d. destruct e_feat.
  1, 3: eapply Can_bind; [apply Can_varint|]; intros x; eapply Can_tail; [apply Can_addressee|]; intros a;
    cbn [dc_qos dc_dormant dc_exec_delay dc_addressee app]; rewrite <- ?app_assoc; reflexivity.
  apply Can_given. eapply Can_tail; [apply Can_addressee|]. intros a.
  cbn [dc_qos dc_dormant dc_exec_delay dc_addressee app]. reflexivity.
Qed.
Lemma Can_lorawan : Can dec_lorawan strict_lorawan enc_lorawan_config.
Proof.
  apply (Can_pad (fun b => b mod 8 / 2 * 2)).
  - intros b Hb. exh b Hb.
  - intros b l Hb. same_parts b Hb. reflexivity.
  - intros b Hb. apply Can_byte. intros p _. apply Can_byte. intros r _. apply Can_give.
    unfold enc_lorawan_config. cbn [lw_adr lw_ack lw_port lw_rate app]. f_equal. exh b Hb.
Qed.
Ltac choose i n H := destruct (N.eqb_spec i n) as [H|H]; [subst i|].
Lemma Can_interface_config {E : Env} : Can dec_interface_config strict_interface_config enc_interface_config.
Proof.
  apply Can_byte. intros i Hi. choose i 0 H0; [apply Can_give; reflexivity|].
  choose i 1 H1; [apply Can_give; reflexivity|]. choose i 2 H2.
  { eapply Can_bind; [apply Can_lorawan|]. intros b. eapply Can_bind; [apply Can_some|]. intros n.
    eapply Can_bind; [apply Can_some|]. intros a. eapply Can_bind; [apply Can_host|]. intros d.
    eapply Can_tail; [apply Can_host|]. intros k. cbn [enc_interface_config ab_base ab_nwk_key ab_app_key ab_dev_addr ab_net_id app].
    rewrite <- !app_assoc. reflexivity. }
  choose i 3 H3.
  { eapply Can_bind; [apply Can_lorawan|]. intros b. eapply Can_bind; [apply Can_some|]. intros n.
    eapply Can_bind; [apply Can_some|]. intros a.
    eapply Can_tail; [apply Can_some|]. intros k. cbn [enc_interface_config ot_base ot_dev_eui ot_app_eui ot_app_key app].
    rewrite <- !app_assoc. reflexivity. }
  choose i 0xD7 H4; [|apply Can_give; reflexivity]. eapply Can_tail; [apply Can_dash7_config|]. reflexivity.
Qed.
Lemma Can_indirect_interface {E : Env} : Can dec_indirect_interface strict_indirect_interface enc_indirect_interface.
Proof.
  apply Can_byte. intros i Hi. choose i 0 H0; [apply Can_give; reflexivity|].
  choose i 1 H1; [apply Can_give; reflexivity|].
  choose i 0xD7 H4; [|apply Can_give; reflexivity]. eapply Can_tail; [apply Can_addressee|]. reflexivity.
Qed.

(** ** file *)
Lemma Can_text n : Can (text n) (text n) (fun s => s).
Proof.
  intros l Hl. unfold text, andthen, give, reject. pose proof (Can_some n l Hl) as H.
  destruct (some_bytes n l) as [[s rest]|] eqn:E1; [|reflexivity]. destruct (utf8_valid s) eqn:U; [|reflexivity].
  destruct H as (BR & t & T & R & C). cbn [app] in T. subst t. split; [exact BR|]. exists s. split; [reflexivity|].
  split; [intros r; rewrite R, U; reflexivity|]. destruct C as [(_ & C)|(C & _)]; [left; split; [reflexivity|exact C]|discriminate].
Qed.
Lemma two_bytes {B} (K : dec B) l : (let* pad := some_bytes 2 in K) l = (let* p := one in let* q := one in K) l.
Proof.
  unfold andthen, one. destruct l as [|p [|q l]]; [reflexivity|reflexivity|].
  change (p :: q :: l) with ([p; q] ++ l). rewrite some_app by reflexivity. reflexivity.
Qed.
Ltac steps := repeat first
  [ apply Can_byte; intros ?b ?Hb
  | eapply Can_bind; [first [apply Can_num|apply Can_signed|apply Can_text|apply Can_some|apply Can_host
      |apply Can_channel|apply Can_channel_header]|]; intros ?x ].
Lemma Can_file {E : Env} id len : Can (dec_file id len) (strict_file id len) enc_file.
Proof.
  unfold dec_file, strict_file, dec_file.
  choose id 0 H0; [cbn [N.eqb N.leb andb]; steps; apply Can_give; reflexivity|].
  choose id 1 H1; [cbn [N.eqb Pos.eqb N.leb N.compare andb]; steps; apply Can_give; leaf|].
  choose id 2 H2; [cbn [N.eqb Pos.eqb N.leb N.compare andb]; steps; apply Can_give; leaf|].
  choose id 5 H5.
  { apply Can_byte. intros b _. apply Can_named. intros m H. steps. apply Can_give. cbn [enc_file em_mode em_flags em_timeout em_channel em_eirp].
    rewrite H. cbn [app]. rewrite <- ?app_assoc. reflexivity. }
  choose id 6 H6; [cbn [N.eqb Pos.eqb N.leb N.compare andb]; steps; apply Can_give; reflexivity|].
  choose id 9 H9.
  { cbn [N.eqb Pos.eqb N.leb N.compare andb]. steps. eapply Can_tail; [apply Can_times, Can_channel_status|]. intros l.
    cbn [enc_file ps_up ps_rx ps_tx ps_duty ps_count ps_channels app]. rewrite <- !app_assoc. reflexivity. }
  choose id 10 H10.
  { apply Can_byte. intros a _.
    apply (Can_ext _ (let* p := one in let* q := one in let* l := one in let* n := one in let* r := one in
       let* t := one in give (FDllConfig (mkDllConfig a l n r t))) _
       (let* p := one in only (p =? 0) (let* q := one in only (q =? 0) (let* l := one in let* n := one in let* r := one in
       let* t := one in give (FDllConfig (mkDllConfig a l n r t)))))); [|exact (two_bytes _)|reflexivity].
    apply (Can_pad (fun _ => 0)); [intros b Hb; exh b Hb|reflexivity|]. intros p _.
    apply (Can_pad (fun _ => 0)); [intros b Hb; exh b Hb|reflexivity|]. intros q _.
    steps. apply Can_give. reflexivity. }
  choose id 11 H11; [steps; apply Can_give; leaf|].
  choose id 14 H14; [cbn [N.eqb Pos.eqb N.leb N.compare Pos.compare Pos.compare_cont andb]; steps; apply Can_give; leaf|].
  destruct ((32 <=? id) && (id <=? 46)).
  - eapply Can_tail; [apply Can_access_profile|]. reflexivity.
  - steps. apply Can_give. reflexivity.
Qed.
