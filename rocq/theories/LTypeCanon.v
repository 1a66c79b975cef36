(** Canonical input of the types that can be parsed on their own. *)
From Coq Require Import List NArith ZArith Bool Lia ZifyBool ZifyNat ZifyN Arith.
From Verif Require Import Base Deku Utils Types Physical Link Network Session Data Query
  Interface File Operation Action Command Frames WellFormed SpecLayout SpecAction SpecDecode SpecCanonical SpecTypeCanonical DefaultCtx LBits LReader
  LLayout LRound LRoundOps LAction LNumbers LNice LNiceOps LNiceFile LActionApi LReencode LDecode LDecodeOps LDecodeLoop
  LCanon LCanonTypes LCanonOps LFrameCanonTop.
Import ListNotations.
Open Scope N_scope.

Definition Written {A} (m : reader A) (w : A -> writer) (e : A -> list N) : Prop :=
  forall d v r, m (new_reader d) = Ok (v, r) -> W (w v) (e v).
Lemma by_nice {A} k (m : reader A) P w e : Nice k m P -> (forall v, P v -> W (w v) (e v)) -> Written m w e.
Proof. intros N1 HW d v r H. specialize (N1 (new_reader d) (new_RWf d)). rewrite H in N1. apply HW, N1. Qed.
Lemma by_niceA {A} (m : reader A) P w e : NiceA m P -> (forall v, P v -> W (w v) (e v)) -> Written m w e.
Proof. intros N1 HW d v r H. specialize (N1 (new_reader d) (new_RWf d) eq_refl). unfold NiceR in N1. rewrite H in N1. apply HW, N1. Qed.
Lemma W_nil_r w l : W (w +++ wnil) l -> W w l.
Proof.
  intros (H & B). split; [|exact B]. unfold wseq, wnil in H. destruct w as [x| |]; cbn [rbind] in H; try discriminate.
  rewrite app_nil_r in H. exact H.
Qed.
Lemma try_ok {A} (m : reader A) d v : d_try_from m d = Ok v -> exists r, m (new_reader d) = Ok (v, r).
Proof.
  unfold d_try_from, d_from_reader, start. cbn [Nat.eqb]. destruct (m (new_reader d)) as [[x r]| |]; cbn [rbind fst snd]; try discriminate.
  destruct (Nat.eqb _ _); [|discriminate]. intros H. exists r. congruence.
Qed.
Lemma to_bytes_W w l : W w l -> to_bytes w = Ok l.
Proof. intros (H & B). unfold to_bytes. rewrite H. cbn [rbind]. rewrite bytes_of_bits_of_bytes by exact B. reflexivity. Qed.
Lemma canon {E : Env} {A} (m : reader A) w D S e : decodes m D -> Written m w e -> FinP [] D S e -> canonical m w S.
Proof.
  intros HD HW HF d v Hd. specialize (HD d Hd). specialize (HF d Hd). destruct (D d) as [[x rest]|].
  - destruct HD as (_ & HD). destruct HF as (t & T & _ & C). cbn [app] in T. subst t. split.
    + intros (H1 & H2). destruct (try_ok _ _ _ H1) as (r & R). rewrite (to_bytes_W _ _ (HW _ _ _ R)) in H2. apply Ok_inj in H2.
      rewrite H1 in HD. destruct rest; [|discriminate]. apply Ok_inj in HD. subst x. rewrite app_nil_r in C.
      destruct C as [(C & _)|(_ & C)]; [exact C|congruence].
    + intros H. destruct C as [(C & Q)|(C & _)]; [|congruence]. rewrite C in H. assert (x = v /\ rest = []) as (-> & ->) by (split; congruence).
      rewrite app_nil_r in Q. split; [exact HD|]. destruct (try_ok _ _ _ HD) as (r & R). rewrite (to_bytes_W _ _ (HW _ _ _ R)), <- Q. reflexivity.
  - destruct HD as (e' & _ & HD). rewrite HD, HF. split; [intros (H & _)|]; discriminate.
Qed.
Lemma canonC {E : Env} {A} (m : reader A) w D S e : decodes m D -> Written m w e -> Can D S e -> canonical m w S.
Proof. intros HD HW HC. exact (canon m w D S e HD HW (Can_Fin _ _ _ _ HC)). Qed.
Lemma rigidly {E : Env} {A} (m : reader A) w D : decodes m D -> canonical m w D -> one_form m w.
Proof.
  intros HD HC d v Hd H. specialize (HD d Hd). apply (proj2 (HC d v Hd)). destruct (D d) as [[x [|]]|].
  - destruct HD as (_ & HD). congruence.
  - destruct HD as (_ & HD). congruence.
  - destruct HD as (e & _ & HD). congruence.
Qed.

(** ** The pieces not needed before *)
Lemma three {B} (K : dec B) l : (let* p := some_bytes 3 in K) l = (let* p := one in let* q := one in let* r := one in K) l.
Proof.
  unfold andthen, some_bytes, one. destruct l as [|a [|b [|c l]]]; try reflexivity. cbn [length].
  destruct (N.leb_spec 3 (N.of_nat (S (S (S (length l)))))); [reflexivity|lia].
Qed.
Lemma Can_dash7_tx {E : Env} : Can dec_dash7_tx strict_dash7_tx enc_dash7_tx_status.
Proof.
  unfold dec_dash7_tx, strict_dash7_tx. eapply Can_bind; [apply Can_channel|]. intros c.
  eapply Can_bind; [apply Can_signed|]. intros s. eapply Can_bind; [apply Can_final|]. intros f.
  eapply Can_ext; [|intros l; apply three|reflexivity].
  apply (Can_pad (fun _ => 0)); [intros b _; apply N.eqb_sym|reflexivity|]. intros p _.
  apply (Can_pad (fun _ => 0)); [intros b _; apply N.eqb_sym|reflexivity|]. intros q _.
  apply (Can_pad (fun _ => 0)); [intros b _; apply N.eqb_sym|reflexivity|]. intros r _.
  eapply Can_bind; [apply Can_host|]. intros t. eapply Can_tail; [apply Can_addressee|]. intros a.
  unfold enc_dash7_tx_status. cbn [tx_channel tx_target_rx_level tx_error tx_lts tx_addressee app]. rewrite <- !app_assoc. reflexivity.
Qed.
Lemma W_final_code v : W (write_final_status_code v) [code_final v].
Proof. destruct v; apply W_u8_last; reflexivity. Qed.
Lemma W_itf_status {E : Env} v : wf_itf_status_op v \/ unknown_itf_status v -> W (write_itf_status_op v) (enc_itf v).
Proof.
  intros [H|(l & -> & H1 & H2)]; unfold write_itf_status_op, enc_itf.
  - destruct v as [t s]. unfold wf_itf_status_op in H. cbn [iso_type iso_status] in *.
    assert (P : W (write_length_prefixed (write_interface_status s)) (enc_prefixed (enc_interface_status s))).
    { destruct t, s; try contradiction; cbn [write_interface_status enc_interface_status];
        try (apply W_prefixed; [apply W_nil|reflexivity]).
      apply W_prefixed; [apply W_dash7_status; assumption|]. apply enc_dash7_status_length. assumption. }
    apply W_app; [|exact P].
    destruct t, s; try contradiction; cbn [code_itf_type]; unfold write_interface_type; cbn [interface_type_id];
      apply W_u8_last; reflexivity.
  - cbn [iso_type iso_status code_itf_type app]. unfold write_interface_type. cbn [interface_type_id]. rewrite wseq_nil_l.
    apply W_prefixed; [apply W_vec; exact H1|exact H2].
Qed.
Lemma W_itf_final v : wf_itf_final_op v -> W (write_itf_final_op v) (ifo_id v :: enc_prefixed (enc_interface_final (ifo_status v))).
Proof.
  intros H. unfold wf_itf_final_op in H. unfold write_itf_final_op. destruct v as [i s]. cbn [ifo_id ifo_status] in *.
  destruct s as [c|l]; cbn [write_interface_final_status enc_interface_final].
  - subst i. apply W_u8; [reflexivity|]. apply W_prefixed; [|reflexivity].
    apply (W_u8_last (final_status_code_id c)). destruct c; reflexivity.
  - destruct H as (H1 & _ & H2 & H3). apply W_u8; [assumption|]. apply W_prefixed; [apply W_vec|]; assumption.
Qed.

(** ** The types *)
Lemma canonical_types {E : Env} :
  canonical read_length write_length strict_length /\ canonical read_varint write_varint strict_varint /\
  canonical read_file_offset write_file_offset strict_file_offset /\
  canonical read_channel_header write_channel_header strict_channel_header /\ canonical read_channel write_channel strict_channel /\
  canonical read_channel_status write_channel_status dec_channel_status /\ canonical read_sub_band write_sub_band dec_sub_band /\
  canonical read_sub_profile write_sub_profile strict_sub_profile /\
  canonical read_access_profile write_access_profile strict_access_profile /\
  canonical read_addressee write_addressee strict_addressee /\ canonical read_qos write_qos dec_qos /\
  canonical read_dash7_status write_dash7_status strict_dash7_status /\
  canonical read_dash7_tx_status write_dash7_tx_status strict_dash7_tx /\
  canonical read_final_status_code write_final_status_code dec_final /\
  canonical read_file_header write_file_header strict_file_header.
Proof.
  destruct (@decodes_types E) as (D1 & D2 & D3 & D4 & D5 & D6 & D7 & D8 & D9 & D10 & D11 & D12 & D13 & D14 & D15).
  split; [exact (canonC _ _ _ _ _ D1 (by_nice _ _ _ _ _ Nice_length W_length) Can_length)|].
  split; [exact (canonC _ _ _ _ _ D2 (by_nice _ _ _ _ _ Nice_varint W_varint) Can_varint)|].
  split; [exact (canonC _ _ _ _ _ D3 (by_nice _ _ _ _ _ Nice_file_offset W_file_offset) Can_file_offset)|].
  split; [exact (canonC _ _ _ _ _ D4 (by_nice _ _ _ _ _ Nice_channel_header (fun v _ => W_nil_r _ _ (W_channel_header v _ _ W_nil))) Can_channel_header)|].
  split; [exact (canonC _ _ _ _ _ D5 (by_nice _ _ _ _ _ Nice_channel W_channel) Can_channel)|].
  split; [exact (canonC _ _ _ _ _ D6 (by_nice _ _ _ _ _ Nice_channel_status W_channel_status) Can_channel_status)|].
  split; [exact (canonC _ _ _ _ _ D7 (by_nice _ _ _ _ _ Nice_sub_band W_sub_band) Can_sub_band)|].
  split; [exact (canonC _ _ _ _ _ D8 (by_nice _ _ _ _ _ Nice_sub_profile W_sub_profile) Can_sub_profile)|].
  split; [exact (canonC _ _ _ _ _ D9 (by_nice _ _ _ _ _ Nice_access_profile W_access_profile) Can_access_profile)|].
  split; [exact (canonC _ _ _ _ _ D10 (by_nice _ _ _ _ _ Nice_addressee W_addressee) Can_addressee)|].
  split; [exact (canonC _ _ _ _ _ D11 (by_nice _ _ _ _ _ Nice_qos (fun v _ => W_nil_r _ _ (W_qos v _ _ W_nil))) Can_qos)|].
  split; [exact (canonC _ _ _ _ _ D12 (by_nice _ _ _ _ _ Nice_dash7_status W_dash7_status) Can_dash7_status)|].
  split; [exact (canonC _ _ _ _ _ D13 (by_nice _ _ _ _ _ Nice_dash7_tx_status W_dash7_tx_status) Can_dash7_tx)|].
  split; [exact (canonC _ _ _ _ _ D14 (by_nice _ _ _ _ _ Nice_final_status_code (fun v _ => W_final_code v)) Can_final)|].
  exact (canonC _ _ _ _ _ D15 (by_nice _ _ _ _ _ Nice_file_header W_file_header) Can_file_header).
Qed.
Lemma canonical_operations {E : Env} :
  canonical read_query write_query strict_query /\ canonical read_dash7_config write_dash7_config strict_dash7_config /\
  canonical read_lorawan_config write_lorawan_config strict_lorawan /\
  canonical read_interface_config write_interface_config strict_interface_config /\
  canonical read_indirect_interface write_indirect_interface strict_indirect_interface /\
  canonical read_itf_status_op write_itf_status_op strict_itf_status /\
  canonical read_itf_final_op write_itf_final_op strict_itf_final.
Proof.
  destruct (@decodes_operations E) as (D1 & D2 & D3 & D4 & D5 & D6 & D7).
  split; [exact (canonC _ _ _ _ _ D1 (by_nice _ _ _ _ _ Nice_query W_query) Can_query)|].
  split; [exact (canonC _ _ _ _ _ D2 (by_nice _ _ _ _ _ Nice_dash7_config W_dash7_config) Can_dash7_config)|].
  split.
  { refine (canonC _ _ _ _ _ D3 (by_nice _ _ _ _ _ Nice_lorawan_config _) Can_lorawan). intros v Hv.
    apply W_nil_r. rewrite <- (app_nil_r (enc_lorawan_config v)). exact (W_lorawan v _ _ Hv W_nil). }
  split; [exact (canonC _ _ _ _ _ D4 (by_niceA _ _ _ _ NiceA_interface_config W_interface_config) Can_interface_config)|].
  split; [exact (canonC _ _ _ _ _ D5 (by_niceA _ _ _ _ NiceA_indirect_interface W_indirect_interface) Can_indirect_interface)|].
  split; [exact (canon _ _ _ _ _ D6 (by_niceA _ _ _ _ NiceA_itf_status_op W_itf_status) Fin_itf_status)|].
  exact (canonC _ _ _ _ _ D7 (by_nice _ _ _ _ _ Nice_itf_final_op W_itf_final) Can_itf_final).
Qed.

(** ** Files *)
Lemma W_parsed_file {E : Env} b n d f r : u8 b -> read_file (file_id_of b) n (new_reader d) = Ok (f, r) ->
  W (write_file f) (enc_file f).
Proof.
  intros Hb H.
  assert (K : read_file (file_id_of b) n = read_file (file_id_of b) 0 \/
              read_file (file_id_of b) n = (l <- read_vec_u8 n ;; ret (FOther l))).
  { destruct (file_id_of b); first [left; reflexivity|right; reflexivity]. }
  destruct K as [K|K].
  - rewrite K in H. pose proof (Nice_file b 0 Hb eq_refl (new_reader d) (new_RWf d)) as N1. rewrite H in N1. apply (W_file b), N1.
  - rewrite K in H.
    assert (Q : Nice 0 (l <- read_vec_u8 n ;; ret (FOther l)) (fun f => W (write_file f) (enc_file f))).
    { eapply Nice_map; [apply Nice_vec|]. cbv beta. intros v (Q1 & _). apply W_vec. exact Q1. }
    specialize (Q (new_reader d) (new_RWf d)). rewrite H in Q. apply Q.
Qed.
Lemma canonical_file {E : Env} b n d f : bytes d -> u8 b ->
  (file_from_bytes d 0 (file_id_of b) n = Ok (([], 0%nat), f) /\ file_to_bytes f = Ok d <-> strict_file b n d = Some (f, [])).
Proof.
  intros Hd Hb. pose proof (decode_file b n d Hd) as HD. pose proof (Can_Fin _ _ _ _ (Can_file b n) d Hd) as HF.
  destruct (dec_file b n d) as [[x rest]|].
  - destruct HF as (t & T & _ & C). cbn [app] in T. subst t.
    assert (Wx : to_bytes (write_file x) = Ok (enc_file x)).
    { apply to_bytes_W. unfold file_from_bytes in HD. rewrite u_from_bytes_0 in HD.
      destruct (read_file (file_id_of b) n (new_reader d)) as [[y r]| |] eqn:R; cbn [rbind fst snd] in HD; try discriminate.
      assert (y = x) by congruence. subst y. exact (W_parsed_file _ _ _ _ _ Hb R). }
    unfold file_to_bytes. split.
    + intros (H1 & H2). rewrite HD in H1. assert (x = f /\ rest = []) as (-> & ->) by (split; congruence).
      rewrite Wx in H2. apply Ok_inj in H2. rewrite app_nil_r in C. destruct C as [(C & _)|(_ & C)]; [exact C|congruence].
    + intros H. destruct C as [(C & Q)|(C & _)]; [|congruence]. rewrite C in H. assert (x = f /\ rest = []) as (-> & ->) by (split; congruence).
      rewrite app_nil_r in Q. split; [exact HD|]. rewrite Wx, <- Q. reflexivity.
  - destruct HD as (e' & HD). rewrite HD, HF. split; [intros (H & _)|]; discriminate.
Qed.

(** ** Types with one form only *)
Lemma one_forms {E : Env} :
  one_form read_channel_status write_channel_status /\ one_form read_sub_band write_sub_band /\
  one_form read_qos write_qos /\ one_form read_final_status_code write_final_status_code.
Proof.
  destruct (@decodes_types E) as (D1 & D2 & D3 & D4 & D5 & D6 & D7 & D8 & D9 & D10 & D11 & D12 & D13 & D14 & D15).
  destruct (@canonical_types E) as (C1 & C2 & C3 & C4 & C5 & C6 & C7 & C8 & C9 & C10 & C11 & C12 & C13 & C14 & C15).
  split; [exact (rigidly _ _ _ D6 C6)|]. split; [exact (rigidly _ _ _ D7 C7)|].
  split; [exact (rigidly _ _ _ D11 C11)|]. exact (rigidly _ _ _ D14 C14).
Qed.
Lemma not_one_form {A} (m : reader A) w D S d : decodes m D -> canonical m w S -> bytes d ->
  (exists v, D d = Some (v, [])) -> S d = None -> ~ one_form m w.
Proof.
  intros HD HC Hd (v & H1) H2 O. specialize (HD d Hd). rewrite H1 in HD. destruct HD as (_ & HD).
  pose proof (proj1 (HC d v Hd) (conj HD (O d v Hd HD))) as H. congruence.
Qed.
Ltac nof t := apply t; [repeat (constructor; [reflexivity|]); constructor|eexists; vm_compute; reflexivity|vm_compute; reflexivity].
Lemma many_types {E : Env} :
  ~ one_form read_length write_length /\ ~ one_form read_varint write_varint /\
  ~ one_form read_file_offset write_file_offset /\ ~ one_form read_channel_header write_channel_header /\
  ~ one_form read_channel write_channel /\ ~ one_form read_sub_profile write_sub_profile /\
  ~ one_form read_access_profile write_access_profile /\ ~ one_form read_addressee write_addressee /\
  ~ one_form read_dash7_status write_dash7_status /\ ~ one_form read_dash7_tx_status write_dash7_tx_status /\
  ~ one_form read_file_header write_file_header.
Proof.
  destruct (@decodes_types E) as (D1 & D2 & D3 & D4 & D5 & D6 & D7 & D8 & D9 & D10 & D11 & D12 & D13 & D14 & D15).
  destruct (@canonical_types E) as (C1 & C2 & C3 & C4 & C5 & C6 & C7 & C8 & C9 & C10 & C11 & C12 & C13 & C14 & C15).
  split; [nof (not_one_form _ _ _ _ [0x40; 1] D1 C1)|].
  split; [nof (not_one_form _ _ _ _ [0x21] D2 C2)|].
  split; [nof (not_one_form _ _ _ _ [0; 0x40; 1] D3 C3)|].
  split; [nof (not_one_form _ _ _ _ [0x80] D4 C4)|].
  split; [nof (not_one_form _ _ _ _ [0x80; 0; 0] D5 C5)|].
  split; [nof (not_one_form _ _ _ _ [0; 0x21] D8 C8)|].
  split; [nof (not_one_form _ _ _ _ (0x80 :: repeat 0 64) D9 C9)|].
  destruct E as [ft h rw].
  split; [destruct ft; (nof (not_one_form _ _ _ _ [0; 0; 0x21] D10 C10))|].
  split; [destruct ft; (nof (not_one_form _ _ _ _ (0x80 :: repeat 0 12) D12 C12))|].
  split; [destruct ft, h; (nof (not_one_form _ _ _ _ (0x80 :: repeat 0 14) D13 C13))|].
  nof (not_one_form _ _ _ _ (0 :: 4 :: repeat 0 10) D15 C15).
Qed.
Lemma many_operations {E : Env} :
  ~ one_form read_query write_query /\ ~ one_form read_dash7_config write_dash7_config /\
  ~ one_form read_lorawan_config write_lorawan_config /\ ~ one_form read_interface_config write_interface_config /\
  ~ one_form read_indirect_interface write_indirect_interface /\ ~ one_form read_itf_status_op write_itf_status_op /\
  ~ one_form read_itf_final_op write_itf_final_op.
Proof.
  destruct (@decodes_operations E) as (D1 & D2 & D3 & D4 & D5 & D6 & D7).
  destruct (@canonical_operations E) as (C1 & C2 & C3 & C4 & C5 & C6 & C7).
  split; [nof (not_one_form _ _ _ _ [1; 1; 0; 0] D1 C1)|].
  split.
  { destruct E as [ft h rw]. destruct ft;
      [nof (not_one_form _ _ _ _ [0; 0x21; 0; 0x10; 0] D2 C2)
      |nof (not_one_form _ _ _ _ [0; 0x21; 0x10; 0] D2 C2)
      |nof (not_one_form _ _ _ _ [0; 0x21; 0; 0x10; 0] D2 C2)]. }
  split; [nof (not_one_form _ _ _ _ [0x80; 0; 0] D3 C3)|].
  split; [nof (not_one_form _ _ _ _ (3 :: 0x80 :: repeat 0 34) D4 C4)|].
  split; [destruct E as [[] h rw]; (nof (not_one_form _ _ _ _ [0xD7; 0; 0; 0x21] D5 C5))|].
  split; [destruct E as [ft h []]; (nof (not_one_form _ _ _ _ [0; 1] D6 C6))|].
  nof (not_one_form _ _ _ _ [0xD7; 2; 0] D7 C7).
Qed.
