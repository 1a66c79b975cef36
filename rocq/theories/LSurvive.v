(** Lemmas for C83: which values of the single types survive being written and parsed again. *)
From Coq Require Import List NArith ZArith Bool Lia Arith ZifyBool ZifyNat ZifyN.
From Verif Require Import Base Deku Utils Types Physical Link Network Session Data Query
  Interface File Operation Action WellFormed SpecLayout SpecApi SpecReturn SpecAction SpecDecode SpecSurvive
  LBits LReader LTypes LUtf8 LLayout LRound LRoundOps LAction LApi LNice LNiceFile LNiceOps LCount LActionApi LReencode LReturn LDecodeLoop LFiles DefaultCtx.
Import ListNotations.
Open Scope N_scope.

Lemma parsed_wf {A} (m : reader A) (P : A -> Prop) d rest v : NiceA m P -> d_from_bytes m d 0 = Ok (rest, v) -> P v.
Proof.
  intros HN H. rewrite d_from_bytes_0 in H. specialize (HN (new_reader d) (new_RWf d) eq_refl). unfold NiceR in HN.
  destruct (m (new_reader d)) as [[x r]| |]; try discriminate. destruct HN as (HN & _).
  destruct (Nat.leb _ _); [|discriminate]. assert (x = v) by congruence. subst x. exact HN.
Qed.
Lemma whole_bytes {A} w (m : reader A) v : RTA w m v -> CountA m -> exists l, transfers w m l v.
Proof.
  intros (bs & Hw & H) HC.
  set (l := bytes_of_bits bs).
  assert (R : exists n, length bs = (8 * n)%nat).
  { pose proof (bytes_of_bits_bytes bs) as Hb.
    set (k := Nat.div (length bs + 7) 8).
    set (d := bytes_of_bits (bs ++ repeat false (8 * k - length bs))).
    assert (Hk : (length bs <= 8 * k)%nat) by (unfold k; pose proof (Nat.div_mod (length bs + 7) 8 ltac:(lia)); pose proof (Nat.mod_upper_bound (length bs + 7) 8 ltac:(lia)); lia).
    assert (Hd : bits_of_bytes d = bs ++ repeat false (8 * k - length bs)).
    { unfold d. apply bits_of_bytes_of_bits with (k := k). rewrite app_length, repeat_length. lia. }
    assert (Hp : prefix bs (view (new_reader d))).
    { exists (repeat false (8 * k - length bs)). rewrite <- Hd. unfold view, new_reader. cbn [left pos data skipn app]. reflexivity. }
    pose proof (H (new_reader d) (new_RWf d) eq_refl Hp) as Hm.
    destruct (counted _ _ _ _ HC Hm) as (Hl & _ & _ & _).
    assert (B : BP (adv (new_reader d) (length bs)) = length bs).
    { rewrite BP_adv; [reflexivity|apply new_RWf|apply prefix_length, Hp]. }
    unfold BP in B. rewrite Hl in B. cbn [length] in B. eexists. rewrite <- B. rewrite Nat.sub_0_r. reflexivity. }
  destruct R as (n & Hn). exists l. apply transfers_of; [|exact HC].
  assert (Hl : bits_of_bytes l = bs) by (apply bits_of_bytes_of_bits with (k := n); exact Hn).
  apply RTA_round_trips_as; [split; [rewrite Hl; exact Hw|apply bytes_of_bits_bytes]|].
  exists bs. auto.
Qed.
Lemma settled {A} (m : reader A) (w : A -> writer) (P : A -> Prop) :
  (forall v, P v -> RTA (w v) m v) -> NiceA m P -> CountA m -> survivors m w P.
Proof.
  intros HR HN HC. split; [intros v Hv; apply whole_bytes; [apply HR, Hv|exact HC]|].
  split; [intros v; apply comes_back_wf, HN|intros d rest v; apply parsed_wf, HN].
Qed.
Ltac settle R Nl Cl :=
  apply settled; [intros; first [apply RT_A, R; assumption|apply RT_A, R|apply R; assumption]
    |first [apply Nice_A, Nl|apply Nl]|first [apply Count_A, Cl|apply Cl]].
Lemma Count_final : Count 0 read_final_status_code.
Proof. unfold read_final_status_code. eapply Count_weaken; [apply Count_enum|exists 1%nat; reflexivity]. Qed.

Lemma survive_types {E : Env} :
  survivors read_length write_length wf_length /\ survivors read_varint write_varint wf_varint /\
  survivors read_file_offset write_file_offset wf_file_offset /\
  survivors read_channel_header write_channel_header (fun _ => True) /\ survivors read_channel write_channel wf_channel /\
  survivors read_channel_status write_channel_status wf_channel_status /\ survivors read_sub_band write_sub_band wf_sub_band /\
  survivors read_sub_profile write_sub_profile wf_sub_profile /\ survivors read_access_class write_access_class wf_access_class /\
  survivors read_access_profile write_access_profile wf_access_profile /\
  survivors read_addressee write_addressee wf_addressee /\ survivors read_qos write_qos (fun _ => True) /\
  survivors read_dash7_status write_dash7_status wf_dash7_status /\
  survivors read_dash7_tx_status write_dash7_tx_status wf_tx_status /\
  survivors read_final_status_code write_final_status_code (fun _ => True) /\
  survivors read_file_header write_file_header wf_file_header.
Proof.
  split; [settle @RT_length @Nice_length @Count_length|]. split; [settle @RT_varint @Nice_varint @Count_varint|].
  split; [settle @RT_file_offset @Nice_file_offset @Count_file_offset|].
  split; [settle @RT_channel_header @Nice_channel_header @Count_channel_header|].
  split; [settle @RT_channel @Nice_channel @Count_channel|].
  split; [settle @RT_channel_status @Nice_channel_status @Count_channel_status|].
  split; [settle @RT_sub_band @Nice_sub_band @Count_sub_band|]. split; [settle @RT_sub_profile @Nice_sub_profile @Count_sub_profile|].
  split; [settle @RT_access_class @Nice_access_class @Count_access_class|].
  split; [settle @RT_access_profile @Nice_access_profile @Count_access_profile|].
  split; [settle @RT_addressee @Nice_addressee @Count_addressee|]. split; [settle @RT_qos @Nice_qos @Count_qos|].
  split; [settle @RT_dash7_status @Nice_dash7_status @Count_dash7_status|].
  split; [settle @RT_dash7_tx_status @Nice_dash7_tx_status @Count_dash7_tx_status|].
  split; [settle @RT_final_status_code @Nice_final_status_code @Count_final|]. settle @RT_file_header @Nice_file_header @Count_file_header.
Qed.
Lemma survive_operations {E : Env} :
  survivors read_query write_query wf_query /\ survivors read_dash7_config write_dash7_config wf_dash7_config /\
  survivors read_lorawan_config write_lorawan_config wf_lorawan_config /\ survivors read_otaa write_otaa wf_otaa /\ survivors read_abp write_abp wf_abp /\
  survivors read_interface_config write_interface_config wf_interface_config /\
  survivors read_indirect_interface write_indirect_interface wf_indirect_interface /\
  survivors read_itf_final_op write_itf_final_op wf_itf_final_op.
Proof.
  split; [settle @RT_query @Nice_query @Count_query|]. split; [settle @RT_dash7_config @Nice_dash7_config @Count_dash7_config|].
  split; [settle @RT_lorawan_config @Nice_lorawan_config @Count_lorawan_config|].
  split; [settle @RT_otaa @Nice_otaa @Count_otaa|]. split; [settle @RT_abp @Nice_abp @Count_abp|].
  split; [settle @RTA_interface_config @NiceA_interface_config @CountA_interface_config|].
  split; [settle @RTA_indirect_interface @NiceA_indirect_interface @CountA_indirect_interface|].
  settle @RT_itf_final_op @Nice_itf_final_op @Count_itf_final_op.
Qed.
Lemma survive_files {E : Env} :
  survivors read_dll_config write_dll_config wf_dll_config /\ survivors read_dll_status write_dll_status wf_dll_status /\
  survivors read_engineering_mode write_engineering_mode wf_engineering_mode /\
  survivors read_factory_settings write_factory_settings wf_factory_settings /\
  survivors read_firmware_version write_firmware_version wf_firmware_version /\
  survivors read_phy_status write_phy_status wf_phy_status.
Proof.
  split; [settle @RT_dll_config @Nice_dll_config @Count_dll_config|]. split; [settle @RT_dll_status @Nice_dll_status @Count_dll_status|].
  split; [settle @RT_engineering_mode @Nice_engineering_mode @Count_engineering_mode|].
  split; [settle @RT_factory_settings @Nice_factory_settings @Count_factory_settings|].
  split; [settle @RT_firmware_version @Nice_firmware_version @Count_firmware_version|]. settle @RT_phy_status @Nice_phy_status @Count_phy_status.
Qed.

(** ** Interface statuses *)
Lemma unknown_itf_parses {E : Env} l : wf_payload l -> e_rewind = true -> ~ clashes (N.of_nat (length l)) ->
  parses_bytes read_itf_status_op (enc_length (N.of_nat (length l)) ++ l) (mkItfStatusOp ItUnknown (IsOther l)).
Proof.
  intros (Hb & Hl) He Hc pre suf n. rewrite <- app_assoc. set (k := N.of_nat (length l)) in *. set (d := pre ++ enc_length k ++ l ++ suf).
  assert (Hp : (length pre <= length d)%nat) by (unfold d; rewrite app_length; lia).
  destruct (enc_length_first k Hl) as (x & t & Ex & Hx & HT).
  assert (Hs1 : skipn (length pre) d = enc_length k ++ l ++ suf) by apply skipn_pre.
  unfold read_itf_status_op, bind at 1.
  rewrite (read_interface_type_cons d (length pre) n x (t ++ l ++ suf)); [|exact Hp|rewrite Hs1, Ex; reflexivity|exact Hx].
  rewrite (proj2 HT Hc), He.
  assert (R : RT (write_length_prefixed (write_vec_u8 l))
     (n <- read_length ;; s <- read_interface_status ItUnknown n ;; ret (mkItfStatusOp ItUnknown s))
     (mkItfStatusOp ItUnknown (IsOther l))).
  { apply RT_prefixed with (l := l); [apply W_vec; exact Hb|exact Hl|]. cbn [read_interface_status].
    eapply RT_last; [eapply RT_last; [apply RT_vec_u8; [reflexivity|exact Hb]|reflexivity]|reflexivity]. }
  destruct R as (bs & Hw & R).
  destruct (W_prefixed (write_vec_u8 l) l (W_vec _ Hb) Hl) as (Hw' & _). rewrite Hw' in Hw. injection Hw as <-.
  pose proof (At_start d (length pre) n Hp) as (RW & _ & _ & Hv). cbn [data] in Hv.
  assert (Hpre : prefix (bits_of_bytes (enc_prefixed l)) (view (mkRd d (length pre) [] n))).
  { exists (bits_of_bytes suf). rewrite Hv, Hs1, <- bits_of_bytes_app. unfold enc_prefixed. rewrite <- app_assoc. reflexivity. }
  rewrite R by assumption. rewrite bits_of_bytes_length, adv_aligned; [|exact RW|reflexivity|].
  - eexists. cbn [data pos bread]. reflexivity.
  - apply prefix_length in Hpre. rewrite bits_of_bytes_length in Hpre. exact Hpre.
Qed.
Lemma W_unknown_itf {E : Env} l : wf_payload l -> W (write_itf_status_op (mkItfStatusOp ItUnknown (IsOther l))) (enc_length (N.of_nat (length l)) ++ l).
Proof.
  intros (H1 & H2). unfold write_itf_status_op. cbn [iso_type iso_status]. unfold write_interface_type. cbn [interface_type_id].
  rewrite wseq_nil_l. apply W_prefixed; [apply W_vec; exact H1|exact H2].
Qed.
Lemma survive_itf {E : Env} :
  (forall v, wf_itf_status_op v \/ passes v -> exists l, transfers (write_itf_status_op v) read_itf_status_op l v) /\
  (forall v, comes_back (write_itf_status_op v) read_itf_status_op v -> wf_itf_status_op v \/ passes v) /\
  (forall d rest v, d_from_bytes read_itf_status_op d 0 = Ok (rest, v) -> wf_itf_status_op v \/ unknown_itf_status v).
Proof.
  split; [|split].
  - intros v [H|(l & -> & H1 & H2 & H3)]; [apply whole_bytes; [apply RT_A, RT_itf_status_op, H|apply CountA_itf_status_op]|].
    eexists. apply transfers_of; [|apply CountA_itf_status_op]. split; [apply W_to_bytes, W_unknown_itf, H1|].
    split; [apply (W_unknown_itf l H1)|]. apply unknown_itf_parses; assumption.
  - intros v H. destruct (comes_back_wf _ _ _ _ NiceA_itf_status_op H) as [G|(l & -> & G)]; [left; exact G|]. right. exists l.
    split; [reflexivity|]. split; [exact G|]. destruct H as (b & rest & H1 & H2).
    pose proof (W_to_bytes _ _ (W_unknown_itf l G)) as H3. assert (b = enc_length (N.of_nat (length l)) ++ l) by congruence. subst b.
    set (d := enc_length (N.of_nat (length l)) ++ l) in *. assert (Hd : bytes d) by apply (W_unknown_itf l G).
    destruct (@decodes_operations E) as (_ & _ & _ & _ & _ & D & _). specialize (D d Hd).
    destruct (dec_itf_status d) as [[v r]|] eqn:Dv; [|destruct D as (e & D & _); congruence].
    destruct D as (D & _). assert (v = mkItfStatusOp ItUnknown (IsOther l)) by congruence. subst v.
    assert (DA : dec_action (0x62 :: d) = Some (unknown_status l, r)).
    { unfold dec_action. change (part 0 6 0x62) with 34. 
      assert (DS : dec_status 1 d = Some (StatusInterface (mkItfStatusOp ItUnknown (IsOther l)), r)).
      { unfold dec_status. change (1 =? 0) with false. change (1 =? 1) with true. cbv iota. unfold andthen at 1. rewrite Dv. reflexivity. }
      unfold dec_operand. unfold andthen at 1. unfold one at 1. change (part 6 2 0x62) with 1. unfold andthen at 1. cbv beta iota.
      change (named code_status_type [StAction; StInterface; StInterfaceFinal] 1 d) with (Some (StInterface, d)). cbv iota.
      unfold andthen. rewrite DS. reflexivity. }
    pose proof (decode_action (0x62 :: d) ltac:(constructor; [reflexivity|exact Hd])) as Q. rewrite DA in Q. destruct Q as (k & _ & _ & _ & Q).
    exact (unknown_back l _ G Q).
  - intros d rest v. apply (parsed_wf _ _ _ _ _ NiceA_itf_status_op).
Qed.

(** ** Files *)
Lemma file_parsed {E : Env} b n d rest f : u8 b -> wf_length n -> file_from_bytes d 0 (file_id_of b) n = Ok (rest, f) -> wf_file b f.
Proof.
  intros Hb Hn H. unfold file_from_bytes in H. rewrite u_from_bytes_0 in H.
  pose proof (Nice_file b n Hb Hn (new_reader d) (new_RWf d)) as HN.
  destruct (read_file (file_id_of b) n (new_reader d)) as [[x r]| |]; try discriminate. destruct HN as (HN & _).
  assert (x = f) by congruence. subst x. exact HN.
Qed.
Lemma file_survives {E : Env} b n f : u8 b -> wf_length n ->
  ((exists l rest, file_to_bytes f = Ok l /\ file_from_bytes l 0 (file_id_of b) n = Ok (rest, f)) <->
   wf_file b f /\ match f with FOther l => n = N.of_nat (length l) | _ => True end).
Proof.
  intros Hb Hn. split.
  - intros (l & rest & H1 & H2). pose proof (file_parsed b n l rest f Hb Hn H2) as Hf. split; [exact Hf|].
    destruct f as [| | | | | | | | | |p]; try exact I. unfold file_from_bytes in H2. rewrite u_from_bytes_0 in H2.
    destruct (read_file (file_id_of b) n (new_reader l)) as [[x r]| |] eqn:R; try discriminate.
    assert (x = FOther p) by congruence. subst x. clear H2. destruct Hf as (Hf & Hp).
    rewrite (untyped_reader b n Hb Hf) in R. unfold bind in R. pose proof (Nice_vec n (new_reader l) (new_RWf l)) as Q.
    destruct (read_vec_u8 n (new_reader l)) as [[v r1]| |]; try discriminate. unfold ret in R.
    assert (v = p) by congruence. subst v. symmetry. apply Q.
  - intros (Hf & Ha). pose proof (W_to_bytes _ _ (W_file b f Hf)) as Hw. exists (enc_file f).
    destruct (file_exact b (N.of_nat (length (enc_file f))) f Hb eq_refl) as (T & _). destruct (T Hf) as (_ & T2 & T3). specialize (T3 []).
    rewrite app_nil_r in T3.
    assert (RF : read_file (file_id_of b) n (new_reader (enc_file f)) = read_file (file_id_of b) (N.of_nat (length (enc_file f))) (new_reader (enc_file f))).
    { destruct (typed_ids b) as [K|K]; [apply typed_any_length; exact K|]. destruct f; try (exfalso; apply K; unfold wf_file, typed_file_ids in *; cbn [In]; intuition lia).
      subst n. reflexivity. }
    rewrite d_from_bytes_0, <- RF in T3. unfold file_from_bytes. rewrite u_from_bytes_0.
    destruct (read_file (file_id_of b) n (new_reader (enc_file f))) as [[x r]| |]; try discriminate.
    destruct (Nat.leb _ _); [|discriminate]. assert (x = f) by congruence. subst x.
    eexists. split; [exact Hw|reflexivity].
Qed.

(** A payload of one byte whose length is given in two bytes. *)
Lemma survive_refuted {E : Env} : ~ (forall d rest v, bytes d -> d_from_bytes read_itf_status_op d 0 = Ok (rest, v) ->
  comes_back (write_itf_status_op v) read_itf_status_op v).
Proof.
  intros H. assert (K : exists d rest l, bytes d /\ d_from_bytes read_itf_status_op d 0 = Ok (rest, mkItfStatusOp ItUnknown (IsOther l)) /\
    (e_rewind = true -> clashes (N.of_nat (length l)))).
  { destruct E as [f h []]; [exists [0x40; 1; 9]|exists [9; 1; 9]]; do 2 eexists; (split; [repeat constructor|]);
      (split; [vm_compute; reflexivity|]); [intros _; left; reflexivity|discriminate]. }
  destruct K as (d & rest & l & H1 & H2 & H3). apply H in H2; [|exact H1]. apply survive_itf in H2 as [H2|(p & H2 & _ & H4 & H5)]; [exact H2|].
  assert (p = l) by congruence. subst p. exact (H5 (H3 H4)).
Qed.
