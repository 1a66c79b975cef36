(** Addressees, queries and LoRaWAN configurations on their own: C19, C20, C21, C44, C46. *)
From Coq Require Import List NArith ZArith Bool Lia ZifyBool ZifyNat ZifyN Arith.
From Verif Require Import Base Deku Utils Types Physical Link Network Session Data Query
  Interface File Operation Action WellFormed SpecLayout SpecApi SpecReturn LBits LReader LTypes LUtf8 LLayout
  LRound LRoundOps LApi LNice LNiceFile LNiceOps LCount LActionApi LReturn.
Import ListNotations.
Open Scope N_scope.

(** ** Addressee *)
Lemma kind_matches a : address_matches (address_kind a) a.
Proof. destruct a; exact I. Qed.
Lemma method_matches s : nls_matches (nls_state_method s) s.
Proof. destruct s; exact I. Qed.
Lemma addressee_new_wf {E : Env} u g a s c :
  wf_addressee (addressee_new u g a s c) <->
  ((e_feat = Wizzilab \/ (g = GcAny /\ u = false)) /\ wf_address a /\ wf_nls_state s /\ wf_access_class c).
Proof.
  unfold wf_addressee, addressee_new. cbn [ad_group ad_use_vid ad_type ad_address ad_nls ad_state ad_access].
  pose proof (kind_matches a). pose proof (method_matches s). tauto.
Qed.
Lemma addressee_new_exact {E : Env} u g a s c :
  let v := addressee_new u g a s c in
  comes_back (write_addressee v) read_addressee v <->
  (e_feat = Wizzilab \/ (g = GcAny /\ u = false)) /\ wf_address a /\ wf_nls_state s /\ wf_access_class c.
Proof. intros v. rewrite <- addressee_new_wf. apply addressee_exact. Qed.
Lemma addressee_new_transfers {E : Env} u g a s c :
  (e_feat = Wizzilab \/ (g = GcAny /\ u = false)) -> wf_address a -> wf_nls_state s -> wf_access_class c ->
  let v := addressee_new u g a s c in
  transfers (write_addressee v) read_addressee (enc_addressee v) v.
Proof. intros H1 H2 H3 H4 v. apply addressee_exact, addressee_new_wf. tauto. Qed.
Lemma pack2 a b x y : pack [(a, x); (b, y)] = x * 2 ^ b + y.
Proof. unfold pack. cbn [fold_left fst snd]. lia. Qed.
Lemma addressee_layout {E : Env} u g a s c :
  (e_feat = Wizzilab \/ (g = GcAny /\ u = false)) -> wf_address a -> wf_nls_state s -> wf_access_class c ->
  exists addr key,
    to_bytes (write_addressee (addressee_new u g a s c)) =
      Ok (64 * code_group g + 16 * match a with NbId _ => 0 | NoId => 1 | UId _ => 2 | VId _ => 3 end
          + 8 * bit u + code_nls (nls_state_method s)
          :: 16 * ac_specifier c + ac_mask c :: addr ++ key) /\
    addr = match a with
           | NbId v => enc_varint v | NoId => [] | UId n => be_bytes 8 n | VId n => be_bytes 2 n
           end /\
    length addr = match a with NbId _ => 1 | NoId => 0 | UId _ => 8 | VId _ => 2 end%nat /\
    key = enc_nls_state s /\ length key = match s with NsNone => 0 | _ => 5 end%nat.
Proof.
  intros H1 H2 H3 H4. exists (enc_address a), (enc_nls_state s).
  destruct (addressee_new_transfers u g a s c H1 H2 H3 H4) as ((HW & _) & _). rewrite HW.
  split.
  - f_equal. unfold enc_addressee, addressee_new.
    cbn [ad_group ad_use_vid ad_type ad_address ad_nls ad_state ad_access].
    assert (C : enc_access_class c = 16 * ac_specifier c + ac_mask c).
    { unfold enc_access_class. rewrite pack2. change (2 ^ 4) with 16. lia. }
    rewrite C. f_equal. destruct H1 as [H1|(-> & ->)].
    + rewrite H1. unfold pack. cbn [fold_left fst snd].
      change (2 ^ 2) with 4. change (2 ^ 1) with 2. change (2 ^ 3) with 8. destruct a; cbn [address_kind code_address_type]; lia.
    + destruct e_feat; unfold pack; cbn [fold_left fst snd code_group bit];
        change (2 ^ 2) with 4; change (2 ^ 1) with 2; change (2 ^ 3) with 8; change (2 ^ 4) with 16;
        destruct a; cbn [address_kind code_address_type]; lia.
  - split; [reflexivity|]. split; [destruct a; reflexivity|]. split; [reflexivity|].
    destruct s; cbn [wf_nls_state enc_nls_state] in *; [reflexivity|apply H3..].
Qed.

Lemma update_repairs {E : Env} v a s : wf_addressee v -> wf_address a -> wf_nls_state s ->
  let v' := addressee_update (mkAddressee (ad_group v) (ad_type v) (ad_use_vid v) (ad_nls v) (ad_access v) a s) in
  transfers (write_addressee v') read_addressee (enc_addressee v') v' /\
  addressee_update v' = v' /\
  v' = addressee_new (ad_use_vid v) (ad_group v) a s (ad_access v).
Proof.
  intros (H1 & _ & _ & H2 & _) Ha Hs v'. split; [|split; reflexivity].
  apply addressee_exact. change v' with (addressee_new (ad_use_vid v) (ad_group v) a s (ad_access v)).
  apply addressee_new_wf. tauto.
Qed.
Lemma update_consistent v : addressee_update v = v <->
  address_matches (ad_type v) (ad_address v) /\ nls_matches (ad_nls v) (ad_state v).
Proof.
  destruct v as [g t u n c a s]. unfold addressee_update. cbn [ad_group ad_use_vid ad_type ad_address ad_nls ad_state ad_access].
  split.
  - intros H. injection H as <- <-. split; [apply kind_matches|apply method_matches].
  - intros (H1 & H2). apply address_matches_kind in H1. apply nls_matches_method in H2. subst. reflexivity.
Qed.
Lemma no_update {E : Env} v a s : wf_addressee v -> wf_address a -> wf_nls_state s ->
  let v' := mkAddressee (ad_group v) (ad_type v) (ad_use_vid v) (ad_nls v) (ad_access v) a s in
  comes_back (write_addressee v') read_addressee v' <->
  address_matches (ad_type v) a /\ nls_matches (ad_nls v) s.
Proof.
  intros (H1 & _ & _ & H2 & _) Ha Hs v'. rewrite (proj2 (addressee_exact v')).
  unfold wf_addressee, v'. cbn [ad_group ad_use_vid ad_type ad_address ad_nls ad_state ad_access]. tauto.
Qed.

(** ** Queries *)
Lemma of_usize_payload (l : list N) : wf_length (length_of_usize (length l)) -> N.of_nat (length l) = length_of_usize (length l) ->
  N.of_nat (length l) < 2 ^ 30.
Proof. intros H1 H2. rewrite H2. exact H1. Qed.
Lemma of_usize_small (l : list N) : wf_length (N.of_nat (length l)) -> length_of_usize (length l) = N.of_nat (length l).
Proof. unfold wf_length, length_of_usize. intros H. apply N.mod_small. lia. Qed.
Lemma present_spec (l : list N) : Nat.ltb 0 (length l) = match l with [] => false | _ => true end.
Proof. destruct l; reflexivity. Qed.
Lemma nil_length (l : list N) : length l = 0%nat -> l = [].
Proof. destruct l; [reflexivity|discriminate]. Qed.

(** The mask alone gives the length. *)
Lemma mask_only (l : list N) : wf_length (length_of_usize (length l)) /\
  wf_mask (Nat.ltb 0 (length l)) (length_of_usize (length l)) l <-> wf_payload l.
Proof.
  unfold wf_mask, wf_payload. rewrite present_spec. split.
  - intros (H1 & H2 & H3). split; [exact H2|]. destruct l; [reflexivity|]. rewrite H3. exact H1.
  - intros (H1 & H2). rewrite of_usize_small by exact H2. split; [exact H2|]. split; [exact H1|]. destruct l; reflexivity.
Qed.
Lemma mask_always (l : list N) : wf_length (length_of_usize (length l)) /\ wf_mask true (length_of_usize (length l)) l <-> wf_payload l.
Proof.
  unfold wf_mask, wf_payload. split.
  - intros (H1 & H2 & H3). split; [exact H2|]. rewrite H3. exact H1.
  - intros (H1 & H2). rewrite of_usize_small by exact H2. auto.
Qed.
Lemma mask_value (k l : list N) : wf_length (length_of_usize (length l)) /\
  wf_mask (Nat.ltb 0 (length k)) (length_of_usize (length l)) k /\ wf_mask true (length_of_usize (length l)) l <->
  wf_payload l /\ bytes k /\ (k = [] \/ length k = length l).
Proof.
  rewrite <- mask_always. unfold wf_mask. rewrite present_spec. split.
  - intros (H1 & (H2 & H3) & H4 & H5). split; [auto|]. split; [exact H2|]. destruct k as [|x k]; [left; reflexivity|right; lia].
  - intros ((H1 & H4 & H5) & H2 & H3). split; [exact H1|]. split; [|auto]. split; [exact H2|].
    destruct k as [|x k]; [reflexivity|]. destruct H3 as [H3|H3]; [discriminate|]. lia.
Qed.
Lemma mask_search (k l : list N) : wf_length (length_of_usize (length l)) /\
  wf_mask true (length_of_usize (length l)) k /\ wf_mask true (length_of_usize (length l)) l <->
  wf_payload l /\ bytes k /\ length k = length l.
Proof.
  rewrite <- mask_always. unfold wf_mask. split.
  - intros (H1 & (H2 & H3) & H4 & H5). split; [auto|]. split; [exact H2|]. lia.
  - intros ((H1 & H4 & H5) & H2 & H3). split; [exact H1|]. split; [|auto]. split; [exact H2|]. lia.
Qed.

Lemma cmp_zero_new_wf p k f : wf_query (QCmpZero (cmp_zero_new p k f)) <-> wf_payload k /\ wf_file_offset f.
Proof. rewrite <- mask_only. cbn. tauto. Qed.
Lemma cmp_value_new_wf p k l f : wf_query (QCmpValue (cmp_value_new p k l f)) <->
  wf_payload l /\ bytes k /\ (k = [] \/ length k = length l) /\ wf_file_offset f.
Proof. pose proof (mask_value k l). cbn in *. tauto. Qed.
Lemma cmp_other_new_wf p k f g : wf_query (QCmpOther (cmp_other_new p k f g)) <->
  wf_payload k /\ wf_file_offset f /\ wf_file_offset g.
Proof. rewrite <- mask_only. cbn. tauto. Qed.
Lemma bitmap_range_new_wf p a b k f : wf_query (QBitmapRange (bitmap_range_new p a b k f)) <->
  wf_payload k /\ wf_length a /\ wf_length b /\ wf_file_offset f.
Proof. rewrite <- mask_always. cbn. tauto. Qed.
Lemma string_search_new_wf e k l f : wf_query (QStringSearch (string_search_new e k l f)) <->
  wf_payload l /\ bytes k /\ length k = length l /\ e < 8 /\ wf_file_offset f.
Proof. pose proof (mask_search k l). cbn in *. tauto. Qed.

Lemma query_back q : comes_back (write_query q) read_query q <-> wf_query q.
Proof. apply query_exact. Qed.

(** ** update *)
Lemma cmp_zero_update_new v : cmp_zero_update v = cmp_zero_new (cz_params v) (cz_mask v) (cz_file v).
Proof. reflexivity. Qed.
Lemma cmp_value_update_new v : cmp_value_update v = cmp_value_new (cv_params v) (cv_mask v) (cv_value v) (cv_file v).
Proof. reflexivity. Qed.
Lemma string_search_update_new v :
  string_search_update v = string_search_new (ss_max_errors v) (ss_mask v) (ss_value v) (ss_file v).
Proof. reflexivity. Qed.
Lemma cmp_other_update_wf v : wf_query (QCmpOther (cmp_other_update v)) <->
  wf_length (co_length v) /\ bytes (co_mask v) /\
  (co_mask v = [] \/ N.of_nat (length (co_mask v)) = co_length v) /\
  wf_file_offset (co_file1 v) /\ wf_file_offset (co_file2 v).
Proof.
  cbn. unfold wf_mask. change (match length (co_mask v) with 0%nat => false | S _ => true end) with (Nat.ltb 0 (length (co_mask v))).
  rewrite present_spec. destruct (co_mask v) as [|x k] eqn:Ek; [cbn; tauto|].
  assert (x :: k <> []) by discriminate. intuition congruence.
Qed.
Lemma bitmap_range_update_wf v : wf_query (QBitmapRange (bitmap_range_update v)) <->
  wf_length (br_length v) /\ bytes (br_mask v) /\ N.of_nat (length (br_mask v)) = br_length v /\
  wf_length (br_start v) /\ wf_length (br_stop v) /\ wf_file_offset (br_file v).
Proof. cbn. unfold wf_mask. tauto. Qed.

(** ** LoRaWAN *)
Lemma otaa_back {E : Env} c : wf_lorawan_config (ot_base c) -> bytes (ot_dev_eui c) -> bytes (ot_app_eui c) -> bytes (ot_app_key c) ->
  (comes_back (write_interface_config (IcOtaa c)) read_interface_config (IcOtaa c) <->
   length (ot_dev_eui c) = 8%nat /\ length (ot_app_eui c) = 8%nat /\ length (ot_app_key c) = 16%nat).
Proof.
  intros. rewrite (proj2 (interface_config_exact (IcOtaa c))). cbn. unfold wf_otaa, wf_fixed. tauto.
Qed.
Lemma abp_back {E : Env} c : wf_lorawan_config (ab_base c) -> bytes (ab_nwk_key c) -> bytes (ab_app_key c) ->
  u32 (ab_dev_addr c) -> u32 (ab_net_id c) ->
  (comes_back (write_interface_config (IcAbp c)) read_interface_config (IcAbp c) <->
   length (ab_nwk_key c) = 16%nat /\ length (ab_app_key c) = 16%nat).
Proof.
  intros. rewrite (proj2 (interface_config_exact (IcAbp c))). cbn. unfold wf_abp, wf_fixed. tauto.
Qed.

(** ** What update stores *)
Lemma present_iff (l : list N) : Nat.ltb 0 (length l) = true <-> l <> [].
Proof. rewrite present_spec. destruct l; split; congruence. Qed.
Lemma of_usize_u32 (l : list N) : N.of_nat (length l) < 2 ^ 32 -> length_of_usize (length l) = N.of_nat (length l).
Proof. intros H. unfold length_of_usize. apply N.mod_small. exact H. Qed.
Lemma update_agrees z v s :
  N.of_nat (length (cz_mask z)) < 2 ^ 32 -> N.of_nat (length (cv_value v)) < 2 ^ 32 ->
  N.of_nat (length (ss_value s)) < 2 ^ 32 ->
  (cz_mask_present (cmp_zero_update z) = true <-> cz_mask z <> []) /\
  cz_length (cmp_zero_update z) = N.of_nat (length (cz_mask z)) /\
  (cv_mask_present (cmp_value_update v) = true <-> cv_mask v <> []) /\
  cv_length (cmp_value_update v) = N.of_nat (length (cv_value v)) /\
  (ss_mask_present (string_search_update s) = true <-> ss_mask s <> []) /\
  ss_length (string_search_update s) = N.of_nat (length (ss_value s)).
Proof.
  intros H1 H2 H3. cbn [cmp_zero_update cmp_value_update string_search_update cz_mask_present cz_length cv_mask_present
    cv_length ss_mask_present ss_length].
  rewrite !of_usize_u32 by assumption. repeat split; try apply present_iff.
Qed.
Lemma update_keeps_length o b :
  (co_mask_present (cmp_other_update o) = true <-> co_mask o <> []) /\
  co_length (cmp_other_update o) = co_length o /\
  (br_mask_present (bitmap_range_update b) = true <-> br_mask b <> []) /\
  br_length (bitmap_range_update b) = br_length b.
Proof.
  cbn [cmp_other_update bitmap_range_update co_mask_present co_length br_mask_present br_length].
  split; [apply present_iff|]. split; [reflexivity|]. split; [apply present_iff|reflexivity].
Qed.
Lemma update_back_good :
  (forall z, let q := QCmpZero (cmp_zero_update z) in
     comes_back (write_query q) read_query q <-> wf_payload (cz_mask z) /\ wf_file_offset (cz_file z)) /\
  (forall v, let q := QCmpValue (cmp_value_update v) in
     comes_back (write_query q) read_query q <->
     wf_payload (cv_value v) /\ bytes (cv_mask v) /\ (cv_mask v = [] \/ length (cv_mask v) = length (cv_value v)) /\
     wf_file_offset (cv_file v)) /\
  (forall s, let q := QStringSearch (string_search_update s) in
     comes_back (write_query q) read_query q <->
     wf_payload (ss_value s) /\ bytes (ss_mask s) /\ length (ss_mask s) = length (ss_value s) /\
     ss_max_errors s < 8 /\ wf_file_offset (ss_file s)).
Proof.
  split; [|split]; intros v q; rewrite query_back; unfold q.
  - rewrite cmp_zero_update_new. apply cmp_zero_new_wf.
  - rewrite cmp_value_update_new. apply cmp_value_new_wf.
  - rewrite string_search_update_new. apply string_search_new_wf.
Qed.
Lemma update_back_bad :
  (forall o, let q := QCmpOther (cmp_other_update o) in
     comes_back (write_query q) read_query q <->
     wf_length (co_length o) /\ bytes (co_mask o) /\
     (co_mask o = [] \/ N.of_nat (length (co_mask o)) = co_length o) /\
     wf_file_offset (co_file1 o) /\ wf_file_offset (co_file2 o)) /\
  (forall b, let q := QBitmapRange (bitmap_range_update b) in
     comes_back (write_query q) read_query q <->
     wf_length (br_length b) /\ bytes (br_mask b) /\ N.of_nat (length (br_mask b)) = br_length b /\
     wf_length (br_start b) /\ wf_length (br_stop b) /\ wf_file_offset (br_file b)).
Proof.
  split; intros v q; rewrite query_back; [apply cmp_other_update_wf|apply bitmap_range_update_wf].
Qed.
(** Taking a valid query, replacing its mask and calling update. *)
Lemma update_refuted : exists o b, wf_query (QCmpOther o) /\ wf_query (QBitmapRange b) /\
  (let o' := cmp_other_update (mkCmpOther (co_mask_present o) (co_params o) (co_length o) [1; 2] (co_file1 o) (co_file2 o)) in
   co_length o' <> N.of_nat (length (co_mask o')) /\
   ~ comes_back (write_query (QCmpOther o')) read_query (QCmpOther o')) /\
  (let b' := bitmap_range_update (mkBitmapRange (br_mask_present b) (br_params b) (br_length b) (br_start b) (br_stop b) [1; 2] (br_file b)) in
   br_length b' <> N.of_nat (length (br_mask b')) /\
   ~ comes_back (write_query (QBitmapRange b')) read_query (QBitmapRange b')).
Proof.
  exists (cmp_other_new (mkArithParams false CmpEqual) [7] (mkFileOffset 1 0) (mkFileOffset 2 0)),
         (bitmap_range_new (mkRangeParams false InRange) 0 1 [7] (mkFileOffset 1 0)).
  assert (B : bytes [7]) by (constructor; [reflexivity|constructor]).
  split; [apply cmp_other_new_wf; repeat split; cbn; try lia; exact B|].
  split; [apply bitmap_range_new_wf; repeat split; cbn; try lia; exact B|].
  split; (split; [intros H; vm_compute in H; discriminate|]); rewrite query_back.
  - rewrite cmp_other_update_wf. cbn. intros (_ & _ & [H|H] & _); [discriminate|]. vm_compute in H. discriminate.
  - rewrite bitmap_range_update_wf. cbn. intros (_ & _ & H & _). vm_compute in H. discriminate.
Qed.
Lemma query_new_exact :
  (forall p k f, let q := QCmpZero (cmp_zero_new p k f) in
     comes_back (write_query q) read_query q <-> wf_payload k /\ wf_file_offset f) /\
  (forall p k l f, let q := QCmpValue (cmp_value_new p k l f) in
     comes_back (write_query q) read_query q <->
     wf_payload l /\ bytes k /\ (k = [] \/ length k = length l) /\ wf_file_offset f) /\
  (forall p k f g, let q := QCmpOther (cmp_other_new p k f g) in
     comes_back (write_query q) read_query q <-> wf_payload k /\ wf_file_offset f /\ wf_file_offset g) /\
  (forall p a b k f, let q := QBitmapRange (bitmap_range_new p a b k f) in
     comes_back (write_query q) read_query q <-> wf_payload k /\ wf_length a /\ wf_length b /\ wf_file_offset f) /\
  (forall e k l f, let q := QStringSearch (string_search_new e k l f) in
     comes_back (write_query q) read_query q <->
     wf_payload l /\ bytes k /\ length k = length l /\ e < 8 /\ wf_file_offset f) /\
  (forall n f, let q := QNonVoid (mkNonVoid n f) in
     comes_back (write_query q) read_query q <-> wf_length n /\ wf_file_offset f).
Proof.
  split; [|split; [|split; [|split; [|split]]]]; intros; unfold q; rewrite query_back; [apply cmp_zero_new_wf|apply cmp_value_new_wf|apply cmp_other_new_wf|apply bitmap_range_new_wf|apply string_search_new_wf|reflexivity].
Qed.
