(** C19, C20, C21, C44, C46: addressees, queries and LoRaWAN configurations. *)
From Coq Require Import List NArith ZArith Bool Lia.
From Verif Require Import Base Deku Utils Types Physical Link Network Session Data Query Interface
  WellFormed SpecLayout SpecApi SpecReturn LStandalone.
Import ListNotations.
Open Scope N_scope.

(** C19. *)
Theorem C19_addressee_round_trip : forall (E : Env) use_vid g a s c,
  (e_feat = Wizzilab \/ (g = GcAny /\ use_vid = false)) ->
  wf_address a -> wf_nls_state s -> wf_access_class c ->
  let v := addressee_new use_vid g a s c in
  transfers (write_addressee v) read_addressee (enc_addressee v) v.
Proof. exact @addressee_new_transfers. Qed.
Print Assumptions C19_addressee_round_trip.

Theorem C19_addressee_layout : forall (E : Env) use_vid g a s c,
  (e_feat = Wizzilab \/ (g = GcAny /\ use_vid = false)) ->
  wf_address a -> wf_nls_state s -> wf_access_class c ->
  exists addr key,
    to_bytes (write_addressee (addressee_new use_vid g a s c)) =
      Ok (64 * code_group g + 16 * match a with NbId _ => 0 | NoId => 1 | UId _ => 2 | VId _ => 3 end
          + 8 * bit use_vid + code_nls (nls_state_method s)
          :: 16 * ac_specifier c + ac_mask c :: addr ++ key) /\
    addr = match a with
           | NbId v => enc_varint v | NoId => [] | UId n => be_bytes 8 n | VId n => be_bytes 2 n
           end /\
    length addr = match a with NbId _ => 1 | NoId => 0 | UId _ => 8 | VId _ => 2 end%nat /\
    key = enc_nls_state s /\ length key = match s with NsNone => 0 | _ => 5 end%nat.
Proof. exact @addressee_layout. Qed.
Print Assumptions C19_addressee_layout.

(** In-range parts are also necessary. *)
Theorem C19_addressee_exact : forall (E : Env) use_vid g a s c,
  let v := addressee_new use_vid g a s c in
  comes_back (write_addressee v) read_addressee v <->
  (e_feat = Wizzilab \/ (g = GcAny /\ use_vid = false)) /\ wf_address a /\ wf_nls_state s /\ wf_access_class c.
Proof. exact @addressee_new_exact. Qed.
Print Assumptions C19_addressee_exact.

Example C19_example_spec :
  to_bytes (@write_addressee env_spec
    (addressee_new false GcAny (VId 0xABCD) (NsAesCtr [1; 2; 3; 4; 5]) (mkAccessClass 2 1)))
  = Ok [0x31; 0x21; 0xAB; 0xCD; 1; 2; 3; 4; 5].
Proof. reflexivity. Qed.
Example C19_example_wizzilab :
  to_bytes (@write_addressee env_wizzilab
    (addressee_new true GcEqual (UId 0x1122334455667788) (NsAesCcm32 [9; 8; 7; 6; 5]) (mkAccessClass 15 0)))
  = Ok [0xAF; 0xF0; 0x11; 0x22; 0x33; 0x44; 0x55; 0x66; 0x77; 0x88; 9; 8; 7; 6; 5] /\
  wf_address (UId 0x1122334455667788) /\ wf_nls_state (NsAesCcm32 [9; 8; 7; 6; 5]) /\ wf_access_class (mkAccessClass 15 0).
Proof.
  split; [reflexivity|]. split; [reflexivity|]. split; [split; [repeat constructor|reflexivity]|].
  split; reflexivity.
Qed.

(** C20. *)
Theorem C20_update_repairs : forall (E : Env) v a s, wf_addressee v -> wf_address a -> wf_nls_state s ->
  let v' := addressee_update (mkAddressee (ad_group v) (ad_type v) (ad_use_vid v) (ad_nls v) (ad_access v) a s) in
  transfers (write_addressee v') read_addressee (enc_addressee v') v' /\
  addressee_update v' = v' /\
  v' = addressee_new (ad_use_vid v) (ad_group v) a s (ad_access v).
Proof. exact @update_repairs. Qed.
Print Assumptions C20_update_repairs.

Theorem C20_without_update : forall (E : Env) v a s, wf_addressee v -> wf_address a -> wf_nls_state s ->
  let v' := mkAddressee (ad_group v) (ad_type v) (ad_use_vid v) (ad_nls v) (ad_access v) a s in
  comes_back (write_addressee v') read_addressee v' <->
  address_matches (ad_type v) a /\ nls_matches (ad_nls v) s.
Proof. exact @no_update. Qed.
Print Assumptions C20_without_update.

Theorem C20_update_fixpoint : forall v, addressee_update v = v <->
  address_matches (ad_type v) (ad_address v) /\ nls_matches (ad_nls v) (ad_state v).
Proof. exact update_consistent. Qed.
Print Assumptions C20_update_fixpoint.

(** A virtual id assigned to an addressee without address: the type still says "no id". *)
Example C20_example : forall (E : Env),
  let v := addressee_new false GcAny NoId NsNone (mkAccessClass 0 1) in
  let v' := mkAddressee GcAny AtNoId false NlsNone (mkAccessClass 0 1) (VId 5) NsNone in
  wf_addressee v /\ ~ comes_back (write_addressee v') read_addressee v' /\
  addressee_update v' = addressee_new false GcAny (VId 5) NsNone (mkAccessClass 0 1).
Proof.
  intros E v v'. assert (Hv : wf_addressee v).
  { apply addressee_new_wf. split; [right; split; reflexivity|]. split; [exact I|]. split; [exact I|]. split; reflexivity. }
  split; [exact Hv|]. split; [|reflexivity].
  intros H. apply (no_update v (VId 5) NsNone Hv) in H; [destruct H as ([] & _)|reflexivity|exact I].
Qed.

(** C21. *)
Theorem C21_query_layout : forall q, wf_query q -> transfers (write_query q) read_query (enc_query q) q.
Proof. exact (fun q => proj1 (LReturn.query_exact q)). Qed.
Print Assumptions C21_query_layout.

Theorem C21_query_exact :
  (forall p k f, let q := QCmpZero (cmp_zero_new p k f) in
     comes_back (write_query q) read_query q <-> wf_payload k /\ wf_file_offset f) /\
  (forall p k l f, let q := QCmpValue (cmp_value_new p k l f) in
     comes_back (write_query q) read_query q <->
     wf_payload l /\ bytes k /\ (k = [] \/ length k = length l) /\ wf_file_offset f) /\
  (forall p k f g, let q := QCmpOther (cmp_other_new p k f g) in
     comes_back (write_query q) read_query q <-> wf_payload k /\ wf_file_offset f /\ wf_file_offset g) /\
  (forall p a b k f, let q := QBitmapRange (bitmap_range_new p a b k f) in
     comes_back (write_query q) read_query q <-> wf_payload k /\ wf_length a /\ wf_length b /\ wf_file_offset f) /\
  (forall e k l f, let q := QStringSearch (string_search_new e k l f) in
     comes_back (write_query q) read_query q <->
     wf_payload l /\ bytes k /\ length k = length l /\ e < 8 /\ wf_file_offset f) /\
  (forall n f, let q := QNonVoid (mkNonVoid n f) in
     comes_back (write_query q) read_query q <-> wf_length n /\ wf_file_offset f).
Proof. exact query_new_exact. Qed.
Print Assumptions C21_query_exact.

(** A mask that is too short is taken together with the value. *)
Example C21_example :
  to_bytes (write_query (QCmpValue (cmp_value_new (mkArithParams true CmpGt) [0xFF; 0xFF] [1; 2] (mkFileOffset 4 5))))
  = Ok [0x5C; 2; 0xFF; 0xFF; 1; 2; 4; 5] /\
  (let q := QCmpValue (cmp_value_new (mkArithParams true CmpGt) [0xFF] [1; 2] (mkFileOffset 4 5)) in
   ~ comes_back (write_query q) read_query q).
Proof.
  split; [reflexivity|]. intros q H. apply (proj1 (proj2 query_new_exact)) in H.
  destruct H as (_ & _ & [H|H] & _); discriminate.
Qed.

(** C44. *)
Theorem C44_update_agrees : forall z v s,
  N.of_nat (length (cz_mask z)) < 2 ^ 32 -> N.of_nat (length (cv_value v)) < 2 ^ 32 ->
  N.of_nat (length (ss_value s)) < 2 ^ 32 ->
  (cz_mask_present (cmp_zero_update z) = true <-> cz_mask z <> []) /\
  cz_length (cmp_zero_update z) = N.of_nat (length (cz_mask z)) /\
  (cv_mask_present (cmp_value_update v) = true <-> cv_mask v <> []) /\
  cv_length (cmp_value_update v) = N.of_nat (length (cv_value v)) /\
  (ss_mask_present (string_search_update s) = true <-> ss_mask s <> []) /\
  ss_length (string_search_update s) = N.of_nat (length (ss_value s)).
Proof. exact update_agrees. Qed.
Print Assumptions C44_update_agrees.

Theorem C44_update_refuted : exists o b, wf_query (QCmpOther o) /\ wf_query (QBitmapRange b) /\
  (let o' := cmp_other_update (mkCmpOther (co_mask_present o) (co_params o) (co_length o) [1; 2] (co_file1 o) (co_file2 o)) in
   co_length o' <> N.of_nat (length (co_mask o')) /\
   ~ comes_back (write_query (QCmpOther o')) read_query (QCmpOther o')) /\
  (let b' := bitmap_range_update (mkBitmapRange (br_mask_present b) (br_params b) (br_length b) (br_start b) (br_stop b) [1; 2] (br_file b)) in
   br_length b' <> N.of_nat (length (br_mask b')) /\
   ~ comes_back (write_query (QBitmapRange b')) read_query (QBitmapRange b')).
Proof. exact update_refuted. Qed.
Print Assumptions C44_update_refuted.

(** The two kinds whose length is left alone. *)
Theorem C44_length_kept : forall o b,
  (co_mask_present (cmp_other_update o) = true <-> co_mask o <> []) /\
  co_length (cmp_other_update o) = co_length o /\
  (br_mask_present (bitmap_range_update b) = true <-> br_mask b <> []) /\
  br_length (bitmap_range_update b) = br_length b.
Proof. exact update_keeps_length. Qed.
Print Assumptions C44_length_kept.

Theorem C44_updated_comes_back :
  (forall z, let q := QCmpZero (cmp_zero_update z) in
     comes_back (write_query q) read_query q <-> wf_payload (cz_mask z) /\ wf_file_offset (cz_file z)) /\
  (forall v, let q := QCmpValue (cmp_value_update v) in
     comes_back (write_query q) read_query q <->
     wf_payload (cv_value v) /\ bytes (cv_mask v) /\ (cv_mask v = [] \/ length (cv_mask v) = length (cv_value v)) /\
     wf_file_offset (cv_file v)) /\
  (forall s, let q := QStringSearch (string_search_update s) in
     comes_back (write_query q) read_query q <->
     wf_payload (ss_value s) /\ bytes (ss_mask s) /\ length (ss_mask s) = length (ss_value s) /\
     ss_max_errors s < 8 /\ wf_file_offset (ss_file s)).
Proof. exact update_back_good. Qed.
Print Assumptions C44_updated_comes_back.

Theorem C44_updated_exact :
  (forall o, let q := QCmpOther (cmp_other_update o) in
     comes_back (write_query q) read_query q <->
     wf_length (co_length o) /\ bytes (co_mask o) /\
     (co_mask o = [] \/ N.of_nat (length (co_mask o)) = co_length o) /\
     wf_file_offset (co_file1 o) /\ wf_file_offset (co_file2 o)) /\
  (forall b, let q := QBitmapRange (bitmap_range_update b) in
     comes_back (write_query q) read_query q <->
     wf_length (br_length b) /\ bytes (br_mask b) /\ N.of_nat (length (br_mask b)) = br_length b /\
     wf_length (br_start b) /\ wf_length (br_stop b) /\ wf_file_offset (br_file b)).
Proof. exact update_back_bad. Qed.
Print Assumptions C44_updated_exact.

Example C44_example :
  cmp_value_update (mkCmpValue true (mkArithParams false CmpLt) 9 [] [1; 2; 3] (mkFileOffset 4 5))
  = mkCmpValue false (mkArithParams false CmpLt) 3 [] [1; 2; 3] (mkFileOffset 4 5) /\
  cmp_other_update (mkCmpOther false (mkArithParams false CmpLt) 9 [1; 2; 3] (mkFileOffset 4 5) (mkFileOffset 6 7))
  = mkCmpOther true (mkArithParams false CmpLt) 9 [1; 2; 3] (mkFileOffset 4 5) (mkFileOffset 6 7).
Proof. split; reflexivity. Qed.

(** C46. *)
Theorem C46_otaa : forall (E : Env) c,
  wf_lorawan_config (ot_base c) -> bytes (ot_dev_eui c) -> bytes (ot_app_eui c) -> bytes (ot_app_key c) ->
  (comes_back (write_interface_config (IcOtaa c)) read_interface_config (IcOtaa c) <->
   length (ot_dev_eui c) = 8%nat /\ length (ot_app_eui c) = 8%nat /\ length (ot_app_key c) = 16%nat).
Proof. exact @otaa_back. Qed.
Print Assumptions C46_otaa.

Theorem C46_abp : forall (E : Env) c,
  wf_lorawan_config (ab_base c) -> bytes (ab_nwk_key c) -> bytes (ab_app_key c) ->
  u32 (ab_dev_addr c) -> u32 (ab_net_id c) ->
  (comes_back (write_interface_config (IcAbp c)) read_interface_config (IcAbp c) <->
   length (ab_nwk_key c) = 16%nat /\ length (ab_app_key c) = 16%nat).
Proof. exact @abp_back. Qed.
Print Assumptions C46_abp.

Example C46_example : forall (E : Env),
  let c n := mkOtaa (mkLorawanConfig true false 3 4) (repeat 1 8) (repeat 2 n) (repeat 3 16) in
  comes_back (write_interface_config (IcOtaa (c 8%nat))) read_interface_config (IcOtaa (c 8%nat)) /\
  ~ comes_back (write_interface_config (IcOtaa (c 7%nat))) read_interface_config (IcOtaa (c 7%nat)).
Proof.
  intros E c. assert (R : forall k x, x < 256 -> bytes (repeat x k)).
  { intros k x H. apply Forall_forall. intros y Hy. apply repeat_spec in Hy. subst. exact H. }
  rewrite !otaa_back; try (split; reflexivity); try (apply R; reflexivity).
  split; [repeat split|]. intros (_ & H & _). discriminate.
Qed.
