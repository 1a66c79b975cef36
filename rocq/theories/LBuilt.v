(** Lemmas for C95. *)
From Coq Require Import List NArith ZArith Bool Lia.
From Verif Require Import Base Deku Utils Types Physical Link Network Session Data Query Interface File
  Operation Action Command Construct SpecLayout SpecFail SpecFrames SpecWritten SpecTables SpecBuilt LTables.
Import ListNotations.
Open Scope N_scope.

Lemma short_not l : short l -> ~ Exists too_long l.
Proof. unfold short, too_long. rewrite Forall_forall, Exists_exists. intros H (x & Hi & Hx). specialize (H x Hi). lia. Qed.
Lemma small_not l : small l -> ~ Exists too_large l.
Proof. unfold small, too_large. rewrite Forall_forall, Exists_exists. intros H (x & Hi & Hx). specialize (H x Hi). lia. Qed.
Lemma query_emits v t : short (query_lengths v) -> t_query v = t -> emits (write_query v) t.
Proof. intros H <-. destruct (@operations_emit (Build_Env Spec Big false)) as (K & _). apply K, short_not, H. Qed.
Lemma addressee_emits {E : Env} v t : small (address_varints (ad_address v)) -> t_addressee v = t -> emits (write_addressee v) t.
Proof. intros H <-. destruct (@types_emit E) as (_ & _ & _ & _ & _ & _ & _ & _ & _ & _ & _ & _ & K & _). apply K, small_not, H. Qed.
Ltac bq k := intros; apply query_emits; [assumption|destruct k; reflexivity].

Lemma queries_built :
  (forall p k f, short [count k; fo_offset f] -> emits (write_query (QCmpZero (cmp_zero_new p k f))) (b_cmp_zero p k f)) /\
  (forall p k v f, short [count v; fo_offset f] ->
    emits (write_query (QCmpValue (cmp_value_new p k v f))) (b_cmp_value p k v f)) /\
  (forall p k f g, short [count k; fo_offset f; fo_offset g] ->
    emits (write_query (QCmpOther (cmp_other_new p k f g))) (b_cmp_other p (count k) k f g)) /\
  (forall p a b k f, short [count k; a; b; fo_offset f] ->
    emits (write_query (QBitmapRange (bitmap_range_new p a b k f))) (b_bitmap_range p (count k) a b k f)) /\
  (forall e k v f, short [count v; fo_offset f] ->
    emits (write_query (QStringSearch (string_search_new e k v f))) (b_string_search e k v f)).
Proof. repeat match goal with |- _ /\ _ => split end; [intros p k|intros p k|intros p k|intros p a b k|intros e k]; bq k. Qed.
Lemma queries_updated :
  (forall z, short [count (cz_mask z); fo_offset (cz_file z)] ->
    emits (write_query (QCmpZero (cmp_zero_update z))) (b_cmp_zero (cz_params z) (cz_mask z) (cz_file z))) /\
  (forall v, short [count (cv_value v); fo_offset (cv_file v)] ->
    emits (write_query (QCmpValue (cmp_value_update v))) (b_cmp_value (cv_params v) (cv_mask v) (cv_value v) (cv_file v))) /\
  (forall o, short [co_length o; fo_offset (co_file1 o); fo_offset (co_file2 o)] ->
    emits (write_query (QCmpOther (cmp_other_update o)))
      (b_cmp_other (co_params o) (co_length o) (co_mask o) (co_file1 o) (co_file2 o))) /\
  (forall b, short [br_length b; br_start b; br_stop b; fo_offset (br_file b)] ->
    emits (write_query (QBitmapRange (bitmap_range_update b)))
      (b_bitmap_range (br_params b) (br_length b) (br_start b) (br_stop b) (br_mask b) (br_file b))) /\
  (forall s, short [count (ss_value s); fo_offset (ss_file s)] ->
    emits (write_query (QStringSearch (string_search_update s)))
      (b_string_search (ss_max_errors s) (ss_mask s) (ss_value s) (ss_file s))).
Proof.
  repeat match goal with |- _ /\ _ => split end; intros [].
  - bq cz_mask.
  - bq cv_mask.
  - bq co_mask.
  - bq br_mask.
  - bq ss_mask.
Qed.
Lemma addressee_built_bytes {E : Env} u g a s c : small (address_varints a) ->
  emits (write_addressee (addressee_new u g a s c)) (b_addressee u g a s c).
Proof. intros H. apply addressee_emits; [exact H|]. destruct a, s; reflexivity. Qed.
Lemma addressee_updated_bytes {E : Env} v : small (address_varints (ad_address v)) ->
  emits (write_addressee (addressee_update v)) (b_addressee (ad_use_vid v) (ad_group v) (ad_address v) (ad_state v) (ad_access v)).
Proof. intros H. apply addressee_emits; [exact H|]. destruct v as [g t u n c a s]. destruct a, s; reflexivity. Qed.
Lemma phy_status_emits v : emits (write_phy_status v) (b_phy_status (ps_up v) (ps_rx v) (ps_tx v) (ps_duty v) (ps_count v) (ps_channels v)).
Proof. apply (@files_emit (Build_Env Spec Big false) (FPhyStatus v)). intros H. inversion H. Qed.
Lemma bits_of_8_mod n : bits_of 8 (n mod 256) = bits_of 8 n.
Proof.
  apply nth_ext with false false; [rewrite !LBits.bits_of_length; reflexivity|]. rewrite LBits.bits_of_length. intros i Hi.
  change 256 with (2 ^ 8). do 8 (destruct i as [|i]; [cbn [bits_of nth]; rewrite N.mod_pow2_bits_low by (cbn; lia); reflexivity|]).
  exfalso. lia.
Qed.
Lemma phy_status_built up rx tx duty l :
  emits (write_phy_status (phy_status_new up rx tx duty l)) (b_phy_status up rx tx duty (N.of_nat (length l)) l).
Proof.
  pose proof (phy_status_emits (phy_status_new up rx tx duty l)) as H. unfold phy_status_new in *.
  cbn [ps_up ps_rx ps_tx ps_duty ps_count ps_channels] in H. unfold emits, fills in *.
  assert (Q : bits_of_fields (b_phy_status up rx tx duty (N.of_nat (length l) mod 256) l) =
              bits_of_fields (b_phy_status up rx tx duty (N.of_nat (length l)) l)).
  { unfold b_phy_status, bits_of_fields. cbn [app flat_map fst snd]. change (N.to_nat 8) with 8%nat. rewrite bits_of_8_mod. reflexivity. }
  rewrite Q in H. exact H.
Qed.
Lemma phy_status_updated v : match phy_status_update v with
  | Ok w => (length (ps_channels v) < 256)%nat /\
      emits (write_phy_status w) (b_phy_status (ps_up v) (ps_rx v) (ps_tx v) (ps_duty v) (N.of_nat (length (ps_channels v))) (ps_channels v))
  | Err e => e = EParse /\ (256 <= length (ps_channels v))%nat
  | Panic => False
  end.
Proof.
  unfold phy_status_update. destruct (N.ltb_spec (N.of_nat (length (ps_channels v))) 256).
  - split; [lia|]. apply (phy_status_emits (mkPhyStatus _ _ _ _ _ _)).
  - split; [reflexivity|lia].
Qed.
Lemma itf_status_built_bytes {E : Env} s : small (itf_status_varints s) -> N.of_nat (itf_status_size s) mod 2 ^ 32 < 2 ^ 30 ->
  emits (write_itf_status_op (itf_status_op_from s)) (b_itf_status s).
Proof.
  intros H1 H2. destruct (@operations_emit E) as (_ & _ & _ & _ & _ & K & _).
  replace (b_itf_status s) with (t_itf_status_op (itf_status_op_from s)) by (destruct s; reflexivity).
  apply K. intros [H|H]; [exact (small_not _ H1 H)|]. unfold too_long in H. cbn [iso_status itf_status_op_from] in H. lia.
Qed.
Lemma final_built_bytes c : exists v, itf_final_op_from (FinDash7 c) = Ok v /\
  emits (write_itf_final_op v) [(8, 0xD7); (8, 1); (8, code_final c)].
Proof.
  exists (mkItfFinalOp 0xD7 (FinDash7 c)). split; [reflexivity|].
  destruct (@operations_emit (Build_Env Spec Big false)) as (_ & _ & _ & _ & _ & _ & K).
  apply (K (mkItfFinalOp 0xD7 (FinDash7 c))). intros H. unfold too_long in H. vm_compute in H. apply H. reflexivity.
Qed.
Lemma status_built_bytes {E : Env} s : ~ unwritable (AStatus (status_into_operand s)) ->
  emits (write_action (AStatus (status_into_operand s))) (b_status s).
Proof. intros H. pose proof (action_emits _ H) as K. destruct s; exact K. Qed.
Lemma indirect_built_bytes {E : Env} r c : (forall a, c = Some (IiDash7 a) -> small (address_varints (ad_address a))) ->
  emits (write_action (AIndirectForward (indirect_forward_new r c))) (b_indirect r c).
Proof.
  intros H. assert (U : ~ unwritable (AIndirectForward (indirect_forward_new r c))).
  { intros [U|[U|U]]; [inversion U| |inversion U]. cbn [varints_of if_config indirect_forward_new] in U.
    destruct c as [[| |a|i]|]; try solve [inversion U]. exact (small_not _ (H a eq_refl) U). }
  pose proof (action_emits _ U) as K. destruct c; exact K.
Qed.
Lemma indirect_updated_bytes {E : Env} v : (forall a, if_config v = Some (IiDash7 a) -> small (address_varints (ad_address a))) ->
  emits (write_action (AIndirectForward (indirect_forward_update v))) (b_indirect (if_response v) (if_config v)).
Proof. intros H. pose proof (indirect_built_bytes (if_response v) (if_config v) H) as K. exact K. Qed.
Lemma forward_built_bytes {E : Env} r c : (forall d, c = IcDash7 d -> small (dash7_config_varints d)) ->
  emits (write_action (AForward (forward_new r c))) ((1, 0) :: (1, bit r) :: (6, 50) :: t_interface_config c).
Proof.
  intros H. apply (action_emits (AForward (forward_new r c))). intros [U|[U|U]]; [inversion U| |inversion U].
  cbn [varints_of fw_config forward_new] in U. destruct c as [| | | |d|i]; try solve [inversion U]. exact (small_not _ (H d eq_refl) U).
Qed.
Lemma data_built_bytes {E : Env} h o f op : let v := file_data_new h o f op in
  let t c := (1, bit (h_group h)) :: (1, bit (h_response h)) :: (6, c) :: t_offset o ++ t_prefixed (t_file f) in
  short [fo_offset o] -> small (file_varints f) -> N.of_nat (file_size f) mod 2 ^ 32 < 2 ^ 30 ->
  emits (write_action (AWriteFileData v)) (t 4) /\ emits (write_action (AWriteFileDataFlush v)) (t 5) /\
  emits (write_action (AReturnFileData v)) (t 32).
Proof.
  intros v t H1 H2 H3.
  assert (U : ~ (Exists (fun n => 2 ^ 30 <= n) [fo_offset o] \/ Exists (fun n => 507904 < n) (file_varints f) \/
    Exists (fun k => 2 ^ 30 <= N.of_nat k mod 2 ^ 32) [file_size f])).
  { intros [U|[U|U]]; [exact (short_not _ H1 U)|exact (small_not _ H2 U)|].
    apply Exists_exists in U. destruct U as (k & [<-|[]] & Hk). lia. }
  split; [|split].
  - exact (action_emits (AWriteFileData v) U).
  - exact (action_emits (AWriteFileDataFlush v) U).
  - exact (action_emits (AReturnFileData v) U).
Qed.
Lemma wide_kept :
  (forall e k v f, ss_max_errors (string_search_new e k v f) = e) /\
  (forall s, ss_max_errors (string_search_update s) = ss_max_errors s) /\
  (forall up rx tx duty l, ps_count (phy_status_new up rx tx duty l) = N.of_nat (length l) mod 256) /\
  (forall s m, ac_specifier (access_class_new s m) = s /\ ac_mask (access_class_new s m) = m) /\
  (forall h o f op, fd_opcode (file_data_new h o f op) = op) /\
  (forall r c d, fw_opcode (forward_new r c) = 50 /\ if_opcode (indirect_forward_new r d) = 51) /\
  (forall v, if_opcode (indirect_forward_update v) = if_opcode v) /\
  (forall s, so_opcode (status_into_operand s) = 34) /\
  (forall u g a s c, ad_group (addressee_new u g a s c) = g /\ ad_use_vid (addressee_new u g a s c) = u) /\
  (forall v, ad_group (addressee_update v) = ad_group v /\ ad_use_vid (addressee_update v) = ad_use_vid v).
Proof. repeat split. Qed.
