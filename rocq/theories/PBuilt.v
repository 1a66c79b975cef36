(** C95: what values from constructors, conversions and update are written as. *)
From Coq Require Import List NArith ZArith Bool.
From Verif Require Import Base Deku Utils Types Physical Link Network Session Data Query Interface File
  Operation Action Command Construct SpecLayout SpecFail SpecFrames SpecTables SpecBuilt LBuilt.
Import ListNotations.
Open Scope N_scope.

(** Each argument lands in its place. *)
Theorem C95_queries :
  (forall p k f, short [count k; fo_offset f] -> emits (write_query (QCmpZero (cmp_zero_new p k f))) (b_cmp_zero p k f)) /\
  (forall p k v f, short [count v; fo_offset f] ->
    emits (write_query (QCmpValue (cmp_value_new p k v f))) (b_cmp_value p k v f)) /\
  (forall p k f g, short [count k; fo_offset f; fo_offset g] ->
    emits (write_query (QCmpOther (cmp_other_new p k f g))) (b_cmp_other p (count k) k f g)) /\
  (forall p a b k f, short [count k; a; b; fo_offset f] ->
    emits (write_query (QBitmapRange (bitmap_range_new p a b k f))) (b_bitmap_range p (count k) a b k f)) /\
  (forall e k v f, short [count v; fo_offset f] ->
    emits (write_query (QStringSearch (string_search_new e k v f))) (b_string_search e k v f)).
Proof. exact queries_built. Qed.
Print Assumptions C95_queries.

(** [update] sets the flag of the mask, the length only in three of the five, and nothing else. *)
Theorem C95_queries_updated :
  (forall z, short [count (cz_mask z); fo_offset (cz_file z)] ->
    emits (write_query (QCmpZero (cmp_zero_update z))) (b_cmp_zero (cz_params z) (cz_mask z) (cz_file z))) /\
  (forall v, short [count (cv_value v); fo_offset (cv_file v)] ->
    emits (write_query (QCmpValue (cmp_value_update v))) (b_cmp_value (cv_params v) (cv_mask v) (cv_value v) (cv_file v))) /\
  (forall o, short [co_length o; fo_offset (co_file1 o); fo_offset (co_file2 o)] ->
    emits (write_query (QCmpOther (cmp_other_update o)))
      (b_cmp_other (co_params o) (co_length o) (co_mask o) (co_file1 o) (co_file2 o))) /\
  (forall b, short [br_length b; br_start b; br_stop b; fo_offset (br_file b)] ->
    emits (write_query (QBitmapRange (bitmap_range_update b)))
      (b_bitmap_range (br_params b) (br_length b) (br_start b) (br_stop b) (br_mask b) (br_file b))) /\
  (forall s, short [count (ss_value s); fo_offset (ss_file s)] ->
    emits (write_query (QStringSearch (string_search_update s)))
      (b_string_search (ss_max_errors s) (ss_mask s) (ss_value s) (ss_file s))).
Proof. exact queries_updated. Qed.
Print Assumptions C95_queries_updated.

Theorem C95_addressee : forall (E : Env) u g a s c, small (address_varints a) ->
  emits (write_addressee (addressee_new u g a s c)) (b_addressee u g a s c).
Proof. exact @addressee_built_bytes. Qed.
Print Assumptions C95_addressee.
Theorem C95_addressee_updated : forall (E : Env) v, small (address_varints (ad_address v)) ->
  emits (write_addressee (addressee_update v)) (b_addressee (ad_use_vid v) (ad_group v) (ad_address v) (ad_state v) (ad_access v)).
Proof. exact @addressee_updated_bytes. Qed.
Print Assumptions C95_addressee_updated.

(** The number of channels is cut off by [new] and checked by [update]. *)
Theorem C95_phy_status : forall up rx tx duty l,
  emits (write_phy_status (phy_status_new up rx tx duty l)) (b_phy_status up rx tx duty (N.of_nat (length l)) l).
Proof. exact phy_status_built. Qed.
Print Assumptions C95_phy_status.
Theorem C95_phy_status_updated : forall v, match phy_status_update v with
  | Ok w => (length (ps_channels v) < 256)%nat /\
      emits (write_phy_status w) (b_phy_status (ps_up v) (ps_rx v) (ps_tx v) (ps_duty v) (N.of_nat (length (ps_channels v))) (ps_channels v))
  | Err e => e = EParse /\ (256 <= length (ps_channels v))%nat
  | Panic => False
  end.
Proof. exact phy_status_updated. Qed.
Print Assumptions C95_phy_status_updated.

(** Statuses. *)
Theorem C95_interface_status : forall (E : Env) s, small (itf_status_varints s) -> N.of_nat (itf_status_size s) mod 2 ^ 32 < 2 ^ 30 ->
  emits (write_itf_status_op (itf_status_op_from s)) (b_itf_status s).
Proof. exact @itf_status_built_bytes. Qed.
Print Assumptions C95_interface_status.
Theorem C95_final_status : forall c, exists v, itf_final_op_from (FinDash7 c) = Ok v /\
  emits (write_itf_final_op v) [(8, 0xD7); (8, 1); (8, code_final c)].
Proof. exact final_built_bytes. Qed.
Print Assumptions C95_final_status.
Theorem C95_status : forall (E : Env) s, ~ unwritable (AStatus (status_into_operand s)) ->
  emits (write_action (AStatus (status_into_operand s))) (b_status s).
Proof. exact @status_built_bytes. Qed.
Print Assumptions C95_status.

(** Forwards and file data. *)
Theorem C95_indirect_forward : forall (E : Env) r c,
  (forall a, c = Some (IiDash7 a) -> small (address_varints (ad_address a))) ->
  emits (write_action (AIndirectForward (indirect_forward_new r c))) (b_indirect r c).
Proof. exact @indirect_built_bytes. Qed.
Print Assumptions C95_indirect_forward.
Theorem C95_indirect_forward_updated : forall (E : Env) v,
  (forall a, if_config v = Some (IiDash7 a) -> small (address_varints (ad_address a))) ->
  emits (write_action (AIndirectForward (indirect_forward_update v))) (b_indirect (if_response v) (if_config v)).
Proof. exact @indirect_updated_bytes. Qed.
Print Assumptions C95_indirect_forward_updated.
Theorem C95_forward : forall (E : Env) r c, (forall d, c = IcDash7 d -> small (dash7_config_varints d)) ->
  emits (write_action (AForward (forward_new r c))) ((1, 0) :: (1, bit r) :: (6, 50) :: t_interface_config c).
Proof. exact @forward_built_bytes. Qed.
Print Assumptions C95_forward.
Theorem C95_file_data : forall (E : Env) h o f op, let v := file_data_new h o f op in
  let t c := (1, bit (h_group h)) :: (1, bit (h_response h)) :: (6, c) :: t_offset o ++ t_prefixed (t_file f) in
  short [fo_offset o] -> small (file_varints f) -> N.of_nat (file_size f) mod 2 ^ 32 < 2 ^ 30 ->
  emits (write_action (AWriteFileData v)) (t 4) /\ emits (write_action (AWriteFileDataFlush v)) (t 5) /\
  emits (write_action (AReturnFileData v)) (t 32).
Proof. exact @data_built_bytes. Qed.
Print Assumptions C95_file_data.

(** What is not written, or not in full, is kept as it was given. *)
Theorem C95_kept :
  (forall e k v f, ss_max_errors (string_search_new e k v f) = e) /\
  (forall s, ss_max_errors (string_search_update s) = ss_max_errors s) /\
  (forall up rx tx duty l, ps_count (phy_status_new up rx tx duty l) = N.of_nat (length l) mod 256) /\
  (forall s m, ac_specifier (access_class_new s m) = s /\ ac_mask (access_class_new s m) = m) /\
  (forall h o f op, fd_opcode (file_data_new h o f op) = op) /\
  (forall r c d, fw_opcode (forward_new r c) = 50 /\ if_opcode (indirect_forward_new r d) = 51) /\
  (forall v, if_opcode (indirect_forward_update v) = if_opcode v) /\
  (forall s, so_opcode (status_into_operand s) = 34) /\
  (forall u g a s c, ad_group (addressee_new u g a s c) = g /\ ad_use_vid (addressee_new u g a s c) = u) /\
  (forall v, ad_group (addressee_update v) = ad_group v /\ ad_use_vid (addressee_update v) = ad_use_vid v).
Proof. exact wide_kept. Qed.
Print Assumptions C95_kept.

(** The first file is written before the second, and the mask of three bytes in front of both. A mask
    longer than the value is written in full, behind the length of the value. *)
Example C95_example : forall E : Env, e_feat <> Wizzilab ->
  to_bytes (write_query (QCmpOther (cmp_other_new (mkArithParams true CmpGt) [1; 2; 3] (mkFileOffset 4 5) (mkFileOffset 6 7)))) =
    Ok [0x7C; 3; 1; 2; 3; 4; 5; 6; 7] /\
  to_bytes (write_query (QCmpValue (cmp_value_new (mkArithParams false CmpEqual) [1; 2; 3] [9] (mkFileOffset 4 5)))) =
    Ok [0x51; 1; 1; 2; 3; 9; 4; 5] /\
  to_bytes (write_addressee (addressee_new true GcEqual (VId 0x1234) (NsAesCcm64 [1; 2; 3; 4; 5]) (mkAccessClass 1 2))) =
    Ok [0x36; 0x12; 0x12; 0x34; 1; 2; 3; 4; 5].
Proof.
  intros [[] [] []] H; try (exfalso; apply H; reflexivity); (split; [vm_compute; reflexivity|]; split; vm_compute; reflexivity).
Qed.
