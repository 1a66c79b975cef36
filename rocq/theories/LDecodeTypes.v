(** The readers of the operands against the decoder of SpecDecode.v. *)
From Coq Require Import List NArith ZArith Bool Lia ZifyBool ZifyNat ZifyN Arith.
From Verif Require Import Base Deku Utils Types Physical Link Network Session Data Query
  Interface File Operation Action Command SpecLayout SpecDecode LBits LReader LLayout LNiceOps LDecode.
Import ListNotations.
Open Scope N_scope.

Ltac pb := repeat first
  [ apply PB_bool | apply PB_skip | apply PB_enum | apply PB_uint | apply PB_ret | apply PB_fail
  | eapply PB_bind; [|intros ?] ].
Ltac group := eapply Dec_group; [pb | reflexivity | tree].

(** Two readers, two decoders that differ in the nesting of their steps. *)
Ltac rsame := intros ?r ?Hr; unfold bind, ret, fail;
  repeat (match goal with
          | |- context [match ?e with Ok _ => _ | Err _ => _ | Panic => _ end] =>
              lazymatch e with
              | context [match _ with _ => _ end] => fail
              | _ => destruct e as [[? ?]|?|]
              end
          end; try reflexivity); try reflexivity.
Ltac dsame := intros ?l; unfold andthen, give, reject;
  repeat (match goal with
          | |- context [match ?e with Some _ => _ | None => _ end] =>
              lazymatch e with
              | context [match _ with _ => _ end] => fail
              | _ => destruct e as [[? ?]|]
              end
          end; try reflexivity); try reflexivity.

(** ** Numbers *)
Lemma Dec_varint : Dec read_varint dec_varint.
Proof.
  unfold read_varint. eapply Dec_group; [pb; instantiate (1 := fun v0 => match decompress v v0 with inl x => p_ret (mkVarInt x false) | inr _ => p_none end); cbn beta; destruct (decompress v v0); [apply PB_ret|apply PB_fail] | reflexivity | tree].
Qed.

Definition g_length : reader (N * N) := s <- read_uint 2 ;; x <- read_uint 6 ;; ret (s, x).
Lemma Dec_g_length : Dec g_length (let* b := one in give (b / 64, b mod 64)).
Proof. unfold g_length. group. Qed.
Lemma Dec_length : Dec read_length dec_length.
Proof.
  eapply Dec_ext with (m := y <- g_length ;; z <- read_uint (8 * N.to_nat (fst y)) ;;
                             ret (snd y * 2 ^ N.of_nat (8 * N.to_nat (fst y)) + z)).
  - eapply Dec_bind; [apply Dec_g_length|]. intros y. apply Dec_bind; [apply Dec_num|]. intros z. apply Dec_ret.
  - intros r Hr. unfold read_length, g_length.
    assert (G : forall s r1, RWf r1 -> read_uint (N.to_nat (6 + s * 8)) r1 =
      (x <- read_uint 6 ;; z <- read_uint (8 * N.to_nat s) ;; ret (x * 2 ^ N.of_nat (8 * N.to_nat s) + z)) r1).
    { intros s r1 H1. replace (N.to_nat (6 + s * 8)) with (6 + 8 * N.to_nat s)%nat by lia. apply read_uint_split. assumption. }
    pose proof (PB_uint 2 r Hr) as H2. unfold bind at 1. unfold bind at 1. unfold bind at 1.
    destruct (read_uint 2 r) as [[s r1]|e|] eqn:E2; [|reflexivity|reflexivity].
    assert (H1 : RWf r1).
    { unfold p_uint in H2. rewrite cut_spec in H2. destruct (Nat.leb 2 (length (view r))).
      - destruct H2 as (k & Hk & _ & Hm). injection Hm as _ ->. apply RWf_adv; assumption.
      - destruct H2 as [e H2]. discriminate. }
    rewrite G by assumption. unfold bind, ret. destruct (read_uint 6 r1) as [[x r2]|e|]; reflexivity.
  - intros l. unfold dec_length. unfold andthen, give. destruct l as [|b l]; [reflexivity|]. cbn [one].
    cbn [fst snd]. rewrite N2Nat.id. destruct (num (b / 64) l) as [[z rest]|]; [|reflexivity].
    do 3 f_equal. f_equal. rewrite Nat2N.inj_mul, N2Nat.id, N.pow_mul_r. reflexivity.
Qed.
Lemma Dec_file_offset : Dec read_file_offset dec_file_offset.
Proof. apply Dec_bind; [exact Dec_u8|]. intros f. apply Dec_bind; [exact Dec_length|]. intros o. apply Dec_ret. Qed.

(** ** physical, link *)
Lemma Dec_channel_header : Dec read_channel_header dec_channel_header.
Proof. unfold read_channel_header. group. Qed.
Ltac dstep := first
  [ apply Dec_ret | apply Dec_fail | exact Dec_u8 | exact Dec_u16 | exact Dec_u32 | exact Dec_u64 | exact Dec_i8
  | exact Dec_length | exact Dec_varint | exact Dec_file_offset | exact Dec_channel_header
  | apply Dec_vec | exact Dec_native_4 | exact Dec_native_16 | exact Dec_bytes_5 | exact Dec_bytes_8
  | apply Dec_bind; [|intros ?] ].
Ltac dsteps := repeat dstep.
Lemma Dec_channel : Dec read_channel dec_channel.
Proof. unfold read_channel, dec_channel. dsteps. Qed.

Definition g_csi : reader (channel_band * bandwidth * N) :=
  b <- read_channel_band ;; w <- read_bandwidth ;; i <- read_uint 3 ;; ret (b, w, i).
Definition d_csi : dec (channel_band * bandwidth * N) :=
  let* a := one in
  let* band := named code_band all_bands (part 5 3 a) in
  let* width := named code_bandwidth [KHz200; KHz25] (part 3 2 a) in
  give (band, width, part 0 3 a).
Lemma Dec_g_csi : Dec g_csi d_csi.
Proof. unfold g_csi. group. Qed.
(** A step that leaves a proper state. *)
Lemma PB_state {A} (m : reader A) P r v r' : PB m P -> RWf r -> m r = Ok (v, r') -> RWf r'.
Proof.
  intros H Hr E. specialize (H r Hr). destruct (P (view r)) as [[w l]|].
  - destruct H as (k & Hk & _ & Hm). rewrite Hm in E. injection E as _ <-. apply RWf_adv; assumption.
  - destruct H as [e H]. congruence.
Qed.
Lemma bind_same {A B} (m : reader A) (f g : A -> reader B) P : PB m P ->
  (forall v r, RWf r -> f v r = g v r) -> forall r, RWf r -> bind m f r = bind m g r.
Proof.
  intros H G r Hr. unfold bind. destruct (m r) as [[v r1]|e|] eqn:E; [|reflexivity|reflexivity].
  apply G. eapply PB_state; eassumption.
Qed.
Lemma Dec_channel_status : Dec read_channel_status dec_channel_status.
Proof.
  eapply Dec_ext with (m := x <- g_csi ;; y <- read_u8 ;; n <- read_u8 ;;
     ret (mkChannelStatus (mkChannelStatusIdentifier (fst (fst x)) (snd (fst x)) (snd x * 2 ^ N.of_nat 8 + y)) n)).
  - apply Dec_bind; [exact Dec_g_csi|]. intros x. dsteps.
  - intros r Hr. unfold read_channel_status, read_channel_status_identifier, g_csi.
    transitivity ((b <- read_channel_band ;; w <- read_bandwidth ;; i <- read_uint 3 ;; y <- read_uint 8 ;;
      n <- read_u8 ;; ret (mkChannelStatus (mkChannelStatusIdentifier b w (i * 2 ^ N.of_nat 8 + y)) n)) r); [|revert r Hr; rsame].
    transitivity ((b <- read_channel_band ;; w <- read_bandwidth ;; i <- read_uint 11 ;;
      n <- read_u8 ;; ret (mkChannelStatus (mkChannelStatusIdentifier b w i) n)) r); [revert r Hr; rsame|].
    revert r Hr. eapply bind_same; [apply PB_enum|]. intros b. eapply bind_same; [apply PB_enum|]. intros w r Hr.
    unfold bind at 1. change 11%nat with (3 + 8)%nat. rewrite read_uint_split by assumption. revert r Hr. rsame.
  - intros l. unfold dec_channel_status, d_csi, andthen, give. destruct l as [|a l]; [reflexivity|]. cbn [one].
    destruct l as [|b l].
    + unfold named. destruct (find _ all_bands); [|reflexivity]. unfold give. destruct (find _ [KHz200; KHz25]); reflexivity.
    + unfold named. destruct (find _ all_bands); [|reflexivity]. unfold give. destruct (find _ [KHz200; KHz25]); [|reflexivity].
      destruct l as [|n l]; [reflexivity|]. cbn [one fst snd]. do 5 f_equal. change (2 ^ N.of_nat 8) with 256. lia.
Qed.
Lemma Dec_sub_band : Dec read_sub_band dec_sub_band.
Proof. unfold read_sub_band, dec_sub_band. dsteps. Qed.
Lemma Dec_sub_profile : Dec read_sub_profile dec_sub_profile.
Proof. unfold read_sub_profile, dec_sub_profile. dsteps. Qed.
Lemma Dec_access_profile : Dec read_access_profile dec_access_profile.
Proof.
  unfold read_access_profile, dec_access_profile, read_array. apply Dec_bind; [exact Dec_channel_header|]. intros h.
  apply Dec_bind; [apply (Dec_times 4), Dec_sub_profile|]. intros p.
  apply Dec_bind; [apply (Dec_times 8), Dec_sub_band|]. intros b. apply Dec_ret.
Qed.
Lemma Dec_access_class : Dec read_access_class (let* k := one in give (mkAccessClass (part 4 4 k) (part 0 4 k))).
Proof. unfold read_access_class. group. Qed.

(** ** network *)
Lemma Dec_address t : Dec (read_address t) (dec_address t).
Proof. destruct t; cbn [read_address dec_address]; dsteps. Qed.
Lemma Dec_nls_state n : Dec (read_nls_state n) (dec_nls_state n).
Proof. destruct n; cbn [read_nls_state dec_nls_state]; dsteps. Qed.
Definition g_control {E : Env} : reader (group_condition * address_type * bool * nls_method) :=
  g <- (if is_wizzilab then read_group_condition else skip_bits 2 ;;; ret GcAny) ;;
  t <- read_address_type ;;
  u <- (if is_wizzilab then read_bool else ret false) ;;
  n <- read_nls_method ;; ret (g, t, u, n).
Definition d_control {E : Env} : dec (group_condition * address_type * bool * nls_method) :=
  let* c := one in
  let* t := named code_address_type [AtNbId; AtNoId; AtUId; AtVId] (part 4 2 c) in
  let* g := match e_feat with
            | Wizzilab => named code_group [GcAny; GcNotEqual; GcEqual; GcGreaterThan] (part 6 2 c)
            | _ => give GcAny
            end in
  let u := match e_feat with Wizzilab => flag 3 c | _ => false end in
  let* n := named code_nls all_nls (match e_feat with Wizzilab => part 0 3 c | _ => part 0 4 c end) in
  give (g, t, u, n).
Lemma Dec_control {E : Env} : Dec g_control d_control.
Proof.
  destruct E as [f h w]. unfold g_control, d_control, is_wizzilab, read_nls_method, nls_bits, is_wizzilab.
  cbn [e_feat]. destruct f; cbn [e_feat]; group.
Qed.
Lemma Dec_addressee {E : Env} : Dec read_addressee dec_addressee.
Proof.
  eapply Dec_ext with (m := x <- g_control ;; c <- read_access_class ;; a <- read_address (snd (fst (fst x))) ;;
     s <- read_nls_state (snd x) ;;
     ret (mkAddressee (fst (fst (fst x))) (snd (fst (fst x))) (snd (fst x)) (snd x) c a s)).
  - apply Dec_bind; [exact Dec_control|]. intros x. apply Dec_bind; [exact Dec_access_class|]. intros c.
    apply Dec_bind; [apply Dec_address|]. intros a. apply Dec_bind; [apply Dec_nls_state|]. intros s. apply Dec_ret.
  - unfold read_addressee, g_control. destruct E as [[] h w]; unfold is_wizzilab; cbn [e_feat]; rsame.
  - intros l. unfold dec_addressee, d_control. destruct E as [[] h w]; cbn [e_feat]; revert l; dsame.
Qed.

(** ** session *)
Lemma Dec_qos : Dec read_qos dec_qos.
Proof. unfold read_qos. group. Qed.
Definition g_flags : reader (bool * bool * bool * bool) :=
  a <- read_bool ;; b <- read_bool ;; d <- read_bool ;; e <- read_bool ;; skip_bits 4 ;;; ret (a, b, d, e).
Lemma Dec_flags : Dec g_flags (let* f := one in give (flag 7 f, flag 6 f, flag 5 f, flag 4 f)).
Proof. unfold g_flags. group. Qed.
Lemma Dec_dash7_status {E : Env} : Dec read_dash7_status dec_dash7_status.
Proof.
  eapply Dec_ext with (m := c <- read_channel ;; rx <- read_u8 ;; lb <- read_u8 ;; tr <- read_u8 ;; x <- g_flags ;;
    f <- read_u8 ;; s <- read_u8 ;; t <- read_varint ;; ad <- read_addressee ;;
    ret (mkDash7Status c rx lb tr (fst (fst (fst x))) (snd (fst (fst x))) (snd (fst x)) (snd x) f s t ad)).
  - apply Dec_bind; [exact Dec_channel|]. intros c. do 3 (apply Dec_bind; [exact Dec_u8|]; intros ?).
    apply Dec_bind; [exact Dec_flags|]. intros x. do 2 (apply Dec_bind; [exact Dec_u8|]; intros ?).
    apply Dec_bind; [exact Dec_varint|]. intros ?. apply Dec_bind; [exact Dec_addressee|]. intros ?. apply Dec_ret.
  - unfold read_dash7_status, g_flags. rsame.
  - unfold dec_dash7_status. dsame.
Qed.
Lemma Dec_final : Dec read_final_status_code dec_final.
Proof. unfold read_final_status_code. group. Qed.
Lemma Dec_dash7_tx {E : Env} : Dec read_dash7_tx_status dec_dash7_tx.
Proof.
  eapply Dec_ext with (m := c <- read_channel ;; l <- read_i8 ;; e <- read_final_status_code ;; skip_bits (8 * 3) ;;;
    t <- read_native 4 ;; a <- read_addressee ;; ret (mkDash7TxStatus c l e t a)).
  - apply Dec_bind; [exact Dec_channel|]. intros c. apply Dec_bind; [exact Dec_i8|]. intros ?.
    apply Dec_bind; [exact Dec_final|]. intros ?. apply Dec_bind; [apply Dec_pad|]. intros ?.
    apply Dec_bind; [exact Dec_native_4|]. intros ?. apply Dec_bind; [exact Dec_addressee|]. intros ?. apply Dec_ret.
  - reflexivity.
  - unfold dec_dash7_tx. change (N.of_nat 3) with 3. dsame.
Qed.

(** ** data *)
Lemma Dec_permissions : Dec read_file_permissions
  (let* p := one in give (mkFilePerm (flag 7 p) (flag 6 p) (mkUserPerm (flag 5 p) (flag 4 p) (flag 3 p))
                           (mkUserPerm (flag 2 p) (flag 1 p) (flag 0 p)))).
Proof. unfold read_file_permissions, read_user_permissions. group. Qed.
Lemma Dec_fs_properties : Dec read_fs_properties
  (let* q := one in
   let* c := named code_condition [AcList; AcRead; AcWrite; AcWriteFlush] (part 4 3 q) in
   let* s := named code_storage [Transient; Volatile; Restorable; Permanent] (part 0 2 q) in
   give (mkFsProp (flag 7 q) c s)).
Proof. unfold read_fs_properties. group. Qed.
Lemma Dec_file_header : Dec read_file_header dec_file_header.
Proof.
  eapply Dec_ext with (m := read_file_header).
  - unfold read_file_header. apply Dec_bind; [exact Dec_permissions|]. intros p. apply Dec_bind; [exact Dec_fs_properties|].
    intros q. apply Dec_bind; [exact Dec_u8|]. intros a. apply Dec_bind; [exact Dec_u8|]. intros i.
    apply Dec_bind; [exact Dec_u32|]. intros s. apply Dec_bind; [exact Dec_u32|]. intros t. apply Dec_ret.
  - reflexivity.
  - unfold dec_file_header. dsame.
Qed.
