(** Lemmas for C67. *)
From Coq Require Import List NArith ZArith Bool Lia Arith ZifyBool ZifyNat ZifyN.
From Verif Require Import Base Deku Utils Types Physical Link Network Session Data Query Interface File
  Operation Action Command Frames SpecLayout SpecApi SpecOffset SpecCodes SpecPartial SpecDecode SpecFrameDecode SpecBitOffset
  LBits LReader LNice LNiceOps LCodes LPartial LDecode LDecodeTypes LDecodeOps LDecodeAct LDecodeCmd LDecodeLoop LDecodeFrame.
Import ListNotations.
Open Scope N_scope.

(** ** Bits and numbers *)
Lemma field_bits d k n : bytes d -> (k + n <= 8 * length d)%nat ->
  N_of_bits (firstn n (skipn k (bits_of_bytes d))) = field d k n.
Proof.
  intros Hd Hk. unfold field. rewrite N_of_be_bits by exact Hd.
  set (l := bits_of_bytes d). assert (L : length l = (8 * length d)%nat) by apply bits_of_bytes_length.
  rewrite <- L in *. clearbody l. clear L Hd d.
  rewrite <- (firstn_skipn k l) at 2. rewrite <- (firstn_skipn n (skipn k l)) at 2.
  set (a := firstn k l). set (b := firstn n (skipn k l)). set (c := skipn n (skipn k l)).
  assert (Lb : length b = n) by (unfold b; rewrite firstn_length, skipn_length; lia).
  assert (Lc : length c = (length l - k - n)%nat) by (unfold c; rewrite !skipn_length; lia).
  rewrite <- Lc. rewrite !N_of_bits_app, app_length, Lb.
  pose proof (N_of_bits_lt c) as Bc. pose proof (N_of_bits_lt b) as Bb. rewrite Lb in Bb.
  rewrite Nat2N.inj_add, N.pow_add_r.
  set (P := 2 ^ N.of_nat (length c)) in *. set (Q := 2 ^ N.of_nat n) in *.
  assert (P0 : P <> 0) by (apply N.pow_nonzero; lia). assert (Q0 : Q <> 0) by (apply N.pow_nonzero; lia).
  replace (N_of_bits a * (Q * P) + (N_of_bits b * P + N_of_bits c)) with ((N_of_bits a * Q + N_of_bits b) * P + N_of_bits c) by lia.
  rewrite N.div_add_l by exact P0. rewrite (N.div_small (N_of_bits c)) by exact Bc. rewrite N.add_0_r.
  rewrite N.add_comm, N.mod_add by exact Q0. symmetry. apply N.mod_small. exact Bb.
Qed.
Lemma octets_map l : octets l = map (fun i => N_of_bits (firstn 8 (skipn (8 * i) l))) (seq 0 (length l / 8)).
Proof.
  induction l as [l Hl|x l Hx IH] using octet_ind.
  - rewrite octets_short, Nat.div_small by assumption. reflexivity.
  - rewrite octets_cons by exact Hx. rewrite app_length, Hx. replace ((8 + length l) / 8)%nat with (S (length l / 8)) by divlia.
    cbn [seq map]. f_equal.
    + rewrite Nat.mul_0_r. cbn [skipn]. rewrite <- Hx, firstn_app, Nat.sub_diag, firstn_all. cbn [firstn]. rewrite app_nil_r. reflexivity.
    + rewrite IH, <- seq_shift, map_map. apply map_ext. intros i. f_equal. f_equal.
      replace (8 * S i)%nat with (length x + 8 * i)%nat by lia. rewrite skipn_app, (skipn_all2 x) by lia. cbn [app].
      replace (length x + 8 * i - length x)%nat with (8 * i)%nat by lia. reflexivity.
Qed.
Lemma octets_at d k : bytes d -> octets (skipn k (bits_of_bytes d)) = bytes_at d k.
Proof.
  intros Hd. rewrite octets_map. unfold bytes_at. rewrite skipn_length, bits_of_bytes_length.
  apply map_ext_in. intros i Hi. apply in_seq in Hi. rewrite <- field_bits; [|exact Hd|divlia].
  rewrite skipn_skipn. repeat f_equal; lia.
Qed.
Lemma bytes_at_0 d : bytes d -> bytes_at d 0 = d.
Proof. intros Hd. rewrite <- octets_at by exact Hd. cbn [skipn]. apply octets_bits. exact Hd. Qed.
Lemma bytes_at_length d k : length (bytes_at d k) = ((8 * length d - k) / 8)%nat.
Proof. unfold bytes_at. rewrite map_length, seq_length. reflexivity. Qed.
Lemma bits_skip c d : skipn (8 * c) (bits_of_bytes d) = bits_of_bytes (skipn c d).
Proof.
  revert d. induction c as [|c IH]; intros [|x d]; [reflexivity|reflexivity|apply skipn_nil|].
  rewrite bits_of_bytes_cons. replace (8 * S c)%nat with (length (bits_of 8 x) + 8 * c)%nat by (rewrite bits_of_length; lia).
  rewrite <- skipn_skipn. rewrite (skipn_app (length (bits_of 8 x)) (bits_of 8 x)), skipn_all, Nat.sub_diag. apply IH.
Qed.
(** Going on at the place handed back. *)
Lemma bytes_at_go d k c : bytes d -> bytes_at (skipn (k / 8 + c) d) (k mod 8) = skipn c (bytes_at d k).
Proof.
  intros Hd. assert (Hs : bytes (skipn (k / 8 + c) d)).
  { rewrite <- (firstn_skipn (k / 8 + c) d) in Hd. apply Forall_app in Hd. apply Hd. }
  rewrite <- !octets_at by assumption. rewrite <- bits_skip, skipn_skipn.
  replace (8 * (k / 8 + c) + k mod 8)%nat with (k + 8 * c)%nat by divlia.
  destruct (Nat.le_gt_cases (k + 8 * c) (length (bits_of_bytes d))) as [L|L].
  - rewrite <- skipn_skipn. apply octets_skip. rewrite skipn_length. lia.
  - rewrite skipn_all2 by lia. cbn [octets]. symmetry. apply skipn_all2. rewrite octets_length, skipn_length. divlia.
Qed.
Lemma field_go d k n j c : bytes d -> (k + n + j <= 8 * length d)%nat -> c = ((k + n) / 8)%nat ->
  field (skipn c d) ((k + n) mod 8) j = field d (k + n) j.
Proof.
  intros Hd Hk ->. assert (Hs : bytes (skipn ((k + n) / 8) d)).
  { rewrite <- (firstn_skipn ((k + n) / 8) d) in Hd. apply Forall_app in Hd. apply Hd. }
  rewrite <- !field_bits; [|exact Hd|lia|exact Hs|rewrite skipn_length; divlia].
  rewrite <- bits_skip, skipn_skipn. replace (8 * ((k + n) / 8) + (k + n) mod 8)%nat with (k + n)%nat by divlia. reflexivity.
Qed.

(** ** Starting at an offset *)
Lemma start_in {A} (m : reader A) d k : (k <= 8 * length d)%nat -> start m d k = m (adv (new_reader d) k).
Proof.
  intros Hk. unfold start. destruct (Nat.eqb_spec k 0) as [->|K]; [rewrite adv_0; reflexivity|].
  unfold bind, skip_bits, bind. rewrite read_bits_ok; [reflexivity|apply RWf_new|]. rewrite view_new, bits_of_bytes_length. exact Hk.
Qed.
Lemma start_out {A} (m : reader A) d k : (8 * length d < k)%nat -> start m d k = Err EIncomplete.
Proof.
  intros Hk. unfold start. destruct (Nat.eqb_spec k 0) as [->|K]; [lia|].
  unfold bind, skip_bits, bind. rewrite read_bits_err; [reflexivity|apply RWf_new|]. rewrite view_new, bits_of_bytes_length. exact Hk.
Qed.
Lemma RWf_at d k : (k <= 8 * length d)%nat -> RWf (adv (new_reader d) k).
Proof. intros Hk. apply RWf_adv; [apply RWf_new|]. rewrite view_new, bits_of_bytes_length. exact Hk. Qed.
Lemma view_at d k : (k <= 8 * length d)%nat -> view (adv (new_reader d) k) = skipn k (bits_of_bytes d).
Proof. intros Hk. rewrite view_adv; [reflexivity|apply RWf_new|]. rewrite view_new, bits_of_bytes_length. exact Hk. Qed.
Lemma DecAt_at {A} (m : reader A) D d k : bytes d -> (k <= 8 * length d)%nat ->
  DecAt m D (adv (new_reader d) k) -> at_offset m D d k.
Proof.
  intros Hd Hk H. unfold DecAt in H. rewrite view_at, octets_at in H by assumption.
  unfold at_offset, d_from_bytes. rewrite start_in by exact Hk.
  destruct (D (bytes_at d k)) as [[v rest]|]; [|destruct H as [e ->]; exists e; reflexivity].
  destruct H as (j & Hj & -> & ->). rewrite skipn_length, bits_of_bytes_length in Hj. cbn [rbind fst snd].
  rewrite adv_adv; [|apply RWf_new|rewrite view_new, bits_of_bytes_length; exact Hk].
  cbn [bread adv new_reader]. rewrite Nat.add_0_l.
  replace ((k + 8 * j) / 8)%nat with (k / 8 + j)%nat by divlia. replace ((k + 8 * j) mod 8)%nat with (k mod 8)%nat by divlia.
  destruct (Nat.leb_spec (k / 8 + j) (length d)) as [L|L]; [|divlia].
  rewrite skipn_length, bytes_at_length. do 5 f_equal. divlia.
Qed.
Lemma Dec_at {A} (m : reader A) D : Dec m D -> decodes_at m D.
Proof.
  intros H d k Hd. split; intros Hk; [apply DecAt_at; [exact Hd|exact Hk|apply H, RWf_at; exact Hk]|].
  unfold d_from_bytes. rewrite start_out by exact Hk. reflexivity.
Qed.
Lemma offset_types {E : Env} :
  decodes_at read_length dec_length /\ decodes_at read_varint dec_varint /\ decodes_at read_file_offset dec_file_offset /\
  decodes_at read_channel_header dec_channel_header /\ decodes_at read_channel dec_channel /\
  decodes_at read_channel_status dec_channel_status /\ decodes_at read_sub_band dec_sub_band /\
  decodes_at read_sub_profile dec_sub_profile /\ decodes_at read_access_profile dec_access_profile /\
  decodes_at read_addressee dec_addressee /\ decodes_at read_qos dec_qos /\
  decodes_at read_dash7_status dec_dash7_status /\ decodes_at read_dash7_tx_status dec_dash7_tx /\
  decodes_at read_final_status_code dec_final /\ decodes_at read_file_header dec_file_header.
Proof.
  repeat match goal with |- _ /\ _ => split end; apply Dec_at;
    [exact Dec_length|exact Dec_varint|exact Dec_file_offset|exact Dec_channel_header|exact Dec_channel|exact Dec_channel_status
    |exact Dec_sub_band|exact Dec_sub_profile|exact Dec_access_profile|exact Dec_addressee|exact Dec_qos|exact Dec_dash7_status
    |exact Dec_dash7_tx|exact Dec_final|exact Dec_file_header].
Qed.
Lemma offset_operations {E : Env} :
  decodes_at read_query dec_query /\ decodes_at read_dash7_config dec_dash7_config /\
  decodes_at read_lorawan_config dec_lorawan /\ decodes_at read_itf_final_op dec_itf_final.
Proof.
  repeat match goal with |- _ /\ _ => split end; apply Dec_at;
    [exact Dec_query|exact Dec_dash7_config|exact Dec_lorawan|exact Dec_itf_final].
Qed.

(** ** Enums *)
Lemma faithful_at {A} n (m : reader A) w code codes : Adv n m -> (forall r, RWf r -> (length (view r) < n)%nat -> m r = Err EIncomplete) ->
  faithful n m w code codes -> enum_at n m code codes.
Proof.
  intros Ha Hs (Hr & _) d k Hd. unfold d_from_bytes. split; intros Hk.
  2: { destruct (Nat.le_gt_cases k (8 * length d)) as [L|L]; [|rewrite start_out by exact L; reflexivity].
       rewrite start_in by exact L. rewrite Hs; [reflexivity|apply RWf_at; exact L|].
       rewrite view_at, skipn_length, bits_of_bytes_length by exact L. lia. }
  assert (L : (k <= 8 * length d)%nat) by lia. rewrite start_in by exact L. pose proof (RWf_at d k L) as W.
  set (r := adv (new_reader d) k) in *.
  assert (V : view r = bits_of n (field d k n) ++ skipn n (view r)).
  { rewrite <- (firstn_skipn n (view r)) at 1. f_equal. unfold r. rewrite view_at by exact L.
    rewrite <- field_bits by assumption. set (l := firstn n (skipn k (bits_of_bytes d))).
    assert (Ln : length l = n) by (unfold l; rewrite firstn_length, skipn_length, bits_of_bytes_length; lia).
    rewrite <- Ln at 1. symmetry. apply bits_of_N_of_bits. }
  assert (B : field d k n < 2 ^ N.of_nat n) by (unfold field; apply N.mod_lt, N.pow_nonzero; lia).
  destruct (Hr r (field d k n) _ W B V) as (H1 & H2). split; intros Hi; [|rewrite H2 by exact Hi; reflexivity].
  destruct (H1 Hi) as (v & r' & M & Cv & _). exists v. split; [exact Cv|]. rewrite M. cbn [rbind fst snd].
  destruct (Ha _ _ _ W M) as (_ & ->). unfold r. cbn [bread adv new_reader]. rewrite Nat.add_0_l.
  destruct (Nat.leb_spec ((k + n) / 8) (length d)) as [Q|Q]; [reflexivity|divlia].
Qed.
Lemma enum_short {A} n f r : RWf r -> (length (view r) < n)%nat -> @read_enum A n f r = Err EIncomplete.
Proof. intros Hr H. unfold read_enum, bind. rewrite read_uint_err by assumption. reflexivity. Qed.
Ltac at_enum H := eapply faithful_at; [apply Adv_enum|intros; apply enum_short; assumption|apply H].
Lemma enums_physical :
  enum_at 2 read_bandwidth code_bandwidth [0; 1] /\ enum_at 3 read_channel_band code_band [0; 1; 2; 3; 4] /\
  enum_at 2 read_channel_class code_class [0; 1; 2; 3] /\ enum_at 2 read_channel_coding code_coding [0; 1; 2; 3] /\
  enum_at 4 read_csma_ca_mode code_csma [0; 1; 2; 3].
Proof. repeat match goal with |- _ /\ _ => split end; at_enum codes_physical. Qed.
Lemma enums_network {E : Env} :
  enum_at 2 read_group_condition code_group [0; 1; 2; 3] /\ enum_at 2 read_address_type code_address_type [0; 1; 2; 3] /\
  enum_at (match e_feat with Wizzilab => 3 | _ => 4 end) read_nls_method code_nls [0; 1; 2; 3; 4; 5; 6; 7].
Proof.
  pose proof (codes_network E) as (H1 & H2 & H3). repeat match goal with |- _ /\ _ => split end.
  - eapply faithful_at; [apply Adv_enum|intros; apply enum_short; assumption|exact H1].
  - eapply faithful_at; [apply Adv_enum|intros; apply enum_short; assumption|exact H2].
  - eapply faithful_at; [| |exact H3]; unfold read_nls_method, nls_bits, is_wizzilab; destruct e_feat;
      first [apply Adv_enum|intros; apply enum_short; assumption].
Qed.
Lemma enums_app :
  enum_at 3 read_response_mode code_response [0; 1; 2; 4; 5; 6] /\ enum_at 3 read_retry_mode code_retry [0; 1; 2; 3; 4; 5; 6; 7] /\
  enum_at 8 read_final_status_code code_final final_codes /\
  enum_at 3 read_action_condition code_condition [0; 1; 2; 3] /\ enum_at 2 read_storage_class code_storage [0; 1; 2; 3] /\
  enum_at 8 read_eng_method code_eng [0; 1; 2; 3; 4] /\
  enum_at 3 read_arith_cmp code_cmp [0; 1; 2; 3; 4; 5] /\ enum_at 3 read_range_cmp code_range [0; 1] /\
  enum_at 8 read_permission_level code_level [0; 1] /\ enum_at 2 read_status_type code_status_type [0; 1; 2] /\
  enum_at 2 read_chunk_step code_chunk [0; 1; 2; 3] /\ enum_at 2 read_logic_op code_logic [0; 1; 2; 3].
Proof.
  repeat match goal with |- _ /\ _ => split end;
    [at_enum codes_session|at_enum codes_session|at_enum codes_session|at_enum codes_data|at_enum codes_data|at_enum codes_data
    |at_enum codes_app|at_enum codes_app|at_enum codes_app|at_enum codes_app|at_enum codes_app|at_enum codes_app].
Qed.

(** ** Files, through the crate's own from_bytes *)
Lemma offset_file {E : Env} b n d k : bytes d ->
  ((k <= 8 * length d)%nat ->
   match dec_file b n (bytes_at d k) with
   | Some (f, rest) => file_from_bytes d k (file_id_of b) n =
       Ok ((skipn (k / 8 + (length (bytes_at d k) - length rest)) d, k mod 8)%nat, f)
   | None => exists e, file_from_bytes d k (file_id_of b) n = Err e
   end) /\
  ((8 * length d < k)%nat -> file_from_bytes d k (file_id_of b) n = Err EIncomplete).
Proof.
  intros Hd. unfold file_from_bytes, u_from_bytes. split; intros Hk; [|rewrite start_out by exact Hk; reflexivity].
  rewrite start_in by exact Hk. pose proof (Dec_file_at b n _ (RWf_at d k Hk)) as H. unfold DecAt in H.
  rewrite view_at, octets_at in H by assumption.
  destruct (dec_file b n (bytes_at d k)) as [[v rest]|]; [|destruct H as [e ->]; exists e; reflexivity].
  destruct H as (j & Hj & -> & ->). rewrite skipn_length, bits_of_bytes_length in Hj. cbn [rbind fst snd].
  rewrite adv_adv; [|apply RWf_new|rewrite view_new, bits_of_bytes_length; exact Hk].
  cbn [bread adv new_reader]. rewrite Nat.add_0_l. unfold pad_rest. cbn [fst snd].
  replace ((k + 8 * j) mod 8)%nat with (k mod 8)%nat by divlia.
  assert (I : (if (k mod 8 =? 0)%nat then (k + 8 * j) / 8 else (k + 8 * j - k mod 8) / 8)%nat = (k / 8 + j)%nat).
  { destruct (Nat.eqb_spec (k mod 8) 0); divlia. }
  rewrite I. rewrite skipn_length, bytes_at_length.
  replace ((8 * length d - k) / 8 - ((8 * length d - k) / 8 - j))%nat with j by divlia.
  destruct (Nat.leb_spec (length d * 8 + k) (k + 8 * j)) as [Q|Q].
  - assert (k = 0)%nat as -> by lia. assert (j = length d) as -> by lia. rewrite Nat.div_0_l by lia. rewrite Nat.add_0_l, skipn_all. reflexivity.
  - destruct (Nat.leb_spec (k / 8 + j) (length d)) as [L|L]; [reflexivity|divlia].
Qed.

(** ** Types with an id that is read a second time *)
Lemma at_left d k : (k <= 8 * length d)%nat -> pos (adv (new_reader d) k) = next_byte k /\
  length (left (adv (new_reader d) k)) = (8 * next_byte k - k)%nat /\ bread (adv (new_reader d) k) = k.
Proof.
  intros Hk. split; [|split].
  - unfold adv, need, next_byte. cbn [pos left new_reader length]. rewrite Nat.sub_0_r. reflexivity.
  - rewrite adv_left_length; [|apply RWf_new|rewrite view_new, bits_of_bytes_length; exact Hk].
    unfold need, next_byte. cbn [left new_reader length]. rewrite Nat.sub_0_r. lia.
  - reflexivity.
Qed.
Lemma one_at d k : bytes d -> (k + 8 <= 8 * length d)%nat -> one (bytes_at d k) = Some (field d k 8, bytes_at d (k + 8)).
Proof.
  intros Hd Hk. assert (S : bytes_at d k = field d k 8 :: bytes_at d (k + 8)); [|rewrite S; reflexivity].
  unfold bytes_at. replace ((8 * length d - k) / 8)%nat with (S ((8 * length d - (k + 8)) / 8)) by divlia.
  cbn [seq map]. rewrite Nat.mul_0_r, Nat.add_0_r. f_equal. rewrite <- seq_shift, map_map. apply map_ext. intros i. f_equal. lia.
Qed.
Lemma u8_at d k : bytes d -> (k + 8 <= 8 * length d)%nat ->
  read_u8 (adv (new_reader d) k) = Ok (field d k 8, adv (new_reader d) (k + 8)).
Proof.
  intros Hd Hk. unfold read_u8. rewrite read_uint_ok.
  - rewrite view_at by lia. rewrite field_bits by assumption. rewrite adv_adv; [reflexivity|apply RWf_new|].
    rewrite view_new, bits_of_bytes_length. lia.
  - apply RWf_at. lia.
  - rewrite view_at, skipn_length, bits_of_bytes_length by lia. lia.
Qed.
Lemma left_0 d k : (k <= 8 * length d)%nat -> (k mod 8 = 0)%nat -> left (adv (new_reader d) k) = [].
Proof.
  intros Hk H0. destruct (at_left d k Hk) as (_ & L & _). apply length_zero_iff_nil. rewrite L. unfold next_byte. divlia.
Qed.
Lemma read_u8_byte d p n : bytes d -> (p < length d)%nat -> read_u8 (mkRd d p [] n) = Ok (nth p d 0, mkRd d (S p) [] (n + 8)).
Proof.
  intros Hd Hp. destruct (nth_error d p) as [b|] eqn:Eb; [|apply nth_error_None in Eb; lia].
  assert (Hb : byte b) by (eapply Forall_forall; [exact Hd|eapply nth_error_In; exact Eb]).
  assert (W : RWf (mkRd d p [] n)) by (unfold RWf; cbn; lia).
  unfold read_u8. rewrite read_uint_ok; [|exact W|rewrite view_length by exact W; cbn [left data pos length]; lia].
  rewrite (view_next _ b W eq_refl Eb). rewrite firstn_app, bits_of_length, Nat.sub_diag, firstn_O, app_nil_r.
  rewrite firstn_all2 by (rewrite bits_of_length; lia). rewrite N_of_bits_bits_of_small by exact Hb.
  rewrite (nth_error_nth _ _ 0 Eb). do 2 f_equal. change 8%nat with (8 * 1)%nat at 1. rewrite (adv_aligned _ 1 W eq_refl); [cbn [data pos bread]; do 2 f_equal; lia|].
  rewrite view_length by exact W. cbn [left data pos length]. lia.
Qed.
Lemma seek_at d k : (k mod 8 <> 0)%nat -> seek_last_read8 (adv (new_reader d) (k + 8)) = Ok (tt, mkRd d (next_byte k) [] k).
Proof.
  intros Hk. unfold seek_last_read8. unfold adv at 1, need at 1. cbn [pos left new_reader length]. rewrite Nat.sub_0_r, Nat.add_0_l.
  replace ((k + 8 + 7) / 8)%nat with (S (next_byte k)) by (unfold next_byte; divlia).
  cbn [data adv new_reader bread]. do 3 f_equal. lia.
Qed.
Lemma id_at {E : Env} d k : bytes d -> (k + 8 <= 8 * length d)%nat ->
  exists r, read_id_field (field d k 8) (adv (new_reader d) (k + 8)) = Ok (seen d k, r) /\ bread r = (k + 8)%nat.
Proof.
  intros Hd Hk. unfold read_id_field, seen. destruct e_rewind eqn:R; [|eexists; split; reflexivity]. cbn [andb].
  destruct (Nat.eqb_spec (k mod 8) 0) as [H0|H0]; cbn [negb].
  - pose proof (id_field_aligned (adv (new_reader d) k) (field d k 8) (adv (new_reader d) (k + 8)) (RWf_at d k ltac:(lia))
      (left_0 d k ltac:(lia) H0) (u8_at d k Hd Hk)) as I. unfold read_id_field in I. rewrite R in I. rewrite I. eexists; split; reflexivity.
  - unfold bind. rewrite seek_at by exact H0. rewrite read_u8_byte; [eexists; split; reflexivity|exact Hd|].
    unfold next_byte. divlia.
Qed.
Lemma id_offset {E : Env} {A} (m : N -> reader A) (D : N -> dec A) (f : N -> A) (known : list N) d k :
  (forall x, In x known -> Dec (m x) (D x)) ->
  (forall x, ~ In x known -> D x = give (f x) /\ m x = (i <- read_id_field x ;; ret (f i))) ->
  bytes d -> (k + 8 <= 8 * length d)%nat ->
  let M := x <- read_u8 ;; m x in
  (In (field d k 8) known -> at_offset M (let* x := one in D x) d k) /\
  (~ In (field d k 8) known -> d_from_bytes M d k = Ok ((skipn (k / 8 + 1) d, k mod 8)%nat, f (seen d k))).
Proof.
  intros H G Hd Hk M. assert (L : (k <= 8 * length d)%nat) by lia. split; intros Hi.
  - apply DecAt_at; [exact Hd|exact L|]. apply DecAt_bind; [apply RWf_at; exact L|apply Dec_u8, RWf_at; exact L|].
    intros v j rest H1 Hj _ _ Ha. rewrite view_at, octets_at, one_at in H1 by assumption. injection H1 as <- _.
    apply H; assumption.
  - unfold d_from_bytes. rewrite start_in by exact L. unfold M. unfold bind at 1. rewrite u8_at by assumption.
    destruct (G _ Hi) as [_ ->]. destruct (id_at d k Hd Hk) as (r & I & B). unfold bind. rewrite I. cbn [ret rbind fst snd]. rewrite B.
    replace ((k + 8) / 8)%nat with (k / 8 + 1)%nat by divlia. replace ((k + 8) mod 8)%nat with (k mod 8)%nat by divlia.
    destruct (Nat.leb_spec (k / 8 + 1) (length d)) as [Q|Q]; [reflexivity|divlia].
Qed.

Lemma offset_interface {E : Env} d k : bytes d -> (k + 8 <= 8 * length d)%nat ->
  (In (field d k 8) [0; 1; 2; 3; 0xD7] -> at_offset read_interface_config dec_interface_config d k) /\
  (~ In (field d k 8) [0; 1; 2; 3; 0xD7] ->
     d_from_bytes read_interface_config d k = Ok ((skipn (k / 8 + 1) d, k mod 8)%nat, IcUnknown (seen d k))).
Proof.
  unfold read_interface_config, dec_interface_config.
  apply (id_offset (fun x => match assoc x _ with Some m => m | None => _ end)
           (fun i => if i =? 0 then _ else _) IcUnknown [0; 1; 2; 3; 0xD7]);
    intros x; cbn [assoc]; intros Hx.
  - destruct (N.eqb_spec x 0); [dsteps1|]. destruct (N.eqb_spec x 1); [dsteps1|].
    destruct (N.eqb_spec x 2).
    { eapply Dec_ext with (m := c <- read_abp ;; ret (IcAbp c)); [unfold read_abp|reflexivity|].
      - apply Dec_bind; [repeat first [exact Dec_lorawan|dstep1]|]. intros c. apply Dec_ret.
      - dsame. }
    destruct (N.eqb_spec x 3).
    { eapply Dec_ext with (m := c <- read_otaa ;; ret (IcOtaa c)); [unfold read_otaa|reflexivity|].
      - apply Dec_bind; [repeat first [exact Dec_lorawan|dstep1]|]. intros c. apply Dec_ret.
      - dsame. }
    destruct (N.eqb_spec x 0xD7); [|exfalso; cbn [In] in Hx; intuition congruence]. repeat first [exact Dec_dash7_config|dstep1].
  - cbn [In] in Hx.
    destruct (N.eqb_spec x 0); [intuition congruence|]. destruct (N.eqb_spec x 1); [intuition congruence|]. destruct (N.eqb_spec x 2); [intuition congruence|].
    destruct (N.eqb_spec x 3); [intuition congruence|]. destruct (N.eqb_spec x 0xD7); [intuition congruence|]. split; reflexivity.
Qed.
Lemma offset_indirect {E : Env} d k : bytes d -> (k + 8 <= 8 * length d)%nat ->
  (In (field d k 8) [0; 1; 0xD7] -> at_offset read_indirect_interface dec_indirect_interface d k) /\
  (~ In (field d k 8) [0; 1; 0xD7] ->
     d_from_bytes read_indirect_interface d k = Ok ((skipn (k / 8 + 1) d, k mod 8)%nat, IiUnknown (seen d k))).
Proof.
  unfold read_indirect_interface, dec_indirect_interface.
  apply (id_offset (fun x => match assoc x _ with Some m => m | None => _ end)
           (fun i => if i =? 0 then _ else _) IiUnknown [0; 1; 0xD7]);
    intros x; cbn [assoc]; intros Hx.
  - destruct (N.eqb_spec x 0); [dsteps1|]. destruct (N.eqb_spec x 1); [dsteps1|].
    destruct (N.eqb_spec x 0xD7); [|exfalso; cbn [In] in Hx; intuition congruence]. dsteps1.
  - cbn [In] in Hx. destruct (N.eqb_spec x 0); [intuition congruence|]. destruct (N.eqb_spec x 1); [intuition congruence|].
    destruct (N.eqb_spec x 0xD7); [intuition congruence|]. split; reflexivity.
Qed.
Lemma short_at {A} (m : N -> reader A) d k : (8 * length d < k + 8)%nat -> d_from_bytes (x <- read_u8 ;; m x) d k = Err EIncomplete.
Proof.
  intros Hk. unfold d_from_bytes. destruct (Nat.le_gt_cases k (8 * length d)) as [L|L]; [|rewrite start_out by exact L; reflexivity].
  rewrite start_in by exact L. unfold bind, read_u8. rewrite read_uint_err; [reflexivity|apply RWf_at; exact L|].
  rewrite view_at, skipn_length, bits_of_bytes_length by exact L. lia.
Qed.
Lemma type_known {E : Env} d k : bytes d -> (k + 8 <= 8 * length d)%nat ->
  read_interface_type (adv (new_reader d) k) =
  match assoc (field d k 8) interface_type_tbl with
  | Some t => Ok (t, adv (new_reader d) (k + 8))
  | None => Ok (ItUnknown, if e_rewind then if (k mod 8 =? 0)%nat then adv (new_reader d) k else mkRd d (next_byte k) [] k
                           else adv (new_reader d) (k + 8))
  end.
Proof.
  intros Hd Hk. unfold read_interface_type. unfold bind at 1. rewrite u8_at by assumption.
  destruct (assoc (field d k 8) interface_type_tbl) as [t|]; [reflexivity|].
  unfold bind. unfold read_id_unit. destruct e_rewind eqn:R; [|reflexivity].
  destruct (Nat.eqb_spec (k mod 8) 0) as [H0|H0]; [|rewrite seek_at by exact H0; reflexivity].
  pose proof (id_unit_aligned (adv (new_reader d) k) (field d k 8) (adv (new_reader d) (k + 8)) (RWf_at d k ltac:(lia))
      (left_0 d k ltac:(lia) H0) (u8_at d k Hd Hk)) as I. unfold read_id_unit in I. rewrite R in I. rewrite I. reflexivity.
Qed.
Definition no_type (x : N) := ~ In x [0; 1; 2; 3; 0xD7].
Lemma assoc_type x : no_type x -> assoc x interface_type_tbl = None.
Proof.
  intros H. unfold no_type in H. cbn [In] in H. unfold interface_type_tbl. cbn [assoc].
  destruct (N.eqb_spec x 0); [intuition congruence|]. destruct (N.eqb_spec x 1); [intuition congruence|]. destruct (N.eqb_spec x 2); [intuition congruence|].
  destruct (N.eqb_spec x 3); [intuition congruence|]. destruct (N.eqb_spec x 0xD7); [intuition congruence|]. reflexivity.
Qed.
Lemma status_step {E : Env} d k t : bytes d -> (k + 8 <= 8 * length d)%nat ->
  read_interface_type (adv (new_reader d) k) = Ok (t, adv (new_reader d) (k + 8)) ->
  dec_itf_status (bytes_at d k) = kd_status t (bytes_at d (k + 8)) ->
  at_offset read_itf_status_op dec_itf_status d k.
Proof.
  intros Hd Hk Ht HD. assert (L : (k <= 8 * length d)%nat) by lia. apply DecAt_at; [exact Hd|exact L|]. unfold DecAt. rewrite view_at, octets_at by assumption.
  change (read_itf_status_op (adv (new_reader d) k)) with ((t <- read_interface_type ;; k_status t) (adv (new_reader d) k)).
  unfold bind. rewrite Ht, HD. pose proof (Dec_k_status t (adv (new_reader d) (k + 8)) (RWf_at d (k + 8) Hk)) as G. unfold DecAt in G.
  rewrite view_at, octets_at in G by assumption.
  destruct (kd_status t (bytes_at d (k + 8))) as [[v rest]|]; [|exact G]. destruct G as (j & Hj & -> & ->).
  rewrite skipn_length, bits_of_bytes_length in *. exists (1 + j)%nat. split; [lia|]. split.
  - pose proof (one_at d k Hd Hk) as O1. destruct (bytes_at d k); [discriminate|]. injection O1 as _ <-. reflexivity.
  - rewrite !adv_adv; [|apply RWf_new|rewrite view_new, bits_of_bytes_length; lia|apply RWf_new|rewrite view_new, bits_of_bytes_length; lia].
    do 3 f_equal. lia.
Qed.
Lemma offset_status {E : Env} d k : bytes d -> (k + 8 <= 8 * length d)%nat ->
  (In (field d k 8) [0; 1; 2; 3; 0xD7] \/ e_rewind = false \/ (k mod 8 = 0)%nat ->
     at_offset read_itf_status_op dec_itf_status d k) /\
  (~ In (field d k 8) [0; 1; 2; 3; 0xD7] -> e_rewind = true -> (k mod 8 <> 0)%nat ->
     match (let* n := dec_length in some_bytes n) (skipn (next_byte k) d) with
     | Some (p, rest) => d_from_bytes read_itf_status_op d k =
         Ok ((skipn (k / 8 + (length d - next_byte k - length rest)) d, k mod 8)%nat, mkItfStatusOp ItUnknown (IsOther p))
     | None => exists e, d_from_bytes read_itf_status_op d k = Err e
     end).
Proof.
  intros Hd Hk. assert (L : (k <= 8 * length d)%nat) by lia. pose proof (type_known d k Hd Hk) as T. split.
  - intros [Hi|[Hr|H0]].
    + assert (HD : exists t, assoc (field d k 8) interface_type_tbl = Some t /\ dec_itf_status (bytes_at d k) = kd_status t (bytes_at d (k + 8))).
      { unfold dec_itf_status. unfold andthen at 1. rewrite one_at by assumption. cbn [In] in Hi.
        destruct Hi as [<-|[<-|[<-|[<-|[<-|[]]]]]]; eexists; split; reflexivity. }
      destruct HD as (t & At & HD). rewrite At in T. apply (status_step d k t); assumption.
    + destruct (in_dec N.eq_dec (field d k 8) [0; 1; 2; 3; 0xD7]) as [Hi|Hi].
      * assert (HD : exists t, assoc (field d k 8) interface_type_tbl = Some t /\ dec_itf_status (bytes_at d k) = kd_status t (bytes_at d (k + 8))).
        { unfold dec_itf_status. unfold andthen at 1. rewrite one_at by assumption. cbn [In] in Hi.
          destruct Hi as [<-|[<-|[<-|[<-|[<-|[]]]]]]; eexists; split; reflexivity. }
        destruct HD as (t & At & HD). rewrite At in T. apply (status_step d k t); assumption.
      * rewrite (assoc_type _ Hi), Hr in T. apply (status_step d k ItUnknown); [exact Hd|exact Hk|exact T|].
        unfold dec_itf_status. unfold andthen at 1. rewrite one_at by assumption. cbn [In] in Hi.
        destruct (N.eqb_spec (field d k 8) 0); [intuition congruence|]. destruct (N.eqb_spec (field d k 8) 1); [intuition congruence|].
        destruct (N.eqb_spec (field d k 8) 0xD7); [intuition congruence|]. destruct (N.eqb_spec (field d k 8) 2); [intuition congruence|].
        destruct (N.eqb_spec (field d k 8) 3); [intuition congruence|]. cbn [orb]. rewrite Hr. reflexivity.
    + apply DecAt_at; [exact Hd|exact L|]. apply DecA_itf_status; [apply RWf_at; exact L|apply left_0; assumption].
  - intros Hi Hr H0. rewrite (assoc_type _ Hi), Hr in T. destruct (Nat.eqb_spec (k mod 8) 0) as [H0'|_]; [contradiction|].
    unfold d_from_bytes. rewrite start_in by exact L.
    change (read_itf_status_op (adv (new_reader d) k)) with ((t <- read_interface_type ;; k_status t) (adv (new_reader d) k)).
    unfold bind. rewrite T. assert (B : (next_byte k < length d)%nat) by (unfold next_byte; divlia).
    assert (W : RWf (mkRd d (next_byte k) [] k)) by (unfold RWf; cbn [pos data left length]; lia).
    pose proof (Dec_k_status ItUnknown _ W) as G. unfold DecAt in G.
    assert (V : view (mkRd d (next_byte k) [] k) = bits_of_bytes (skipn (next_byte k) d)) by reflexivity.
    assert (Hs : bytes (skipn (next_byte k) d)).
    { rewrite <- (firstn_skipn (next_byte k) d) in Hd. apply Forall_app in Hd. apply Hd. }
    rewrite V, octets_bits in G by exact Hs.
    assert (K : kd_status ItUnknown (skipn (next_byte k) d) =
      match (let* n := dec_length in some_bytes n) (skipn (next_byte k) d) with
      | Some (p, rest) => Some (mkItfStatusOp ItUnknown (IsOther p), rest) | None => None end).
    { cbn [kd_status]. unfold andthen. destruct (dec_length _) as [[n l1]|]; [|reflexivity].
      destruct (some_bytes n l1) as [[p l2]|]; reflexivity. }
    rewrite K in G. destruct ((let* n := dec_length in some_bytes n) (skipn (next_byte k) d)) as [[p rest]|];
      [|destruct G as [e ->]; exists e; reflexivity].
    destruct G as (j & Hj & -> & ->). rewrite bits_of_bytes_length in Hj. rewrite !skipn_length in *. cbn [rbind fst snd].
    rewrite adv_aligned; [|exact W|reflexivity|rewrite V, bits_of_bytes_length, skipn_length; lia]. cbn [bread data pos].
    replace ((k + 8 * j) / 8)%nat with (k / 8 + j)%nat by divlia. replace ((k + 8 * j) mod 8)%nat with (k mod 8)%nat by divlia.
    destruct (Nat.leb_spec (k / 8 + j) (length d)) as [Q|Q]; [|unfold next_byte in *; divlia].
    do 5 f_equal. lia.
Qed.
Ltac bytes_c := repeat constructor.
Lemma offset_rewind {E : Env} :
  (decodes_at read_interface_config dec_interface_config <-> e_rewind = false) /\
  (decodes_at read_indirect_interface dec_indirect_interface <-> e_rewind = false) /\
  (decodes_at read_itf_status_op dec_itf_status <-> e_rewind = false).
Proof.
  assert (S : forall d k, bytes d -> (8 * length d < k + 8)%nat -> (k <= 8 * length d)%nat -> one (bytes_at d k) = None).
  { intros d k Hd Hk L. pose proof (bytes_at_length d k) as B. destruct (bytes_at d k); [reflexivity|].
    cbn [length] in B. revert B. intros; exfalso. divlia. }
  split; [|split].
  - split.
    + intros H. destruct e_rewind eqn:R; [exfalso|reflexivity].
      destruct (H [0x0F; 0xF1] 4%nat ltac:(bytes_c)) as [H1 _]. specialize (H1 ltac:(cbn; lia)). unfold at_offset in H1.
      destruct E as [F O []]; [|discriminate R]. destruct F, O; vm_compute in H1; discriminate H1.
    + intros R d k Hd. destruct (Nat.le_gt_cases (k + 8) (8 * length d)) as [L|L].
      2: { assert (Q : d_from_bytes read_interface_config d k = Err EIncomplete) by (unfold read_interface_config; apply short_at; exact L).
           split; intros Hk; [|exact Q]. unfold at_offset, dec_interface_config. unfold andthen at 1. rewrite S by assumption. exists EIncomplete. exact Q. }
      destruct (offset_interface d k Hd L) as (H1 & H2). split; [intros Hk|lia].
      destruct (in_dec N.eq_dec (field d k 8) [0; 1; 2; 3; 0xD7]) as [Hi|Hi]; [apply H1; exact Hi|].
      specialize (H2 Hi). unfold seen in H2. rewrite R in H2. cbn [andb] in H2. unfold at_offset, dec_interface_config. unfold andthen at 1.
      rewrite one_at by assumption. cbn [In] in Hi.
      destruct (N.eqb_spec (field d k 8) 0); [intuition congruence|]. destruct (N.eqb_spec (field d k 8) 1); [intuition congruence|].
      destruct (N.eqb_spec (field d k 8) 2); [intuition congruence|].
      destruct (N.eqb_spec (field d k 8) 3); [intuition congruence|]. destruct (N.eqb_spec (field d k 8) 0xD7); [intuition congruence|].
      unfold give. rewrite H2. rewrite !bytes_at_length.
      replace ((8 * length d - k) / 8 - (8 * length d - (k + 8)) / 8)%nat with 1%nat by divlia. reflexivity.
  - split.
    + intros H. destruct e_rewind eqn:R; [exfalso|reflexivity].
      destruct (H [0x0F; 0xF1] 4%nat ltac:(bytes_c)) as [H1 _]. specialize (H1 ltac:(cbn; lia)). unfold at_offset in H1.
      destruct E as [F O []]; [|discriminate R]. destruct F, O; vm_compute in H1; discriminate H1.
    + intros R d k Hd. destruct (Nat.le_gt_cases (k + 8) (8 * length d)) as [L|L].
      2: { assert (Q : d_from_bytes read_indirect_interface d k = Err EIncomplete) by (unfold read_indirect_interface; apply short_at; exact L).
           split; intros Hk; [|exact Q]. unfold at_offset, dec_indirect_interface. unfold andthen at 1. rewrite S by assumption. exists EIncomplete. exact Q. }
      destruct (offset_indirect d k Hd L) as (H1 & H2). split; [intros Hk|lia].
      destruct (in_dec N.eq_dec (field d k 8) [0; 1; 0xD7]) as [Hi|Hi]; [apply H1; exact Hi|].
      specialize (H2 Hi). unfold seen in H2. rewrite R in H2. cbn [andb] in H2. unfold at_offset, dec_indirect_interface. unfold andthen at 1.
      rewrite one_at by assumption. cbn [In] in Hi.
      destruct (N.eqb_spec (field d k 8) 0); [intuition congruence|]. destruct (N.eqb_spec (field d k 8) 1); [intuition congruence|].
      destruct (N.eqb_spec (field d k 8) 0xD7); [intuition congruence|].
      unfold give. rewrite H2. rewrite !bytes_at_length.
      replace ((8 * length d - k) / 8 - (8 * length d - (k + 8)) / 8)%nat with 1%nat by divlia. reflexivity.
  - split.
    + intros H. destruct e_rewind eqn:R; [exfalso|reflexivity].
      destruct (H [0; 0x40; 0] 4%nat ltac:(bytes_c)) as [H1 _]. specialize (H1 ltac:(cbn; lia)). unfold at_offset in H1.
      destruct E as [F O []]; [|discriminate R]. destruct F, O; vm_compute in H1; destruct H1; discriminate.
    + intros R d k Hd. destruct (Nat.le_gt_cases (k + 8) (8 * length d)) as [L|L].
      2: { assert (Q : d_from_bytes read_itf_status_op d k = Err EIncomplete).
           { unfold d_from_bytes. destruct (Nat.le_gt_cases k (8 * length d)) as [Hk|Hk]; [|rewrite start_out by exact Hk; reflexivity].
             rewrite start_in by exact Hk. unfold read_itf_status_op, read_interface_type, read_u8. unfold bind at 1. unfold bind at 1.
             rewrite read_uint_err; [reflexivity|apply RWf_at; exact Hk|]. rewrite view_at, skipn_length, bits_of_bytes_length by exact Hk. lia. }
           split; intros Hk; [|exact Q]. unfold at_offset, dec_itf_status. unfold andthen at 1. rewrite S by assumption. exists EIncomplete. exact Q. }
      split; [intros Hk|lia]. apply offset_status; [exact Hd|exact L|right; left; exact R].
Qed.
Lemma offset_default {E : Env} : decodes_at (read_status StAction) (dec_status 0).
Proof. apply Dec_at. unfold read_status, read_action_status. eapply Dec_ext with (m := a <- read_u8 ;; s <- read_u8 ;; ret (StatusAction (mkActionStatus a s))); [dsteps1|rsame|reflexivity]. Qed.
Lemma offset_frame {E : Env} : decodes_at read_bframe dec_bframe /\ decodes_at (read_status StAction) (dec_status 0).
Proof. split; [apply Dec_at, Dec_bframe|exact offset_default]. Qed.
