(** Lemmas for C60. *)
From Coq Require Import List NArith ZArith Bool Lia Arith ZifyBool ZifyNat ZifyN.
From Verif Require Import Base Deku Utils Types Physical Link Network Session Data Query Interface File
  Operation Action Command Frames Construct WellFormed SpecLayout SpecApi SpecReturn SpecAction SpecCodes SpecPartial LBits LReader LNice LNiceOps LCodes.
Import ListNotations.
Open Scope N_scope.

(** Where [m] succeeds it consumes [c] bits and a number of whole bytes. *)
Definition Off {A} (c : nat) (m : reader A) : Prop :=
  forall r v r', RWf r -> m r = Ok (v, r') -> exists k, (8 * k + c <= length (view r))%nat /\ r' = adv r (8 * k + c).
Lemma Adv_Off {A} c (m : reader A) : Adv c m -> Off c m.
Proof. intros H r v r' Hr E. exists 0%nat. exact (H r v r' Hr E). Qed.
Lemma Off_bind {A B} a b (m : reader A) (f : A -> reader B) : Off a m -> (forall x, Off b (f x)) -> Off (a + b) (bind m f).
Proof.
  intros Hm Hf r v r' Hr H. unfold bind in H. destruct (m r) as [[x r1]| |] eqn:E1; try discriminate.
  destruct (Hm r x r1 Hr E1) as (k & L1 & ->).
  destruct (Hf x (adv r (8 * k + a)) v r') as (j & L2 & ->); [apply RWf_adv; assumption|exact H|].
  rewrite view_adv, skipn_length in L2 by assumption. exists (k + j)%nat. split; [lia|]. rewrite adv_adv by assumption. f_equal. lia.
Qed.
Lemma Off_byte {A} c k (m : reader A) : Off (8 * k + c) m -> Off c m.
Proof. intros H r v r' Hr E. destruct (H r v r' Hr E) as (j & L & ->). exists (j + k)%nat. split; [lia|]. f_equal. lia. Qed.
Lemma Off_bind0 {A B} b (m : reader A) (f : A -> reader B) : Off 0 m -> (forall x, Off b (f x)) -> Off b (bind m f).
Proof. intros. apply (Off_bind 0 b); assumption. Qed.
Lemma Off_u8 : Off 0 read_u8.
Proof. apply (Off_byte 0 1), Adv_Off, Adv_uint. Qed.
Lemma Off_ret {A} (v : A) : Off 0 (ret v).
Proof. apply Adv_Off, Adv_ret. Qed.
Lemma Off_list {A} n (m : reader A) : Off 0 m -> Off 0 (read_list n m).
Proof.
  intros H. induction n as [|n IH]; [apply Off_ret|]. cbn [read_list]. apply Off_bind0; [exact H|]. intros x.
  apply Off_bind0; [exact IH|]. intros l. apply Off_ret.
Qed.
Lemma Off_vec n : Off 0 (read_vec_u8 n).
Proof.
  intros r v r' Hr H. rewrite read_vec_u8_unguarded in H by exact Hr. exact (Off_list _ _ Off_u8 r v r' Hr H).
Qed.
Lemma Off_cond_vec c n : Off 0 (read_cond_vec c n).
Proof. destruct c; [apply Off_vec|apply Off_ret]. Qed.
Lemma Off_length : Off 0 read_length.
Proof.
  unfold read_length. apply (Off_byte 0 1), (Off_bind 2 6); [apply Adv_Off, Adv_uint|].
  intros x. apply (Off_byte 6 (N.to_nat x)). replace (8 * N.to_nat x + 6)%nat with (N.to_nat (6 + x * 8)) by lia. apply Adv_Off, Adv_uint.
Qed.
Lemma Off_file_offset : Off 0 read_file_offset.
Proof. apply Off_bind0; [apply Off_u8|]. intros i. apply Off_bind0; [apply Off_length|]. intros o. apply Off_ret. Qed.

Lemma off_never {A} c (m : reader A) : (c mod 8 <> 0)%nat -> Off c m -> never_parsed m.
Proof.
  intros Hc H d v E. unfold d_try_from, d_from_reader, start in E. cbn [Nat.eqb] in E.
  destruct (m (new_reader d)) as [[x r']| |] eqn:M; try discriminate. cbn [rbind fst snd] in E.
  destruct (H _ _ _ (RWf_new d) M) as (k & L & ->). rewrite view_new, bits_of_bytes_length in L.
  destruct (Nat.eqb_spec (Nat.div (bread (adv (new_reader d) (8 * k + c))) 8) (length d)) as [Q|Q]; [|discriminate].
  cbn [bread adv new_reader] in Q. pose proof (Nat.div_mod_eq (0 + (8 * k + c)) 8) as D.
  replace (0 + (8 * k + c))%nat with (c + k * 8)%nat in D, Q by lia. rewrite Nat.mod_add in D by lia. lia.
Qed.

Ltac off := repeat first
  [ apply Off_u8 | apply Off_length | apply Off_file_offset | apply Off_vec | apply Off_cond_vec
  | apply Adv_Off; first [apply Adv_bool | apply Adv_uint | apply Adv_skip | apply Adv_enum] ].
Lemma Off_then {A B} c a b (m : reader A) (f : A -> reader B) : Off a m -> (forall x, Off b (f x)) -> (a + b = c)%nat -> Off c (bind m f).
Proof. intros Hm Hf <-. apply Off_bind; assumption. Qed.
Ltac bits := eapply off_never with (2 := Adv_Off _ _ (Adv_enum _ _)); discriminate.

Lemma never_physical :
  never_parsed read_bandwidth /\ never_parsed read_channel_band /\ never_parsed read_channel_class /\
  never_parsed read_channel_coding /\ never_parsed read_csma_ca_mode.
Proof. repeat split; bits. Qed.
Lemma never_network {E : Env} :
  never_parsed read_group_condition /\ never_parsed read_address_type /\ never_parsed read_nls_method.
Proof. repeat split; try bits. apply (off_never nls_bits); [unfold nls_bits; destruct is_wizzilab; discriminate|apply Adv_Off, Adv_enum]. Qed.
Lemma never_session : never_parsed read_response_mode /\ never_parsed read_retry_mode.
Proof. repeat split; bits. Qed.
Lemma Adv_user : Adv 3 read_user_permissions.
Proof.
  apply (Adv_bind 1 2); [apply Adv_bool|]. intros a. apply (Adv_bind 1 1); [apply Adv_bool|]. intros b.
  apply (Adv_bind 1 0); [apply Adv_bool|]. intros c. apply Adv_ret.
Qed.
Lemma never_data : never_parsed read_action_condition /\ never_parsed read_storage_class /\ never_parsed read_user_permissions.
Proof. repeat split; try bits. apply (off_never 3); [discriminate|apply Adv_Off, Adv_user]. Qed.
Lemma Adv_arith : Adv 4 read_arith_params.
Proof. apply (Adv_bind 1 3); [apply Adv_bool|]. intros a. apply (Adv_bind 3 0); [apply Adv_enum|]. intros b. apply Adv_ret. Qed.
Lemma Adv_range : Adv 4 read_range_params.
Proof. apply (Adv_bind 1 3); [apply Adv_bool|]. intros a. apply (Adv_bind 3 0); [apply Adv_enum|]. intros b. apply Adv_ret. Qed.
Ltac five := apply (Off_bind 1 4); [apply Adv_Off, Adv_bool|]; intros ?;
  apply (Off_bind 4 0); [apply Adv_Off; first [apply Adv_arith|apply Adv_range]|]; intros ?.
Ltac rest := repeat (apply Off_bind0; [off|]; intros ?); apply Off_ret.
Lemma never_query :
  never_parsed read_arith_cmp /\ never_parsed read_arith_params /\ never_parsed read_range_cmp /\
  never_parsed read_range_params /\ never_parsed read_non_void /\ never_parsed read_cmp_zero /\
  never_parsed read_cmp_value /\ never_parsed read_cmp_other /\ never_parsed read_bitmap_range /\
  never_parsed read_string_search.
Proof.
  repeat split; try bits.
  - apply (off_never 4); [discriminate|apply Adv_Off, Adv_arith].
  - apply (off_never 4); [discriminate|apply Adv_Off, Adv_range].
  - apply (off_never 5); [discriminate|]. apply (Off_bind 5 0); [apply Adv_Off, Adv_skip|]. intros ?. rest.
  - apply (off_never 5); [discriminate|]. five. rest.
  - apply (off_never 5); [discriminate|]. five. rest.
  - apply (off_never 5); [discriminate|]. five. rest.
  - apply (off_never 5); [discriminate|]. five. rest.
  - apply (off_never 5); [discriminate|]. apply (Off_bind 1 4); [apply Adv_Off, Adv_bool|]. intros ?.
    apply (Off_bind 1 3); [apply Adv_Off, Adv_skip|]. intros ?. apply (Off_bind 3 0); [apply Adv_Off, Adv_uint|]. intros ?. rest.
Qed.
Lemma Adv_2 {A B C} (m : reader A) (n : reader B) (f : A -> B -> C) : Adv 1 m -> Adv 1 n -> Adv 2 (x <- m ;; y <- n ;; ret (f x y)).
Proof. intros Hm Hn. apply (Adv_bind 1 1); [exact Hm|]. intros x. apply (Adv_bind 1 0); [exact Hn|]. intros y. apply Adv_ret. Qed.
Lemma never_operation :
  never_parsed read_opcode /\ never_parsed read_header /\ never_parsed read_status_type /\ never_parsed read_chunk_step /\
  never_parsed read_logic_op /\ never_parsed read_response_tag_header /\ never_parsed read_forward_header /\
  never_parsed read_indirect_forward_header /\ never_parsed read_request_tag_header /\ never_parsed read_tx_status_type.
Proof.
  repeat split; try bits.
  - apply (off_never 6); [discriminate|apply Adv_Off, Adv_uint].
  - apply (off_never 2); [discriminate|apply Adv_Off, Adv_header].
  - apply (off_never 2); [discriminate|apply Adv_Off, Adv_2; apply Adv_bool].
  - apply (off_never 2); [discriminate|apply Adv_Off, (Adv_2 _ _ (fun _ y => y)); [apply Adv_skip|apply Adv_bool]].
  - apply (off_never 2); [discriminate|apply Adv_Off, Adv_2; apply Adv_bool].
  - apply (off_never 2); [discriminate|apply Adv_Off, (Adv_2 _ _ (fun x _ => x)); [apply Adv_bool|apply Adv_skip]].
Qed.
Lemma Adv_tcontrol : Adv 7 read_tcontrol.
Proof.
  unfold read_tcontrol. apply (Adv_bind 1 6); [apply Adv_bool|intros]. apply (Adv_bind 1 5); [apply Adv_bool|intros].
  apply (Adv_bind 1 4); [apply Adv_bool|intros]. apply (Adv_bind 1 3); [apply Adv_bool|intros].
  apply (Adv_bind 1 2); [apply Adv_bool|intros]. apply (Adv_bind 1 1); [apply Adv_bool|intros].
  apply (Adv_bind 1 0); [apply Adv_bool|intros]. apply Adv_ret.
Qed.
Lemma never_frames {E : Env} : never_parsed read_tcontrol /\ (e_feat <> Wizzilab -> never_parsed read_ncontrol).
Proof.
  split; [apply (off_never 7); [discriminate|apply Adv_Off, Adv_tcontrol]|]. intros Hf.
  apply (off_never 9); [discriminate|]. apply Adv_Off. unfold read_ncontrol, read_nls_method.
  assert (nls_bits = 4%nat) as ->. { unfold nls_bits, is_wizzilab. destruct e_feat; try reflexivity. contradiction. }
  apply (Adv_bind 1 8); [apply Adv_bool|intros]. apply (Adv_bind 1 7); [apply Adv_bool|intros].
  apply (Adv_bind 2 5); [apply Adv_enum|intros]. apply (Adv_bind 1 4); [apply Adv_skip|intros].
  apply (Adv_bind 4 0); [apply Adv_enum|intros]. apply Adv_ret.
Qed.
Lemma never_noise back : (forall r v r', back r = Ok (v, r') -> bread r' = bread r) -> never_parsed (read_noise_floor back).
Proof.
  intros Hb d v E. unfold d_try_from, d_from_reader, start in E. cbn [Nat.eqb] in E.
  destruct (read_noise_floor back (new_reader d)) as [[x r']| |] eqn:M; try discriminate. cbn [rbind fst snd] in E.
  destruct (Nat.eqb_spec (Nat.div (bread r') 8) (length d)) as [Q|Q]; [|discriminate].
  unfold read_noise_floor in M. unfold bind at 1 in M. destruct (read_uint 4 (new_reader d)) as [[y r1]| |] eqn:U; try discriminate.
  destruct (Adv_uint 4 _ _ _ (RWf_new d) U) as (L & ->).
  assert (W : RWf (adv (new_reader d) 4)) by (apply RWf_adv; [apply RWf_new|exact L]).
  assert (T : forall (f : N -> noise_floor), (v <- read_u8 ;; ret (f v)) (adv (new_reader d) 4) = Ok (x, r') -> False).
  { intros f H. assert (A : Adv 8 (v <- read_u8 ;; ret (f v))) by (apply (Adv_bind 8 0); [apply Adv_uint|intros; apply Adv_ret]).
    destruct (A _ _ _ W H) as (L2 & ->). rewrite (adv_adv _ _ _ (RWf_new d) L) in Q.
    rewrite (view_adv _ _ (RWf_new d) L), skipn_length, view_new, bits_of_bytes_length in L2.
    cbn [bread adv new_reader Nat.add] in Q. change (Nat.div 12 8) with 1%nat in Q. lia. }
  rewrite view_new, bits_of_bytes_length in L.
  destruct (y =? 0); [exact (T _ M)|]. destruct (y =? 1); [exact (T _ M)|].
  unfold bind in M. destruct (back _) as [[u r2]| |] eqn:B; try discriminate. injection M as _ <-.
  apply Hb in B. rewrite B in Q. cbn [bread adv new_reader Nat.add] in Q. change (Nat.div 4 8) with 0%nat in Q. lia.
Qed.

Lemma bytes_of_bits_short l : (0 < length l < 8)%nat -> bytes_of_bits l = [N_of_bits (l ++ repeat false (8 - length l))].
Proof. intros H. do 8 (destruct l as [|? l]; [cbn [length] in H; try lia; reflexivity|]). cbn [length] in H. lia. Qed.
Lemma upper_of {A} n (m : reader A) w code codes : (0 < n < 8)%nat -> Adv n m -> faithful n m w code codes -> upper_bits n m w code codes.
Proof.
  intros Hn Ha (Hr & Hw & Hc & _). split; [exact Hn|]. split.
  - intros v. unfold to_bytes. rewrite Hw. cbn [rbind]. f_equal.
    destruct (Hc v) as (_ & B). rewrite bytes_of_bits_short by (rewrite bits_of_length; lia). f_equal. rewrite bits_of_length, <- bits_of_0.
    rewrite N_of_bits_app, N_of_bits_bits_of_small by exact B. rewrite N_of_bits_bits_of_small by (apply N.neq_0_lt_0, N.pow_nonzero; lia).
    rewrite bits_of_length. lia.
  - intros x t Hx c. unfold d_from_bytes, start. cbn [Nat.eqb].
    assert (B : c < 2 ^ N.of_nat n).
    { unfold c. apply N.div_lt_upper_bound; [apply N.pow_nonzero; lia|]. rewrite <- N.pow_add_r. replace (N.of_nat (8 - n) + N.of_nat n) with 8 by lia. exact Hx. }
    assert (V : view (new_reader (x :: t)) = bits_of n c ++ bits_of (8 - n) x ++ bits_of_bytes t).
    { rewrite view_new, bits_of_bytes_cons, app_assoc. f_equal. replace 8%nat with (n + (8 - n))%nat at 1 by lia. apply bits_of_app. }
    destruct (Hr (new_reader (x :: t)) c _ (RWf_new _) B V) as (H1 & H2). split; intros Hi.
    + destruct (H1 Hi) as (v & r' & M & Cv & _). exists v. split; [exact Cv|]. rewrite M. cbn [rbind fst snd].
      destruct (Ha _ _ _ (RWf_new _) M) as (_ & ->). cbn [bread adv new_reader Nat.add].
      rewrite (Nat.div_small n 8), (Nat.mod_small n 8) by lia. reflexivity.
    + rewrite (H2 Hi). reflexivity.
Qed.
Ltac up L := apply upper_of; [lia|apply Adv_enum|apply L].
Lemma upper_physical :
  upper_bits 2 read_bandwidth write_bandwidth code_bandwidth [0; 1] /\
  upper_bits 3 read_channel_band write_channel_band code_band [0; 1; 2; 3; 4] /\
  upper_bits 2 read_channel_class write_channel_class code_class [0; 1; 2; 3] /\
  upper_bits 2 read_channel_coding write_channel_coding code_coding [0; 1; 2; 3] /\
  upper_bits 4 read_csma_ca_mode write_csma_ca_mode code_csma [0; 1; 2; 3].
Proof. each; up codes_physical. Qed.
Lemma upper_network {E : Env} :
  upper_bits 2 read_group_condition write_group_condition code_group [0; 1; 2; 3] /\
  upper_bits 2 read_address_type write_address_type code_address_type [0; 1; 2; 3] /\
  upper_bits (match e_feat with Wizzilab => 3 | _ => 4 end)%nat read_nls_method write_nls_method code_nls [0; 1; 2; 3; 4; 5; 6; 7].
Proof.
  pose proof (codes_network E) as (H1 & H2 & H3). each; try (apply upper_of; [lia|apply Adv_enum|assumption]).
  apply upper_of; [destruct e_feat; lia| |exact H3]. unfold read_nls_method, nls_bits, is_wizzilab. destruct e_feat; apply Adv_enum.
Qed.
Lemma upper_app :
  upper_bits 3 read_response_mode write_response_mode code_response [0; 1; 2; 4; 5; 6] /\
  upper_bits 3 read_retry_mode write_retry_mode code_retry [0; 1; 2; 3; 4; 5; 6; 7] /\
  upper_bits 3 read_action_condition write_action_condition code_condition [0; 1; 2; 3] /\
  upper_bits 2 read_storage_class write_storage_class code_storage [0; 1; 2; 3] /\
  upper_bits 3 read_arith_cmp write_arith_cmp code_cmp [0; 1; 2; 3; 4; 5] /\
  upper_bits 3 read_range_cmp write_range_cmp code_range [0; 1] /\
  upper_bits 2 read_status_type write_status_type code_status_type [0; 1; 2] /\
  upper_bits 2 read_chunk_step write_chunk_step code_chunk [0; 1; 2; 3] /\
  upper_bits 2 read_logic_op write_logic_op code_logic [0; 1; 2; 3].
Proof. each; [up codes_session|up codes_session|up codes_data|up codes_data|up codes_app|up codes_app|up codes_app|up codes_app|up codes_app]. Qed.

(** ** The headers and NoiseFloor bit by bit *)
Lemma each_byte (P : N -> Prop) : Forall P (map N.of_nat (seq 0 256)) -> forall x, x < 256 -> P x.
Proof.
  intros H x Hx. rewrite Forall_forall in H. apply H, in_map_iff. exists (N.to_nat x). split; [lia|]. apply in_seq. lia.
Qed.
Lemma headers_exact x t : x < 256 ->
  d_from_bytes read_response_tag_header (x :: t) 0 = Ok ((x :: t, 2%nat), (N.testbit x 7, N.testbit x 6)) /\
  d_from_bytes read_forward_header (x :: t) 0 = Ok ((x :: t, 2%nat), N.testbit x 6) /\
  d_from_bytes read_indirect_forward_header (x :: t) 0 = Ok ((x :: t, 2%nat), (N.testbit x 7, N.testbit x 6)) /\
  d_from_bytes read_request_tag_header (x :: t) 0 = Ok ((x :: t, 2%nat), N.testbit x 7) /\
  d_from_bytes read_tx_status_type (x :: t) 0 = (if x / 64 =? 1 then Ok ((x :: t, 2%nat), tt) else Err EParse).
Proof.
  revert x. apply each_byte. let l := eval vm_compute in (map N.of_nat (seq 0 256)) in change (map N.of_nat (seq 0 256)) with l.
  repeat constructor.
Qed.
Lemma noise_floor_exact back x suf : x < 256 ->
  to_bytes (write_noise_floor (NfFixed x)) = Ok [x / 16; 16 * (x mod 16)] /\
  to_bytes (write_noise_floor (NfForget x)) = Ok [16 + x / 16; 16 * (x mod 16)] /\
  to_bytes (write_noise_floor NfOther) = Ok [] /\
  d_from_bytes (read_noise_floor back) (x / 16 :: 16 * (x mod 16) :: suf) 0
    = Ok ((16 * (x mod 16) :: suf, 4%nat), NfFixed x) /\
  d_from_bytes (read_noise_floor back) (16 + x / 16 :: 16 * (x mod 16) :: suf) 0
    = Ok ((16 * (x mod 16) :: suf, 4%nat), NfForget x).
Proof.
  revert x. apply each_byte. let l := eval vm_compute in (map N.of_nat (seq 0 256)) in change (map N.of_nat (seq 0 256)) with l.
  repeat constructor.
Qed.
