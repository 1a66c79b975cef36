(** Code-carrying enums, narrow bit fields, pad_rest, read_array, status conversions. *)
From Coq Require Import List NArith ZArith Bool Lia ZifyBool ZifyNat ZifyN Arith.
From Verif Require Import Base Deku Utils Types Physical Link Network Session Data Query
  Interface File Operation Action Command ReadArray WellFormed SpecLayout SpecAction SpecApi SpecReturn SpecCodes
  LBits LReader LTypes LUtf8 LLayout LRound LRoundOps LAction LApi LNice LNiceFile LNiceOps LCount LActionApi LReencode LReturn.
Import ListNotations.
Open Scope N_scope.

(** ** Enums *)
Lemma faithful_enum {A} n (of_id : N -> option A) (w : A -> writer) code codes :
  (forall v, w v = Ok (bits_of n (code v))) ->
  (forall v, of_id (code v) = Some v) ->
  (forall v, In (code v) codes) ->
  (forall c, In c codes -> c < 2 ^ N.of_nat n /\ exists v, of_id c = Some v /\ code v = c) ->
  (forall c, ~ In c codes -> of_id c = None) ->
  faithful n (read_enum n of_id) w code codes.
Proof.
  intros Hw Hv Hin Hc Hn. split; [|split; [exact Hw|split; [|split]]].
  - intros r c rest Hr Hb Hview.
    destruct (read_uint_view n r _ rest Hr Hview (bits_of_length n c)) as (E1 & V1 & W1).
    rewrite (N_of_bits_bits_of_small n c Hb) in E1.
    unfold read_enum, bind. rewrite E1. split; intros H.
    + destruct (Hc c H) as (_ & v & Ev & Ec). rewrite Ev. exists v. eexists. split; [reflexivity|].
      split; [exact Ec|]. split; [exact W1|]. split; [exact V1|reflexivity].
    + rewrite (Hn c H). reflexivity.
  - intros v. split; [apply Hin|]. apply (Hc (code v) (Hin v)).
  - intros v v' H. pose proof (Hv v) as H1. rewrite H, Hv in H1. congruence.
  - intros c H. destruct (Hc c H) as (_ & v & _ & Ec). exists v. exact Ec.
Qed.
Lemma assoc_none {A} c (t : list (N * A)) : ~ In c (map fst t) -> assoc c t = None.
Proof.
  induction t as [|[k v] t IH]; intros H; [reflexivity|]. cbn [assoc]. cbn [map fst] in H.
  destruct (N.eqb_spec c k); [exfalso; apply H; left; congruence|]. apply IH. intros H1. apply H. right. exact H1.
Qed.
Ltac enum :=
  apply faithful_enum;
  [ intros []; reflexivity | intros []; reflexivity | intros []; vm_compute; tauto
  | let c := fresh "c" in let H := fresh "H" in intros c H; cbn in H;
    repeat (destruct H as [<-|H]; [split; [reflexivity|eexists; split; reflexivity]|]); destruct H
  | let c := fresh "c" in let H := fresh "H" in intros c H; apply assoc_none; intros H1; apply H;
    vm_compute in H1 |- *; tauto ].

Ltac each := repeat lazymatch goal with |- _ /\ _ => split end.

Lemma codes_physical :
  faithful 2 read_bandwidth write_bandwidth code_bandwidth [0; 1] /\
  faithful 3 read_channel_band write_channel_band code_band [0; 1; 2; 3; 4] /\
  faithful 2 read_channel_class write_channel_class code_class [0; 1; 2; 3] /\
  faithful 2 read_channel_coding write_channel_coding code_coding [0; 1; 2; 3] /\
  faithful 4 read_csma_ca_mode write_csma_ca_mode code_csma [0; 1; 2; 3].
Proof. each; enum. Qed.

Lemma codes_network (E : Env) :
  faithful 2 read_group_condition write_group_condition code_group [0; 1; 2; 3] /\
  faithful 2 read_address_type write_address_type code_address_type [0; 1; 2; 3] /\
  faithful (match e_feat with Wizzilab => 3 | _ => 4 end)%nat read_nls_method write_nls_method code_nls
    [0; 1; 2; 3; 4; 5; 6; 7].
Proof.
  each; [enum|enum|]. unfold read_nls_method, write_nls_method, nls_bits, is_wizzilab.
  destruct e_feat; enum.
Qed.

Lemma codes_session :
  faithful 3 read_response_mode write_response_mode code_response [0; 1; 2; 4; 5; 6] /\
  faithful 3 read_retry_mode write_retry_mode code_retry [0; 1; 2; 3; 4; 5; 6; 7] /\
  faithful 8 read_final_status_code write_final_status_code code_final final_codes.
Proof. each; enum. Qed.

Lemma codes_data :
  faithful 3 read_action_condition write_action_condition code_condition [0; 1; 2; 3] /\
  faithful 2 read_storage_class write_storage_class code_storage [0; 1; 2; 3] /\
  faithful 8 read_eng_method write_eng_method code_eng [0; 1; 2; 3; 4].
Proof. each; enum. Qed.

Lemma codes_app :
  faithful 3 read_arith_cmp write_arith_cmp code_cmp [0; 1; 2; 3; 4; 5] /\
  faithful 3 read_range_cmp write_range_cmp code_range [0; 1] /\
  faithful 8 read_permission_level write_permission_level code_level [0; 1] /\
  faithful 2 read_status_type write_status_type code_status_type [0; 1; 2] /\
  faithful 2 read_chunk_step write_chunk_step code_chunk [0; 1; 2; 3] /\
  faithful 2 read_logic_op write_logic_op code_logic [0; 1; 2; 3].
Proof. each; enum. Qed.

(** The other tagged types. *)
Lemma query_code r c rest : RWf r -> c < 8 -> view r = bits_of 3 c ++ rest ->
  (c = 5 \/ c = 6 -> read_query r = Err EParse) /\
  (forall q r', read_query r = Ok (q, r') -> c <> 5 /\ c <> 6 /\ code_query q = c).
Proof.
  intros Hr Hc Hv. destruct (read_uint_view 3 r _ rest Hr Hv (bits_of_length 3 c)) as (E1 & _ & _).
  rewrite (N_of_bits_bits_of_small 3 c Hc) in E1. unfold read_query, bind at 1 2. rewrite E1. split.
  - intros [->| ->]; reflexivity.
  - intros q r' H.
    assert (c = 0 \/ c = 1 \/ c = 2 \/ c = 3 \/ c = 4 \/ c = 5 \/ c = 6 \/ c = 7) as C by lia.
    repeat destruct C as [->|C]; try subst c; cbn [assoc query_readers N.eqb Pos.eqb] in H; unfold bind, fail in H;
    try discriminate;
    match type of H with
    | match ?x with _ => _ end = _ => destruct x as [[? ?]| |]; try discriminate; injection H as <- _; repeat split; discriminate
    end.
Qed.
Lemma query_starts q l : write_query q = Ok l -> firstn 3 l = bits_of 3 (code_query q).
Proof.
  unfold write_query. replace (query_id q) with (code_query q) by (destruct q; reflexivity).
  unfold write_uint, wseq at 1. cbn [rbind].
  match goal with |- rbind ?x _ = _ -> _ => destruct x as [t| |]; cbn [rbind]; try discriminate end.
  intros H. injection H as <-. destruct q; reflexivity.
Qed.
Lemma permission_code r c rest : RWf r -> c < 256 -> view r = bits_of 8 c ++ rest ->
  (c <> 0x42 -> read_permission r = Err EParse) /\
  (c = 0x42 -> (length rest < 64)%nat /\ read_permission r = Err EIncomplete \/
     exists k r', read_permission r = Ok (PermDash7 k, r') /\ rest = bits_of_bytes k ++ view r').
Proof.
  intros Hr Hc Hv. destruct (read_uint_view 8 r _ rest Hr Hv (bits_of_length 8 c)) as (E1 & V1 & W1).
  rewrite (N_of_bits_bits_of_small 8 c Hc) in E1. change (read_uint 8 r) with (read_u8 r) in E1. unfold read_permission, bind. rewrite E1. split.
  - intros H. destruct (N.eqb_spec c 0x42); [contradiction|reflexivity].
  - intros ->. cbn [N.eqb Pos.eqb]. destruct (Nat.le_gt_cases 64 (length rest)) as [L|L].
    + right. set (bs := firstn 64 rest).
      assert (Lb : length bs = (8 * 8)%nat) by (unfold bs; apply firstn_length_le; exact L).
      assert (R : RT (write_list write_u8 (bytes_of_bits bs)) (read_list 8 read_u8) (bytes_of_bits bs)).
      { apply RT_bytes; [apply bytes_of_bits_length; exact Lb|apply bytes_of_bits_bytes]. }
      destruct R as (bs' & Hw & R). rewrite write_bytes in Hw. injection Hw as <-.
      rewrite (bits_of_bytes_of_bits bs 8 Lb) in R.
      rewrite R; [|exact W1|]. 2:{ rewrite V1. exists (skipn 64 rest). symmetry. apply firstn_skipn. }
      do 2 eexists. split; [reflexivity|].
      rewrite (bits_of_bytes_of_bits bs 8 Lb).
      rewrite view_adv; [|exact W1|]. 2:{ rewrite V1, Lb. exact L. }
      rewrite V1, Lb. symmetry. apply firstn_skipn.
    + left. split; [exact L|]. rewrite read_list_u8_short; [reflexivity|exact W1|]. rewrite V1. exact L.
Qed.
Lemma tx_status_code {E : Env} r c rest : RWf r -> c < 4 -> view r = bits_of 2 c ++ rest -> c <> 1 ->
  read_tx_status_op r = Err EParse.
Proof.
  intros Hr Hc Hv H. destruct (read_uint_view 2 r _ rest Hr Hv (bits_of_length 2 c)) as (E1 & _ & _).
  rewrite (N_of_bits_bits_of_small 2 c Hc) in E1. unfold read_tx_status_op, bind at 1, read_enum, bind at 1. rewrite E1.
  cbn [assoc]. destruct (N.eqb_spec c 1); [contradiction|reflexivity].
Qed.
Lemma interface_type_code {E : Env} c : u8 c ->
  (In c [0; 1; 2; 3; 0xD7] -> exists t, interface_type_try_from c = Ok t /\ t <> ItUnknown /\
     code_itf_type t = [c] /\ interface_type_into t = Ok c /\ to_bytes (write_interface_type t) = Ok [c]) /\
  (~ In c [0; 1; 2; 3; 0xD7] -> interface_type_try_from c = Ok ItUnknown).
Proof.
  intros Hc. unfold interface_type_try_from. rewrite d_from_bytes_0.
  pose proof (read_interface_type_cons [c] 0 0 c [] ltac:(cbn; lia) eq_refl Hc) as H.
  change (mkRd [c] 0 [] 0) with (new_reader [c]) in H. rewrite H. clear H. split.
  - intros H. cbn in H. repeat (destruct H as [<-|H]; [eexists; repeat split; discriminate|]). destruct H.
  - intros H. rewrite assoc_none by (exact H). destruct e_rewind; reflexivity.
Qed.
Lemma interface_type_unknown : interface_type_into ItUnknown = Panic /\ to_bytes (write_interface_type ItUnknown) = Ok [].
Proof. split; reflexivity. Qed.

(** ** Narrow fields *)
Lemma truncated {A} (w : A -> writer) (m : reader A) l v v' : w v = w v' -> transfers (w v') m l v' -> written_as w m l v v'.
Proof.
  intros Hw HT. pose proof HT as ((H1 & _) & H2 & H3). split; [rewrite Hw; exact H1|]. split; [exact H2|]. split.
  - intros (l' & rest & E1 & E2). rewrite Hw in E1. assert (l' = l) by congruence. subst l'. specialize (H3 []).
    rewrite app_nil_r in H3. congruence.
  - intros ->. exact (transfers_comes_back _ _ _ _ HT).
Qed.
Lemma write_uint_mod n v : write_uint n v = write_uint n (v mod 2 ^ N.of_nat n).
Proof. unfold write_uint. rewrite <- bits_of_mod. reflexivity. Qed.
Lemma access_class_truncated v : u8 (ac_specifier v) -> u8 (ac_mask v) ->
  written_as write_access_class read_access_class [16 * (ac_specifier v mod 16) + ac_mask v mod 16] v (cut_access_class v).
Proof.
  intros _ _. assert (H : wf_access_class (cut_access_class v)) by (split; apply N.mod_lt; discriminate).
  apply truncated.
  - unfold write_access_class, cut_access_class. cbn [ac_specifier ac_mask].
    rewrite (write_uint_mod 4 (ac_specifier v)), (write_uint_mod 4 (ac_mask v)). reflexivity.
  - apply transfers_of; [|apply Count_A, Count_access_class].
    replace [16 * (ac_specifier v mod 16) + ac_mask v mod 16] with [enc_access_class (cut_access_class v)].
    + apply RT_round_trips_as; [|apply RT_access_class; exact H].
      pose proof (W_access_class _ wnil [] H (conj eq_refl (Forall_nil _))) as (Hw & Hb). rewrite wseq_nil_r in Hw. split; assumption.
    + unfold enc_access_class, pack, cut_access_class. cbn [fold_left fst snd ac_specifier ac_mask].
      f_equal. change (2 ^ 4) with 16. lia.
Qed.
Lemma channel_status_truncated v : u16 (csi_index (cs_identifier v)) -> u8 (cs_noise_floor v) ->
  written_as write_channel_status read_channel_status (enc_channel_status (cut_channel_status v)) v (cut_channel_status v).
Proof.
  intros _ Hn. assert (H : wf_channel_status (cut_channel_status v)) by (split; [apply N.mod_lt; discriminate|exact Hn]).
  apply truncated.
  - destruct v as [[b w i] n]. unfold write_channel_status, write_channel_status_identifier, cut_channel_status.
    cbn [cs_identifier cs_noise_floor csi_band csi_bandwidth csi_index]. rewrite (write_uint_mod 11 i). reflexivity.
  - apply transfers_of; [|apply Count_A, Count_channel_status].
    apply RT_round_trips_as; [apply W_channel_status; exact H|apply RT_channel_status; exact H].
Qed.
Lemma string_search_truncated v : wf_query (QStringSearch (cut_string_search v)) ->
  written_as write_query read_query (enc_query (QStringSearch (cut_string_search v)))
    (QStringSearch v) (QStringSearch (cut_string_search v)).
Proof.
  intros H. apply truncated.
  - unfold write_query. cbn [query_id]. f_equal. unfold write_string_search, cut_string_search.
    cbn [ss_mask_present ss_max_errors ss_length ss_mask ss_value ss_file]. rewrite (write_uint_mod 3 (ss_max_errors v)). reflexivity.
  - apply query_exact. exact H.
Qed.
Lemma string_search_errors v : wf_query (QStringSearch (cut_string_search v)) ->
  (wf_query (QStringSearch v) <-> ss_max_errors v < 8).
Proof. cbn [wf_query cut_string_search ss_mask_present ss_max_errors ss_length ss_mask ss_value ss_file]. tauto. Qed.

(** ** pad_rest *)
Lemma pad_idx n : (if Nat.eqb (Nat.modulo n 8) 0 then Nat.div n 8 else Nat.div (n - Nat.modulo n 8) 8) = Nat.div n 8.
Proof.
  destruct (Nat.eqb_spec (Nat.modulo n 8) 0); [reflexivity|].
  pose proof (Nat.div_mod n 8 ltac:(lia)) as D.
  replace (n - n mod 8)%nat with (n / 8 * 8)%nat by lia. apply Nat.div_mul. lia.
Qed.
Lemma pad_rest_panics d off bits :
  pad_rest (d, off) bits = Panic <-> (length d < bits / 8 /\ bits < 8 * length d + off)%nat.
Proof.
  unfold pad_rest. cbn [fst snd]. rewrite pad_idx.
  destruct (Nat.leb_spec (length d * 8 + off) bits); [split; intros Q; [discriminate|lia]|].
  destruct (Nat.leb_spec (bits / 8) (length d)); split; intros Q; try discriminate; try reflexivity; lia.
Qed.
Lemma pad_rest_suffix d off bits rest k : pad_rest (d, off) bits = Ok (rest, k) ->
  suffix rest d /\ length rest = (length d - bits / 8)%nat /\ k = (bits mod 8)%nat.
Proof.
  unfold pad_rest. cbn [fst snd]. rewrite pad_idx.
  destruct (Nat.leb_spec (length d * 8 + off) bits).
  - intros E1. injection E1 as <- <-. split; [exists d; rewrite app_nil_r; reflexivity|]. split; [|reflexivity].
    assert (length d <= bits / 8)%nat by (apply Nat.div_le_lower_bound; lia). cbn [length]. lia.
  - destruct (Nat.leb_spec (bits / 8) (length d)); [|discriminate]. intros E1. injection E1 as <- <-.
    split; [exists (firstn (bits / 8) d); symmetry; apply firstn_skipn|]. split; [apply skipn_length|reflexivity].
Qed.
Lemma pad_rest_total d off bits e : pad_rest (d, off) bits <> Err e.
Proof. unfold pad_rest. destruct (Nat.leb _ _); [discriminate|]. destruct (Nat.leb _ _); discriminate. Qed.
Lemma pad_rest_small d off bits : (off <= 8)%nat -> pad_rest (d, off) bits <> Panic.
Proof.
  intros H. rewrite pad_rest_panics. intros (H1 & H2).
  pose proof (Nat.div_mod bits 8 ltac:(lia)). lia.
Qed.
Lemma pad_rest_large d off : (8 < off)%nat -> pad_rest (d, off) (8 * length d + 8) = Panic.
Proof.
  intros H. apply pad_rest_panics. split; [|lia]. apply Nat.div_le_lower_bound; lia.
Qed.
Lemma pad_rest_refuted : ~ (forall d off bits, exists x, pad_rest (d, off) bits = Ok x).
Proof. intros H. destruct (H [] 9%nat 8%nat) as (x & E1). discriminate E1. Qed.

(** ** read_array *)
Lemma array_loop {A} (m : reader A) todo : forall i acc written d r,
  let t := read_array_loop todo i m acc written d r in
  (exists l r', read_list todo m r = Ok (l, r') /\ t = mkTrace (Ok (acc ++ l, r')) (written ++ seq i todo) []) \/
  (exists k l r', (k < todo)%nat /\ read_list k m r = Ok (l, r') /\
     t_written t = written ++ seq i k /\ t_dropped t = seq (base_ptr d + k) (initialized_count d + k) /\
     ((exists e, m r' = Err e /\ t_result t = Err e /\ read_list todo m r = Err e) \/
      (m r' = Panic /\ t_result t = Panic /\ read_list todo m r = Panic))).
Proof.
  induction todo as [|todo IH]; intros i acc written d r t.
  - left. exists [], r. split; [reflexivity|]. unfold t. cbn [read_array_loop seq]. rewrite !app_nil_r. reflexivity.
  - subst t. cbn [read_array_loop]. destruct (m r) as [[v r1]|e|] eqn:E1.
    + specialize (IH (S i) (acc ++ [v]) (written ++ [i]) (mkDropper (base_ptr d + 1) (initialized_count d + 1)) r1).
      cbn zeta in IH. cbn [base_ptr initialized_count] in IH.
      destruct IH as [(l & r' & H1 & H2)|(k & l & r' & H0 & H1 & H2 & H3 & H4)].
      * left. exists (v :: l), r'. split; [cbn [read_list]; unfold bind; rewrite E1, H1; reflexivity|].
        rewrite H2, <- !app_assoc. reflexivity.
      * right. exists (S k), (v :: l), r'. split; [lia|]. split; [cbn [read_list]; unfold bind; rewrite E1, H1; reflexivity|].
        split; [rewrite H2, <- app_assoc; reflexivity|]. split; [rewrite H3; f_equal; lia|].
        destruct H4 as [(e & H4 & H5 & H6)|(H4 & H5 & H6)].
        -- left. exists e. split; [exact H4|]. split; [exact H5|]. cbn [read_list]. unfold bind. rewrite E1, H6. reflexivity.
        -- right. split; [exact H4|]. split; [exact H5|]. cbn [read_list]. unfold bind. rewrite E1, H6. reflexivity.
    + right. exists 0%nat, [], r. split; [lia|]. split; [reflexivity|]. cbn [t_written t_dropped t_result seq].
      split; [rewrite app_nil_r; reflexivity|]. split; [unfold dropped_slots; f_equal; lia|].
      left. exists e. split; [exact E1|]. split; [reflexivity|]. cbn [read_list]. unfold bind. rewrite E1. reflexivity.
    + right. exists 0%nat, [], r. split; [lia|]. split; [reflexivity|]. cbn [t_written t_dropped t_result seq].
      split; [rewrite app_nil_r; reflexivity|]. split; [unfold dropped_slots; f_equal; lia|].
      right. split; [exact E1|]. split; [reflexivity|]. cbn [read_list]. unfold bind. rewrite E1. reflexivity.
Qed.
Lemma array_mem_result {A} n (m : reader A) r : t_result (read_array_mem n m r) = read_array n m r.
Proof.
  unfold read_array_mem, read_array.
  destruct (array_loop m n 0 [] [] (mkDropper 0 0) r) as [(l & r' & H1 & H2)|(k & l & r' & _ & _ & _ & _ & [(e & _ & H1 & H2)|(_ & H1 & H2)])].
  - rewrite H2, H1. reflexivity.
  - rewrite H1, H2. reflexivity.
  - rewrite H1, H2. reflexivity.
Qed.
Lemma array_mem_ok {A} n (m : reader A) r l r' : read_array n m r = Ok (l, r') ->
  t_written (read_array_mem n m r) = seq 0 n /\ t_dropped (read_array_mem n m r) = [].
Proof.
  unfold read_array_mem, read_array. intros H.
  destruct (array_loop m n 0 [] [] (mkDropper 0 0) r) as [(l1 & r1 & _ & H2)|(k & l1 & r1 & _ & _ & _ & _ & [(e & _ & _ & H2)|(_ & _ & H2)])].
  - rewrite H2. split; reflexivity.
  - congruence.
  - congruence.
Qed.
Lemma list_ok_prefix {A} (m : reader A) n : forall r l r', read_list n m r = Ok (l, r') -> forall k, (k <= n)%nat ->
  exists l1 r1, read_list k m r = Ok (l1, r1) /\ ((k < n)%nat -> exists v r2, m r1 = Ok (v, r2)).
Proof.
  induction n as [|n IH]; intros r l r' H k Hk.
  - assert (k = 0)%nat by lia. subst k. exists [], r. split; [reflexivity|lia].
  - cbn [read_list] in H. unfold bind in H. destruct (m r) as [[v r1]| |] eqn:E1; try discriminate.
    destruct (read_list n m r1) as [[l2 r2]| |] eqn:E2; try discriminate.
    destruct k as [|k]; [exists [], r; split; [reflexivity|intros _; exists v, r1; exact E1]|].
    destruct (IH r1 l2 r2 E2 k ltac:(lia)) as (l3 & r3 & E3 & H3).
    exists (v :: l3), r3. split; [cbn [read_list]; unfold bind; rewrite E1, E3; reflexivity|]. intros. apply H3. lia.
Qed.
Lemma array_mem_fails {A} n (m : reader A) r k l r' : (k < n)%nat -> read_list k m r = Ok (l, r') ->
  (forall v r2, m r' <> Ok (v, r2)) ->
  t_written (read_array_mem n m r) = seq 0 k /\ t_dropped (read_array_mem n m r) = seq k k.
Proof.
  intros Hk Hl Hf. unfold read_array_mem.
  destruct (array_loop m n 0 [] [] (mkDropper 0 0) r) as [(l1 & r1 & H1 & _)|(j & l1 & r1 & Hj & H1 & H2 & H3 & H4)].
  - exfalso. destruct (list_ok_prefix m n _ _ _ H1 k ltac:(lia)) as (l2 & r2 & E2 & H2).
    destruct (H2 Hk) as (v & r3 & E3). assert (r2 = r') by congruence. subst r2. exact (Hf _ _ E3).
  - assert (j = k).
    { destruct (Nat.lt_trichotomy j k) as [C|[C|C]]; [|exact C|].
      - exfalso. destruct (list_ok_prefix m k _ _ _ Hl j ltac:(lia)) as (l2 & r2 & E2 & H5).
        destruct (H5 C) as (v & r3 & E3). assert (r2 = r1) by congruence. subst r2.
        destruct H4 as [(e & E4 & _)|(E4 & _)]; congruence.
      - exfalso. destruct (list_ok_prefix m j _ _ _ H1 k ltac:(lia)) as (l2 & r2 & E2 & H5).
        destruct (H5 C) as (v & r3 & E3). assert (r2 = r') by congruence. subst r2. exact (Hf _ _ E3). }
    subst j. split; [exact H2|]. exact H3.
Qed.
Lemma array_refuted : ~ (forall n (m : reader N) r k l r' e, (k < n)%nat -> read_list k m r = Ok (l, r') -> m r' = Err e ->
  t_dropped (read_array_mem n m r) = t_written (read_array_mem n m r)).
Proof.
  intros H. specialize (H 2%nat read_u8 (new_reader [7]) 1%nat [7] (mkRd [7] 1 [] 8) EIncomplete ltac:(lia) eq_refl eq_refl).
  vm_compute in H. discriminate.
Qed.

(** ** is_err *)
Lemma is_err_exact c : status_code_is_err c = true <-> 0x80 < c.
Proof. unfold status_code_is_err. apply N.ltb_lt. Qed.

(** ** Interface status operations *)
Lemma status_action_wf {E : Env} s : known_status s ->
  wf_itf_status_op (itf_status_op_from s) /\
  wf_action (AStatus (status_into_operand (StatusInterface (itf_status_op_from s)))).
Proof. destruct s; intros H; try contradiction; split; try exact H; split; try reflexivity; exact H. Qed.
Lemma status_op_transfers {E : Env} s : known_status s ->
  transfers (write_itf_status_op (itf_status_op_from s)) read_itf_status_op
    (enc_status (StatusInterface (itf_status_op_from s))) (itf_status_op_from s).
Proof.
  intros H. destruct (status_action_wf s H) as (H1 & H2). apply transfers_of; [|apply CountA_itf_status_op].
  apply RT_round_trips_as; [|apply RT_itf_status_op; exact H1].
  exact (W_status 34 (status_into_operand (StatusInterface (itf_status_op_from s))) (conj eq_refl H1)).
Qed.
Lemma other_exact {E : Env} l : wf_payload l ->
  let a := AStatus (status_into_operand (StatusInterface (itf_status_op_from (IsOther l)))) in
  let d := 0x62 :: enc_length (N.of_nat (length l)) ++ l in
  action_to_bytes a = Ok d /\
  (action_try_from d = Ok a <-> e_rewind = true /\ ~ clashes (N.of_nat (length l))).
Proof.
  intros H a d. change a with (unknown_status l). split; [apply W_to_bytes, unknown_W; exact H|]. split.
  - unfold action_try_from. rewrite u_try_from_eq. intros H1.
    destruct (read_action (new_reader d)) as [[v r]| |] eqn:E1; try discriminate.
    assert (v = unknown_status l).
    { destruct (Nat.leb _ _); [|discriminate]. congruence. }
    subst v. exact (unknown_back l r H E1).
  - intros (H1 & H2). apply (parses_try_from 0x62). apply unknown_parses; assumption.
Qed.
Lemma status_refuted {E : Env} : ~ (forall s, (match s with IsOther l => wf_payload l | _ => known_status s end) ->
  let a := AStatus (status_into_operand (StatusInterface (itf_status_op_from s))) in
  exists d, action_to_bytes a = Ok d /\ action_try_from d = Ok a).
Proof.
  intros H. assert (P : wf_payload []) by (split; [apply Forall_nil|reflexivity]).
  destruct (H (IsOther []) P) as (d & H1 & H2). destruct (other_exact [] P) as (H3 & H4).
  assert (d = 0x62 :: enc_length (N.of_nat (length (@nil N))) ++ []) by congruence. subst d.
  apply H4 in H2. destruct H2 as (_ & H2). apply H2. left. reflexivity.
Qed.
Lemma lorawan_rejected {E : Env} t d : t = 2 \/ t = 3 -> bytes d ->
  d_from_bytes read_itf_status_op (t :: d) 0
  = Err (match d with [] => EIncomplete | b :: _ => if Nat.leb (1 + N.to_nat (b / 64)) (length d) then EParse else EIncomplete end).
Proof.
  intros Ht Hd. rewrite d_from_bytes_0. unfold read_itf_status_op, bind at 1.
  assert (Tb : t < 256) by (destruct Ht; subst; reflexivity).
  pose proof (read_interface_type_cons (t :: d) 0 0 t d ltac:(cbn; lia) eq_refl Tb) as H.
  change (mkRd (t :: d) 0 [] 0) with (new_reader (t :: d)) in H. rewrite H. clear H.
  assert (Ta : exists ty, assoc t interface_type_tbl = Some ty /\ forall l r, read_interface_status ty l r = Err EParse).
  { destruct Ht; subst; eexists; split; try reflexivity; intros; reflexivity. }
  destruct Ta as (ty & -> & Hty). unfold bind at 1. cbn [Nat.add].
  assert (RW : RWf (mkRd (t :: d) 1 [] 8)) by (unfold RWf; cbn; lia).
  assert (V : view (mkRd (t :: d) 1 [] 8) = bits_of_bytes d) by reflexivity.
  destruct d as [|b d].
  - reflexivity.
  - inversion Hd as [|? ? Hb Hd']. subst. unfold read_length, bind at 1.
    assert (B : bits_of 8 b = bits_of 2 (b / 64) ++ bits_of 6 b).
    { exact (bits_of_app 2 6 b). }
    assert (Bq : b / 64 < 4) by (apply N.div_lt_upper_bound; [discriminate|exact Hb]).
    cbn [bits_of_bytes] in V. rewrite B, <- app_assoc in V.
    destruct (read_uint_view 2 _ _ _ RW V (bits_of_length _ _)) as (E1 & V1 & W1).
    rewrite (N_of_bits_bits_of_small 2 (b / 64) Bq) in E1. rewrite E1.
    set (n := N.to_nat (6 + b / 64 * 8)).
    assert (Ln : length (view (adv (mkRd (t :: b :: d) 1 [] 8) 2)) = (6 + 8 * length d)%nat)
      by (rewrite V1, app_length, bits_of_length, bits_of_bytes_length; reflexivity).
    destruct (Nat.leb_spec (S (N.to_nat (b / 64))) (length (b :: d))) as [L|L]; cbn [length] in L.
    + rewrite read_uint_ok; [|exact W1|rewrite Ln; lia]. unfold bind. rewrite Hty. reflexivity.
    + rewrite read_uint_err; [reflexivity|exact W1|rewrite Ln; lia].
Qed.
Lemma final_from c : itf_final_op_from (FinDash7 c) = Ok (mkItfFinalOp 0xD7 (FinDash7 c)).
Proof. reflexivity. Qed.
Lemma narrow_refuted :
  ~ (forall v, u8 (ac_specifier v) -> u8 (ac_mask v) -> ~ wf_access_class v ->
       exists e, to_bytes (write_access_class v) = Err e) /\
  ~ (forall v, u16 (csi_index (cs_identifier v)) -> u8 (cs_noise_floor v) -> ~ wf_channel_status v ->
       exists e, to_bytes (write_channel_status v) = Err e) /\
  ~ (forall v, u8 (ss_max_errors v) -> wf_query (QStringSearch (cut_string_search v)) -> ~ wf_query (QStringSearch v) ->
       exists e, to_bytes (write_query (QStringSearch v)) = Err e).
Proof.
  split; [|split]; intros H.
  - destruct (H (mkAccessClass 16 0) eq_refl eq_refl) as (e & Q); [intros (Q & _); discriminate Q|discriminate Q].
  - destruct (H (mkChannelStatus (mkChannelStatusIdentifier Band868 KHz25 2048) 5) eq_refl eq_refl) as (e & Q);
      [intros (Q & _); discriminate Q|discriminate Q].
  - destruct (H (mkStringSearch true 9 1 [0xFF] [0x41] (mkFileOffset 0x20 0)) eq_refl) as (e & Q).
    + repeat split; repeat (apply Forall_cons; [reflexivity|]); try apply Forall_nil.
    + intros (Q & _); discriminate Q.
    + discriminate Q.
Qed.
Lemma truncated_iff_access v : cut_access_class v = v <-> wf_access_class v.
Proof.
  destruct v as [s m]. unfold cut_access_class, wf_access_class. cbn [ac_specifier ac_mask]. split.
  - intros H. injection H as H1 H2. rewrite <- H1, <- H2. split; apply N.mod_lt; discriminate.
  - intros (H1 & H2). rewrite !N.mod_small by assumption. reflexivity.
Qed.
Lemma truncated_iff_channel v : u8 (cs_noise_floor v) -> (cut_channel_status v = v <-> wf_channel_status v).
Proof.
  destruct v as [[b w i] n]. unfold cut_channel_status, wf_channel_status. cbn [cs_identifier cs_noise_floor csi_band csi_bandwidth csi_index].
  intros Hn. split.
  - intros H. injection H as H1. rewrite <- H1. split; [apply N.mod_lt; discriminate|exact Hn].
  - intros (H1 & H2). rewrite N.mod_small by exact H1. reflexivity.
Qed.
Lemma is_err_refuted : ~ (forall c, u8 c -> (status_code_is_err c = true <-> 0x80 <= c)).
Proof. intros H. destruct (H 0x80 eq_refl) as (_ & Q). discriminate (Q ltac:(discriminate)). Qed.
