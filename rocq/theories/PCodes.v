(** C27, C30, C31, C32, C36, C38: interface statuses, bit fields, codes and the small helpers. *)
From Coq Require Import List NArith ZArith Bool.
From Verif Require Import Base Deku Utils Types Physical Link Network Session Data Query Interface File
  Operation Action Command ReadArray WellFormed SpecLayout SpecApi SpecReturn SpecAction SpecCodes Samples LCodes.
Import ListNotations.
Open Scope N_scope.

(** C27. Host, serial and DASH7 statuses. *)
Theorem C27_operation_round_trip : forall (E : Env) s, known_status s ->
  transfers (write_itf_status_op (itf_status_op_from s)) read_itf_status_op
    (enc_status (StatusInterface (itf_status_op_from s))) (itf_status_op_from s).
Proof. exact @status_op_transfers. Qed.
Print Assumptions C27_operation_round_trip.

Theorem C27_action_wf : forall (E : Env) s, known_status s ->
  wf_itf_status_op (itf_status_op_from s) /\
  wf_action (AStatus (status_into_operand (StatusInterface (itf_status_op_from s)))).
Proof. exact @status_action_wf. Qed.
Print Assumptions C27_action_wf.

(** Not so for the other statuses. *)
Theorem C27_refuted : forall E : Env, ~ (forall s,
  (match s with IsOther l => wf_payload l | _ => known_status s end) ->
  let a := AStatus (status_into_operand (StatusInterface (itf_status_op_from s))) in
  exists d, action_to_bytes a = Ok d /\ action_try_from d = Ok a).
Proof. exact @status_refuted. Qed.
Print Assumptions C27_refuted.

Theorem C27_other_exact : forall (E : Env) l, wf_payload l ->
  let a := AStatus (status_into_operand (StatusInterface (itf_status_op_from (IsOther l)))) in
  let d := 0x62 :: enc_length (N.of_nat (length l)) ++ l in
  action_to_bytes a = Ok d /\
  (action_try_from d = Ok a <-> e_rewind = true /\ ~ clashes (N.of_nat (length l))).
Proof. exact @other_exact. Qed.
Print Assumptions C27_other_exact.

Theorem C27_lorawan_rejected : forall (E : Env) t d, t = 2 \/ t = 3 -> bytes d ->
  d_from_bytes read_itf_status_op (t :: d) 0
  = Err (match d with
         | [] => EIncomplete
         | b :: _ => if Nat.leb (1 + N.to_nat (b / 64)) (length d) then EParse else EIncomplete
         end).
Proof. exact @lorawan_rejected. Qed.
Print Assumptions C27_lorawan_rejected.

Example C27_example : forall E : Env,
  to_bytes (write_itf_status_op (itf_status_op_from IsSerial)) = Ok [1; 0] /\
  d_try_from read_itf_status_op [1; 0] = Ok (itf_status_op_from IsSerial) /\
  d_from_bytes read_itf_status_op [2; 1; 9] 0 = Err EParse /\
  d_from_bytes read_itf_status_op [3; 0x40] 0 = Err EIncomplete /\
  action_to_bytes (AStatus (status_into_operand (StatusInterface (itf_status_op_from (IsOther [9]))))) = Ok [0x62; 1; 9] /\
  action_try_from [0x62; 1; 9] = Ok (AStatus (status_into_operand (StatusInterface (itf_status_op_from IsSerial)))) /\
  itf_final_op_from (FinOther [9]) = Panic.
Proof. intros [[] [] []]; repeat split. Qed.

(** C30. *)
Theorem C30_refuted :
  ~ (forall v, u8 (ac_specifier v) -> u8 (ac_mask v) -> ~ wf_access_class v ->
       exists e, to_bytes (write_access_class v) = Err e) /\
  ~ (forall v, u16 (csi_index (cs_identifier v)) -> u8 (cs_noise_floor v) -> ~ wf_channel_status v ->
       exists e, to_bytes (write_channel_status v) = Err e) /\
  ~ (forall v, u8 (ss_max_errors v) -> wf_query (QStringSearch (cut_string_search v)) -> ~ wf_query (QStringSearch v) ->
       exists e, to_bytes (write_query (QStringSearch v)) = Err e).
Proof. exact narrow_refuted. Qed.
Print Assumptions C30_refuted.

Theorem C30_access_class_exact : forall v, u8 (ac_specifier v) -> u8 (ac_mask v) ->
  written_as write_access_class read_access_class [16 * (ac_specifier v mod 16) + ac_mask v mod 16] v (cut_access_class v).
Proof. exact access_class_truncated. Qed.
Print Assumptions C30_access_class_exact.

Theorem C30_channel_status_exact : forall v, u16 (csi_index (cs_identifier v)) -> u8 (cs_noise_floor v) ->
  written_as write_channel_status read_channel_status (enc_channel_status (cut_channel_status v)) v (cut_channel_status v).
Proof. exact channel_status_truncated. Qed.
Print Assumptions C30_channel_status_exact.

Theorem C30_string_search_exact : forall v, wf_query (QStringSearch (cut_string_search v)) ->
  written_as write_query read_query (enc_query (QStringSearch (cut_string_search v)))
    (QStringSearch v) (QStringSearch (cut_string_search v)).
Proof. exact string_search_truncated. Qed.
Print Assumptions C30_string_search_exact.

Example C30_example :
  to_bytes (write_access_class (mkAccessClass 0x12 0x13)) = Ok [0x23] /\
  cut_access_class (mkAccessClass 0x12 0x13) = mkAccessClass 2 3 /\
  to_bytes (write_channel_status (mkChannelStatus (mkChannelStatusIdentifier Band433 KHz200 2049) 7)) = Ok [0x40; 0x01; 7] /\
  to_bytes (write_query (QStringSearch (mkStringSearch true 9 1 [0xFF] [0x41] (mkFileOffset 0x20 0))))
  = to_bytes (write_query (QStringSearch (mkStringSearch true 1 1 [0xFF] [0x41] (mkFileOffset 0x20 0)))).
Proof. repeat split. Qed.

(** C31. *)
Theorem C31_physical :
  faithful 2 read_bandwidth write_bandwidth code_bandwidth [0; 1] /\
  faithful 3 read_channel_band write_channel_band code_band [0; 1; 2; 3; 4] /\
  faithful 2 read_channel_class write_channel_class code_class [0; 1; 2; 3] /\
  faithful 2 read_channel_coding write_channel_coding code_coding [0; 1; 2; 3] /\
  faithful 4 read_csma_ca_mode write_csma_ca_mode code_csma [0; 1; 2; 3].
Proof. exact codes_physical. Qed.
Print Assumptions C31_physical.

Theorem C31_network : forall E : Env,
  faithful 2 read_group_condition write_group_condition code_group [0; 1; 2; 3] /\
  faithful 2 read_address_type write_address_type code_address_type [0; 1; 2; 3] /\
  faithful (match e_feat with Wizzilab => 3 | _ => 4 end)%nat read_nls_method write_nls_method code_nls
    [0; 1; 2; 3; 4; 5; 6; 7].
Proof. exact codes_network. Qed.
Print Assumptions C31_network.

Theorem C31_session :
  faithful 3 read_response_mode write_response_mode code_response [0; 1; 2; 4; 5; 6] /\
  faithful 3 read_retry_mode write_retry_mode code_retry [0; 1; 2; 3; 4; 5; 6; 7] /\
  faithful 8 read_final_status_code write_final_status_code code_final final_codes.
Proof. exact codes_session. Qed.
Print Assumptions C31_session.

Theorem C31_data :
  faithful 3 read_action_condition write_action_condition code_condition [0; 1; 2; 3] /\
  faithful 2 read_storage_class write_storage_class code_storage [0; 1; 2; 3] /\
  faithful 8 read_eng_method write_eng_method code_eng [0; 1; 2; 3; 4].
Proof. exact codes_data. Qed.
Print Assumptions C31_data.

Theorem C31_app :
  faithful 3 read_arith_cmp write_arith_cmp code_cmp [0; 1; 2; 3; 4; 5] /\
  faithful 3 read_range_cmp write_range_cmp code_range [0; 1] /\
  faithful 8 read_permission_level write_permission_level code_level [0; 1] /\
  faithful 2 read_status_type write_status_type code_status_type [0; 1; 2] /\
  faithful 2 read_chunk_step write_chunk_step code_chunk [0; 1; 2; 3] /\
  faithful 2 read_logic_op write_logic_op code_logic [0; 1; 2; 3].
Proof. exact codes_app. Qed.
Print Assumptions C31_app.

(** Tagged types with operands. *)
Theorem C31_query : forall r c rest, reader_state r -> c < 8 -> view r = bits_of 3 c ++ rest ->
  (c = 5 \/ c = 6 -> read_query r = Err EParse) /\
  (forall q r', read_query r = Ok (q, r') -> c <> 5 /\ c <> 6 /\ code_query q = c).
Proof. exact query_code. Qed.
Print Assumptions C31_query.

Theorem C31_query_written : forall q l, write_query q = Ok l -> firstn 3 l = bits_of 3 (code_query q).
Proof. exact query_starts. Qed.
Print Assumptions C31_query_written.

Theorem C31_permission : forall r c rest, reader_state r -> c < 256 -> view r = bits_of 8 c ++ rest ->
  (c <> 0x42 -> read_permission r = Err EParse) /\
  (c = 0x42 -> (length rest < 64)%nat /\ read_permission r = Err EIncomplete \/
     exists k r', read_permission r = Ok (PermDash7 k, r') /\ rest = bits_of_bytes k ++ view r').
Proof. exact permission_code. Qed.
Print Assumptions C31_permission.

Theorem C31_tx_status_type : forall (E : Env) r c rest, reader_state r -> c < 4 -> view r = bits_of 2 c ++ rest ->
  c <> 1 -> read_tx_status_op r = Err EParse.
Proof. exact @tx_status_code. Qed.
Print Assumptions C31_tx_status_type.

(** The interface type is the exception: a code that is not assigned is accepted and forgotten. *)
Theorem C31_interface_type_exact : forall (E : Env) c, u8 c ->
  (In c [0; 1; 2; 3; 0xD7] -> exists t, interface_type_try_from c = Ok t /\ t <> ItUnknown /\
     code_itf_type t = [c] /\ interface_type_into t = Ok c /\ to_bytes (write_interface_type t) = Ok [c]) /\
  (~ In c [0; 1; 2; 3; 0xD7] -> interface_type_try_from c = Ok ItUnknown).
Proof. exact @interface_type_code. Qed.
Print Assumptions C31_interface_type_exact.

Theorem C31_interface_type_unknown_refuted :
  interface_type_into ItUnknown = Panic /\ to_bytes (write_interface_type ItUnknown) = Ok [].
Proof. exact interface_type_unknown. Qed.
Print Assumptions C31_interface_type_unknown_refuted.

(** Three bits of 0x9F after one bit was read: 001, then 111. *)
Example C31_example :
  reader_state (adv (new_reader [0x9F]) 1) /\
  view (adv (new_reader [0x9F]) 1) = bits_of 3 1 ++ [true; true; true; true] /\
  rbind (read_response_mode (adv (new_reader [0x9F]) 1)) (fun x => Ok (fst x)) = Ok RmAll /\
  rbind (read_response_mode (adv (new_reader [0x9F]) 4)) (fun x => Ok (fst x)) = Err EParse /\
  ~ In 7 [0; 1; 2; 4; 5; 6] /\
  read_query (new_reader [0xA0; 0; 0]) = Err EParse /\
  read_permission (new_reader [0x43; 0; 0; 0; 0; 0; 0; 0; 0]) = Err EParse.
Proof.
  split; [vm_compute; repeat split; auto 10 with arith|]. do 3 (split; [reflexivity|]).
  split; [intros H; vm_compute in H; intuition discriminate|]. split; reflexivity.
Qed.

(** C32. *)
Theorem C32_is_err_refuted : ~ (forall c, u8 c -> (status_code_is_err c = true <-> 0x80 <= c)).
Proof. exact is_err_refuted. Qed.
Print Assumptions C32_is_err_refuted.

Theorem C32_is_err_exact : forall c, status_code_is_err c = true <-> 0x80 < c.
Proof. exact is_err_exact. Qed.
Print Assumptions C32_is_err_exact.

Example C32_example : status_code_is_err 0x80 = false /\ status_code_is_err 0x81 = true /\ status_code_is_err 0x7F = false.
Proof. repeat split. Qed.

(** C36. *)
Theorem C36_pad_rest_refuted : ~ (forall d off bits, exists x, pad_rest (d, off) bits = Ok x).
Proof. exact pad_rest_refuted. Qed.
Print Assumptions C36_pad_rest_refuted.

Theorem C36_panic_exact : forall d off bits,
  pad_rest (d, off) bits = Panic <-> (length d < bits / 8 /\ bits < 8 * length d + off)%nat.
Proof. exact pad_rest_panics. Qed.
Print Assumptions C36_panic_exact.

Theorem C36_panic_large : forall d off, (8 < off)%nat -> pad_rest (d, off) (8 * length d + 8) = Panic.
Proof. exact pad_rest_large. Qed.
Print Assumptions C36_panic_large.

Theorem C36_no_panic_small : forall d off bits, (off <= 8)%nat -> pad_rest (d, off) bits <> Panic.
Proof. exact pad_rest_small. Qed.
Print Assumptions C36_no_panic_small.

Theorem C36_suffix : forall d off bits rest k, pad_rest (d, off) bits = Ok (rest, k) ->
  suffix rest d /\ length rest = (length d - bits / 8)%nat /\ k = (bits mod 8)%nat.
Proof. exact pad_rest_suffix. Qed.
Print Assumptions C36_suffix.

Theorem C36_no_error : forall d off bits e, pad_rest (d, off) bits <> Err e.
Proof. exact pad_rest_total. Qed.
Print Assumptions C36_no_error.

Example C36_example :
  pad_rest ([1; 2; 3; 4], 0%nat) 19 = Ok ([3; 4], 3%nat) /\ pad_rest ([1; 2], 4%nat) 24 = Ok ([], 0%nat) /\
  pad_rest ([1; 2], 9%nat) 24 = Panic.
Proof. repeat split. Qed.

(** C38. *)
Theorem C38_drops_refuted : ~ (forall n (m : reader N) r k l r' e, (k < n)%nat -> read_list k m r = Ok (l, r') -> m r' = Err e ->
  t_dropped (read_array_mem n m r) = t_written (read_array_mem n m r)).
Proof. exact array_refuted. Qed.
Print Assumptions C38_drops_refuted.

(** Failing at element [k] drops the slots [k] to [2k - 1] instead of 0 to [k - 1]. *)
Theorem C38_failure_exact : forall A n (m : reader A) r k l r', (k < n)%nat -> read_list k m r = Ok (l, r') ->
  (forall v r2, m r' <> Ok (v, r2)) ->
  t_written (read_array_mem n m r) = seq 0 k /\ t_dropped (read_array_mem n m r) = seq k k.
Proof. exact @array_mem_fails. Qed.
Print Assumptions C38_failure_exact.

Theorem C38_success : forall A n (m : reader A) r l r', read_array n m r = Ok (l, r') ->
  t_written (read_array_mem n m r) = seq 0 n /\ t_dropped (read_array_mem n m r) = [].
Proof. exact @array_mem_ok. Qed.
Print Assumptions C38_success.

Theorem C38_result : forall A n (m : reader A) r, t_result (read_array_mem n m r) = read_array n m r.
Proof. exact @array_mem_result. Qed.
Print Assumptions C38_result.

Example C38_example :
  t_written (read_array_mem 4 read_sub_profile (new_reader [1; 2; 3; 4; 5])) = [0; 1]%nat /\
  t_dropped (read_array_mem 4 read_sub_profile (new_reader [1; 2; 3; 4; 5])) = [2; 3]%nat /\
  t_dropped (read_array_mem 4 read_sub_profile (new_reader [1; 2; 3; 4; 5; 6; 7])) = [3; 4; 5]%nat.
Proof. repeat split. Qed.
