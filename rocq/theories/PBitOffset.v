(** C67: parsing at a bit offset, for every type that has derived entry points. *)
From Coq Require Import List NArith ZArith Bool.
From Verif Require Import Base Deku Utils Types Physical Link Network Session Data Query Interface File
  Operation Action Command Frames SpecLayout SpecApi SpecCodes SpecDecode SpecFrameDecode SpecBitOffset LBitOffset.
Import ListNotations.
Open Scope N_scope.

Theorem C67_types : forall E : Env,
  decodes_at read_length dec_length /\ decodes_at read_varint dec_varint /\ decodes_at read_file_offset dec_file_offset /\
  decodes_at read_channel_header dec_channel_header /\ decodes_at read_channel dec_channel /\
  decodes_at read_channel_status dec_channel_status /\ decodes_at read_sub_band dec_sub_band /\
  decodes_at read_sub_profile dec_sub_profile /\ decodes_at read_access_profile dec_access_profile /\
  decodes_at read_addressee dec_addressee /\ decodes_at read_qos dec_qos /\
  decodes_at read_dash7_status dec_dash7_status /\ decodes_at read_dash7_tx_status dec_dash7_tx /\
  decodes_at read_final_status_code dec_final /\ decodes_at read_file_header dec_file_header.
Proof. exact @offset_types. Qed.
Print Assumptions C67_types.

Theorem C67_operations : forall E : Env,
  decodes_at read_query dec_query /\ decodes_at read_dash7_config dec_dash7_config /\
  decodes_at read_lorawan_config dec_lorawan /\ decodes_at read_itf_final_op dec_itf_final.
Proof. exact @offset_operations. Qed.
Print Assumptions C67_operations.

(** Background frames, and statuses with the default context. *)
Theorem C67_frame : forall E : Env, decodes_at read_bframe dec_bframe /\ decodes_at (read_status StAction) (dec_status 0).
Proof. exact @offset_frame. Qed.
Print Assumptions C67_frame.

(** The crate's own File::from_bytes. *)
Theorem C67_file : forall (E : Env) b n d k, bytes d ->
  ((k <= 8 * length d)%nat ->
   match dec_file b n (bytes_at d k) with
   | Some (f, rest) => file_from_bytes d k (file_id_of b) n =
       Ok ((skipn (k / 8 + (length (bytes_at d k) - length rest)) d, k mod 8)%nat, f)
   | None => exists e, file_from_bytes d k (file_id_of b) n = Err e
   end) /\
  ((8 * length d < k)%nat -> file_from_bytes d k (file_id_of b) n = Err EIncomplete).
Proof. exact @offset_file. Qed.
Print Assumptions C67_file.

(** Enums smaller than a byte. *)
Theorem C67_physical_enums :
  enum_at 2 read_bandwidth code_bandwidth [0; 1] /\ enum_at 3 read_channel_band code_band [0; 1; 2; 3; 4] /\
  enum_at 2 read_channel_class code_class [0; 1; 2; 3] /\ enum_at 2 read_channel_coding code_coding [0; 1; 2; 3] /\
  enum_at 4 read_csma_ca_mode code_csma [0; 1; 2; 3].
Proof. exact enums_physical. Qed.
Print Assumptions C67_physical_enums.

Theorem C67_network_enums : forall E : Env,
  enum_at 2 read_group_condition code_group [0; 1; 2; 3] /\ enum_at 2 read_address_type code_address_type [0; 1; 2; 3] /\
  enum_at (match e_feat with Wizzilab => 3 | _ => 4 end) read_nls_method code_nls [0; 1; 2; 3; 4; 5; 6; 7].
Proof. exact @enums_network. Qed.
Print Assumptions C67_network_enums.

Theorem C67_app_enums :
  enum_at 3 read_response_mode code_response [0; 1; 2; 4; 5; 6] /\ enum_at 3 read_retry_mode code_retry [0; 1; 2; 3; 4; 5; 6; 7] /\
  enum_at 8 read_final_status_code code_final final_codes /\
  enum_at 3 read_action_condition code_condition [0; 1; 2; 3] /\ enum_at 2 read_storage_class code_storage [0; 1; 2; 3] /\
  enum_at 8 read_eng_method code_eng [0; 1; 2; 3; 4] /\
  enum_at 3 read_arith_cmp code_cmp [0; 1; 2; 3; 4; 5] /\ enum_at 3 read_range_cmp code_range [0; 1] /\
  enum_at 8 read_permission_level code_level [0; 1] /\ enum_at 2 read_status_type code_status_type [0; 1; 2] /\
  enum_at 2 read_chunk_step code_chunk [0; 1; 2; 3] /\ enum_at 2 read_logic_op code_logic [0; 1; 2; 3].
Proof. exact enums_app. Qed.
Print Assumptions C67_app_enums.

(** The place handed back is the place behind the item: what stands there is what was left. *)
Theorem C67_continue : forall d k c, bytes d -> bytes_at (skipn (k / 8 + c) d) (k mod 8) = skipn c (bytes_at d k).
Proof. exact bytes_at_go. Qed.
Print Assumptions C67_continue.

Theorem C67_continue_bits : forall d k n j c, bytes d -> (k + n + j <= 8 * length d)%nat -> c = ((k + n) / 8)%nat ->
  field (skipn c d) ((k + n) mod 8) j = field d (k + n) j.
Proof. exact field_go. Qed.
Print Assumptions C67_continue_bits.

(** The three types whose last variant takes any id: false if deku puts such an id back. *)
Theorem C67_unassigned_refuted : forall E : Env,
  (decodes_at read_interface_config dec_interface_config <-> e_rewind = false) /\
  (decodes_at read_indirect_interface dec_indirect_interface <-> e_rewind = false) /\
  (decodes_at read_itf_status_op dec_itf_status <-> e_rewind = false).
Proof. exact @offset_rewind. Qed.
Print Assumptions C67_unassigned_refuted.

(** Assigned ids are fine at any offset; the value of an unassigned one is [seen]. *)
Theorem C67_interface_exact : forall (E : Env) d k, bytes d -> (k + 8 <= 8 * length d)%nat ->
  (In (field d k 8) [0; 1; 2; 3; 0xD7] -> at_offset read_interface_config dec_interface_config d k) /\
  (~ In (field d k 8) [0; 1; 2; 3; 0xD7] ->
     d_from_bytes read_interface_config d k = Ok ((skipn (k / 8 + 1) d, k mod 8)%nat, IcUnknown (seen d k))).
Proof. exact @offset_interface. Qed.
Print Assumptions C67_interface_exact.

Theorem C67_indirect_exact : forall (E : Env) d k, bytes d -> (k + 8 <= 8 * length d)%nat ->
  (In (field d k 8) [0; 1; 0xD7] -> at_offset read_indirect_interface dec_indirect_interface d k) /\
  (~ In (field d k 8) [0; 1; 0xD7] ->
     d_from_bytes read_indirect_interface d k = Ok ((skipn (k / 8 + 1) d, k mod 8)%nat, IiUnknown (seen d k))).
Proof. exact @offset_indirect. Qed.
Print Assumptions C67_indirect_exact.

(** A status of an unassigned type goes on at the byte boundary, but reports a place as if it had not. *)
Theorem C67_status_exact : forall (E : Env) d k, bytes d -> (k + 8 <= 8 * length d)%nat ->
  (In (field d k 8) [0; 1; 2; 3; 0xD7] \/ e_rewind = false \/ (k mod 8 = 0)%nat ->
     at_offset read_itf_status_op dec_itf_status d k) /\
  (~ In (field d k 8) [0; 1; 2; 3; 0xD7] -> e_rewind = true -> (k mod 8 <> 0)%nat ->
     match (let* n := dec_length in some_bytes n) (skipn (next_byte k) d) with
     | Some (p, rest) => d_from_bytes read_itf_status_op d k =
         Ok ((skipn (k / 8 + (length d - next_byte k - length rest)) d, k mod 8)%nat, mkItfStatusOp ItUnknown (IsOther p))
     | None => exists e, d_from_bytes read_itf_status_op d k = Err e
     end).
Proof. exact @offset_status. Qed.
Print Assumptions C67_status_exact.

(** Three bits, then a file offset, then the rest: the places handed back lead from one to the next.
    And an unassigned interface id seen again four bits later. *)
Example C67_example : forall E : Env,
  field [0x48; 0x02; 0x1F; 0xFF] 0 3 = 2 /\ bytes_at [0x48; 0x02; 0x1F; 0xFF] 3 = [0x40; 0x10; 0xFF] /\
  d_from_bytes read_channel_band [0x48; 0x02; 0x1F; 0xFF] 0 = Ok (([0x48; 0x02; 0x1F; 0xFF], 3%nat), Band433) /\
  d_from_bytes read_file_offset [0x48; 0x02; 0x1F; 0xFF] 3 = Ok (([0x1F; 0xFF], 3%nat), mkFileOffset 0x40 0x10) /\
  d_from_bytes read_response_mode [0x1F; 0xFF] 3 = Err EParse /\
  d_from_bytes read_retry_mode [0x1F; 0xFF] 3 = Ok (([0x1F; 0xFF], 6%nat), RtRfu) /\
  d_from_bytes read_interface_config [0x0F; 0xF1] 4 =
    Ok (([0xF1], 4%nat), IcUnknown (if e_rewind then 0xF1 else 0xFF)).
Proof. intros [[] [] []]; vm_compute; repeat split. Qed.
