(** C80: which inputs of the types that can be parsed on their own come back unchanged when they are
    parsed and serialised again. *)
From Coq Require Import List NArith ZArith Bool.
From Verif Require Import Base Deku Utils Types Physical Link Network Session Data Query Interface File
  Operation WellFormed DefaultCtx SpecLayout SpecApi SpecDecode SpecCanonical SpecTypeCanonical LTypeCanon.
Import ListNotations.
Open Scope N_scope.

(** Not all of them. *)
Theorem C80_refuted : forall E : Env,
  ~ one_form read_length write_length /\ ~ one_form read_varint write_varint /\
  ~ one_form read_file_offset write_file_offset /\ ~ one_form read_channel_header write_channel_header /\
  ~ one_form read_channel write_channel /\ ~ one_form read_sub_profile write_sub_profile /\
  ~ one_form read_access_profile write_access_profile /\ ~ one_form read_addressee write_addressee /\
  ~ one_form read_dash7_status write_dash7_status /\ ~ one_form read_dash7_tx_status write_dash7_tx_status /\
  ~ one_form read_file_header write_file_header.
Proof. exact @many_types. Qed.
Print Assumptions C80_refuted.
Theorem C80_operations_refuted : forall E : Env,
  ~ one_form read_query write_query /\ ~ one_form read_dash7_config write_dash7_config /\
  ~ one_form read_lorawan_config write_lorawan_config /\ ~ one_form read_interface_config write_interface_config /\
  ~ one_form read_indirect_interface write_indirect_interface /\ ~ one_form read_itf_status_op write_itf_status_op /\
  ~ one_form read_itf_final_op write_itf_final_op.
Proof. exact @many_operations. Qed.
Print Assumptions C80_operations_refuted.

(** These four do. *)
Theorem C80_one_form : forall E : Env,
  one_form read_channel_status write_channel_status /\ one_form read_sub_band write_sub_band /\
  one_form read_qos write_qos /\ one_form read_final_status_code write_final_status_code.
Proof. exact @one_forms. Qed.
Print Assumptions C80_one_form.

(** For each of the others, exactly the inputs that the strict decoder takes. *)
Theorem C80_types : forall E : Env,
  canonical read_length write_length strict_length /\ canonical read_varint write_varint strict_varint /\
  canonical read_file_offset write_file_offset strict_file_offset /\
  canonical read_channel_header write_channel_header strict_channel_header /\
  canonical read_channel write_channel strict_channel /\
  canonical read_channel_status write_channel_status dec_channel_status /\
  canonical read_sub_band write_sub_band dec_sub_band /\
  canonical read_sub_profile write_sub_profile strict_sub_profile /\
  canonical read_access_profile write_access_profile strict_access_profile /\
  canonical read_addressee write_addressee strict_addressee /\ canonical read_qos write_qos dec_qos /\
  canonical read_dash7_status write_dash7_status strict_dash7_status /\
  canonical read_dash7_tx_status write_dash7_tx_status strict_dash7_tx /\
  canonical read_final_status_code write_final_status_code dec_final /\
  canonical read_file_header write_file_header strict_file_header.
Proof. exact @canonical_types. Qed.
Print Assumptions C80_types.
Theorem C80_operations : forall E : Env,
  canonical read_query write_query strict_query /\ canonical read_dash7_config write_dash7_config strict_dash7_config /\
  canonical read_lorawan_config write_lorawan_config strict_lorawan /\
  canonical read_interface_config write_interface_config strict_interface_config /\
  canonical read_indirect_interface write_indirect_interface strict_indirect_interface /\
  canonical read_itf_status_op write_itf_status_op strict_itf_status /\
  canonical read_itf_final_op write_itf_final_op strict_itf_final.
Proof. exact @canonical_operations. Qed.
Print Assumptions C80_operations.

(** Files, by number and announced length. *)
Theorem C80_file : forall (E : Env) b n d f, bytes d -> u8 b ->
  (file_from_bytes d 0 (file_id_of b) n = Ok (([], 0%nat), f) /\ file_to_bytes f = Ok d
   <-> strict_file b n d = Some (f, [])).
Proof. exact @canonical_file. Qed.
Print Assumptions C80_file.

(** 1 in one byte comes back; 1 in two bytes comes back as one byte. A query on file 5: the three bits
    that are not looked at decide. A transmission status with padding. *)
Example C80_example :
  let E := env_spec in
  (d_try_from read_length [1] = Ok 1 /\ to_bytes (write_length 1) = Ok [1] /\ strict_length [1] = Some (1, [])) /\
  (d_try_from read_length [0x40; 1] = Ok 1 /\ strict_length [0x40; 1] = None) /\
  (let q := QNonVoid (mkNonVoid 9 (mkFileOffset 5 0x1234)) in
   d_try_from read_query [0; 9; 5; 0x52; 0x34] = Ok q /\ to_bytes (write_query q) = Ok [0; 9; 5; 0x52; 0x34] /\
   strict_query [0; 9; 5; 0x52; 0x34] = Some (q, []) /\
   d_try_from read_query [4; 9; 5; 0x52; 0x34] = Ok q /\ strict_query [4; 9; 5; 0x52; 0x34] = None) /\
  (let d p := [0x38; 0; 7; 0x91; 0; p; 0; 0; 4; 3; 2; 1; 0x10; 0x21] in
   (exists v, d_try_from read_dash7_tx_status (d 0) = Ok v /\ to_bytes (write_dash7_tx_status v) = Ok (d 0) /\
      d_try_from read_dash7_tx_status (d 5) = Ok v) /\
   strict_dash7_tx (d 5) = None) /\
  (exists f, file_from_bytes [1; 2; 3] 0 (file_id_of 0x40) 3 = Ok (([], 0%nat), f) /\ file_to_bytes f = Ok [1; 2; 3]).
Proof.
  cbv zeta. split; [|split; [|split; [|split]]].
  - vm_compute. repeat split; reflexivity.
  - vm_compute. repeat split; reflexivity.
  - vm_compute. repeat split; reflexivity.
  - split; [|vm_compute; reflexivity]. eexists. split; [vm_compute; reflexivity|]. split; vm_compute; reflexivity.
  - let x := eval vm_compute in (file_from_bytes (E := env_spec) [1; 2; 3] 0 (file_id_of 0x40) 3) in
      match x with Ok (_, ?f) => exists f end.
    split; vm_compute; reflexivity.
Qed.
