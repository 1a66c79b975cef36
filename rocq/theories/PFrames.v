(** C12, C33, C34, C35: the frames. *)
From Coq Require Import List NArith ZArith Bool.
From Verif Require Import Base Deku Utils Types Physical Link Network Session Data Query Interface File
  Operation Action Command Frames WellFormed SpecLayout SpecApi SpecReturn SpecFrames Samples LFrames LFramesW.
Import ListNotations.
Open Scope N_scope.

(** C12: the frame parsers. *)
Theorem C12_frames_no_panic : forall (E : Env) d,
  (bframe_try_from d <> Panic /\ bframe_try_from d <> Err EFuel) /\
  (fframe_try_from d <> Panic /\ fframe_try_from d <> Err EFuel) /\
  forall r L, data r = d -> reader_state r ->
    (read_tframe L r <> Panic /\ read_tframe L r <> Err EFuel) /\
    (read_nframe L r <> Panic /\ read_nframe L r <> Err EFuel).
Proof. exact @frames_no_panic. Qed.
Print Assumptions C12_frames_no_panic.

(** The entry point that returns the rest does panic: every action counts one byte twice. *)
Theorem C12_from_bytes_refuted : forall E : Env, ~ (forall d, bytes d -> fframe_from_bytes d 0 <> Panic).
Proof. exact @from_bytes_refuted. Qed.
Print Assumptions C12_from_bytes_refuted.

Theorem C12_from_bytes_exact : forall (E : Env) d, e_feat <> Wizzilab ->
  (forall v r, read_fframe (new_reader d) = Ok (v, r) -> exists q, (q <= length d)%nat /\ view r = bits_of_bytes (skipn q d) /\
     fframe_try_from d = (if Nat.eqb (q + length (command_of v)) (length d) then Ok v else Err ETooMuchData) /\
     fframe_from_bytes d 0 = (if Nat.leb (q + length (command_of v)) (length d)
       then Ok ((skipn (q + length (command_of v)) d, 0%nat), v) else Panic)) /\
  (forall e, read_fframe (new_reader d) = Err e -> fframe_try_from d = Err e /\ fframe_from_bytes d 0 = Err e).
Proof. exact @frame_entry. Qed.
Print Assumptions C12_from_bytes_exact.

Example C12_frame_example : forall E : Env,
  let d := [9; 1; 66; 16; 10; 0; 6; 7; 0; 0; 0] in
  (e_feat <> Wizzilab -> fframe_from_bytes d 0 = Panic /\ fframe_try_from d = Err ETooMuchData /\
     fframe_try_from (d ++ [0xEE]) = Ok (small_frame 9 [plain_nop] 0)) /\
  fframe_try_from [] = Err EIncomplete /\ bframe_try_from [] = Err EIncomplete.
Proof. intros [[] [] []]; split; try (intros H; contradiction); repeat split. Qed.

(** C33. *)
Theorem C33_bytes : forall (E : Env) d, bytes d ->
  (length d = 6%nat -> exists v, bframe_try_from d = Ok v /\ bframe_to_bytes v = Ok d) /\
  (length d < 6 -> bframe_try_from d = Err EIncomplete)%nat /\
  (6 < length d -> bframe_try_from d = Err ETooMuchData)%nat.
Proof. exact @bframe_bytes. Qed.
Print Assumptions C33_bytes.

Theorem C33_value : forall (E : Env) v, wf_bframe v ->
  bframe_to_bytes v = Ok (enc_bframe v) /\ length (enc_bframe v) = 6%nat /\ bframe_try_from (enc_bframe v) = Ok v.
Proof. exact @bframe_value. Qed.
Print Assumptions C33_value.

(** Only well-formed values come back. *)
Theorem C33_exact : forall (E : Env) v,
  (wf_bframe v -> transfers (write_bframe v) read_bframe (enc_bframe v) v) /\
  (comes_back (write_bframe v) read_bframe v <-> wf_bframe v).
Proof. exact @bframe_exact. Qed.
Print Assumptions C33_exact.

Example C33_example :
  bframe_try_from (E := env_spec) [1; 0xC2; 0x34; 0x12; 0xCD; 0xAB] = Ok (mkBFrame 1 AtVId 2 0x1234 0xABCD) /\
  bframe_try_from (E := env_subiot) [1; 0xC2; 0x12; 0x34; 0xAB; 0xCD] = Ok (mkBFrame 1 AtVId 2 0x1234 0xABCD) /\
  bframe_to_bytes (E := env_wizzilab) (mkBFrame 1 AtVId 2 0x1234 0xABCD) = Ok [1; 0xC2; 0x34; 0x12; 0xCD; 0xAB] /\
  bframe_try_from (E := env_spec) [1; 0xC2; 0x34; 0x12; 0xCD] = Err EIncomplete /\
  bframe_try_from (E := env_spec) [1; 0xC2; 0x34; 0x12; 0xCD; 0xAB; 0] = Err ETooMuchData.
Proof. repeat split. Qed.

(** C35: one byte each is not what they are. *)
Theorem C35_refuted : forall E : Env,
  ~ (forall v, exists l, write_tcontrol v = Ok l /\ length l = 8%nat) /\
  (e_feat <> Wizzilab -> ~ (forall v, exists l, write_ncontrol v = Ok l /\ length l = 8%nat)).
Proof. exact @control_refuted. Qed.
Print Assumptions C35_refuted.

Theorem C35_network_bits : forall (E : Env) v, exists l, write_ncontrol v = Ok l /\ parses read_ncontrol l v /\
  length l = (match e_feat with Wizzilab => 8 | _ => 9 end)%nat.
Proof. exact @ncontrol_bits. Qed.
Print Assumptions C35_network_bits.

Theorem C35_transport_bits : forall v, exists l, write_tcontrol v = Ok l /\ parses read_tcontrol l v /\ length l = 7%nat.
Proof. exact tcontrol_bits. Qed.
Print Assumptions C35_transport_bits.

(** On arbitrary input. *)
Theorem C35_reads : forall (E : Env) r r',
  (forall v, reader_state r -> read_ncontrol r = Ok (v, r') ->
     length (view r) = ((match e_feat with Wizzilab => 8 | _ => 9 end) + length (view r'))%nat /\ reader_state r') /\
  (forall v, reader_state r -> read_tcontrol r = Ok (v, r') ->
     length (view r) = (7 + length (view r'))%nat /\ reader_state r').
Proof. exact @control_reads. Qed.
Print Assumptions C35_reads.

(** How many bits past a byte boundary the network control, the access class, the transport control
    and the command start. *)
Theorem C35_offsets : forall (E : Env) v, let n := ff_frame v in
  let up_to_access := link_fields v ++ ncontrol_fields (nf_control n) in
  let up_to_transport := up_to_access ++ network_fields n in
  Nat.modulo (total_width (link_fields v)) 8 = 0%nat /\
  Nat.modulo (total_width up_to_access) 8 = (match e_feat with Wizzilab => 0 | _ => 1 end)%nat /\
  Nat.modulo (total_width up_to_transport) 8 = (match e_feat with Wizzilab => 0 | _ => 1 end)%nat /\
  Nat.modulo (total_width (head_fields v)) 8 = (match e_feat with Wizzilab => 7 | _ => 0 end)%nat.
Proof. exact @offsets. Qed.
Print Assumptions C35_offsets.

Example C35_example :
  write_ncontrol (E := env_spec) (mkNControl true false AtUId NlsAesCcm32)
  = Ok [true; false; true; false; false; false; true; true; true] /\
  write_ncontrol (E := env_wizzilab) (mkNControl true false AtUId NlsAesCcm32)
  = Ok [true; false; true; false; false; true; true; true] /\
  write_tcontrol (mkTControl true false false true false false true) = Ok [true; false; false; true; false; false; true].
Proof. repeat split. Qed.

(** C34. What a frame looks like in bytes: its fields one after the other, filled up with zero bits. *)
Theorem C34_layout : forall (E : Env) v, wf_fframe v ->
  fframe_to_bytes v = Ok (bytes_of_bits (bits_of_fields (frame_fields v))) /\ bytes (enc_fframe v) /\
  length (enc_fframe v)
  = (command_start v + length (enc_command (command_of v)) + 2 + match e_feat with Wizzilab => 1 | _ => 0 end)%nat.
Proof. exact @frame_layout. Qed.
Print Assumptions C34_layout.

Theorem C34_split : forall (E : Env) v, e_feat <> Wizzilab -> wf_fframe v ->
  enc_fframe v = firstn (command_start v) (enc_fframe v) ++ enc_command (command_of v) ++ enc_native 2 (ff_crc v) /\
  length (firstn (command_start v) (enc_fframe v)) = command_start v.
Proof. exact @frame_bytes_split. Qed.
Print Assumptions C34_split.

(** A length field that counts the bytes behind it does not make a frame parse. *)
Theorem C34_refuted : forall E : Env, ~ (forall v, wf_fframe v -> N.to_nat (ff_length v) = bytes_after_length v ->
  exists r, read_fframe (new_reader (enc_fframe v)) = Ok (v, r)).
Proof. exact @foreground_refuted. Qed.
Print Assumptions C34_refuted.

(** Exactly the frames whose length field stops the action loop in the right place are read back. *)
Theorem C34_exact : forall (E : Env) v suf, e_feat <> Wizzilab -> wf_fframe v -> (reads_back v suf <-> loop_stops v).
Proof. exact @frame_reads_back. Qed.
Print Assumptions C34_exact.

Theorem C34_otherwise : forall (E : Env) v suf, e_feat <> Wizzilab -> wf_fframe v ->
  (loop_stops v -> exists r, read_fframe (new_reader (enc_fframe v ++ suf)) = Ok (v, r) /\ reader_state r /\
     view r = bits_of_bytes suf /\ bread r = (8 * length (enc_fframe v) + 8 * length (command_of v))%nat) /\
  (~ loop_stops v -> forall r, read_fframe (new_reader (enc_fframe v ++ suf)) <> Ok (v, r)).
Proof. exact @frame_exact. Qed.
Print Assumptions C34_otherwise.

(** Which of the frames with the intended length field that are. *)
Theorem C34_intended_length : forall (E : Env) v, e_feat <> Wizzilab -> wf_fframe v ->
  N.to_nat (ff_length v) = bytes_after_length v ->
  (loop_stops v <->
   (ff_length v < 64 -> ends_indirect (command_of v)) /\
   (2 ^ 14 <= ff_length v -> last_longer 1 (command_of v)) /\
   (2 ^ 22 <= ff_length v -> last_longer 2 (command_of v))).
Proof. exact @length_counts. Qed.
Print Assumptions C34_intended_length.

(** What the derived entry points make of the frames that are read back. *)
Theorem C34_api : forall (E : Env) v suf, e_feat <> Wizzilab -> wf_fframe v -> loop_stops v ->
  fframe_try_from (enc_fframe v ++ suf)
  = (if Nat.eqb (length suf) (length (command_of v)) then Ok v else Err ETooMuchData) /\
  fframe_from_bytes (enc_fframe v ++ suf) 0
  = (if Nat.leb (length (command_of v)) (length suf) then Ok ((skipn (length (command_of v)) suf, 0%nat), v) else Panic).
Proof. exact @frame_api. Qed.
Print Assumptions C34_api.

Theorem C34_wizzilab : forall (E : Env) v suf, e_feat = Wizzilab -> wf_fframe v -> bytes suf ->
  ((exists r, read_fframe (new_reader (enc_fframe v ++ suf)) = Ok (v, r)) <-> all_zero_tail v).
Proof. exact @frame_wizzilab. Qed.
Print Assumptions C34_wizzilab.

Example C34_example :
  fframe_to_bytes (E := env_spec) (full_frame 29 [read_uid] 0xABCD)
  = Ok [29; 1; 194; 18; 52; 224; 184; 10; 0; 129; 1; 130; 2; 131; 3; 132;
        127; 6; 7; 80; 4; 28; 48; 8; 9; 129; 0; 0; 8; 205; 171] /\
  fframe_try_from (E := env_spec) ([29; 1; 194; 18; 52; 224; 184; 10; 0; 129; 1; 130; 2; 131; 3; 132;
        127; 6; 7; 80; 4; 28; 48; 8; 9; 129; 0; 0; 8; 205; 171] ++ [0]) = Ok (full_frame 29 [read_uid] 0xABCD) /\
  fframe_to_bytes (E := env_spec) (small_frame 9 [] 1) = Ok [9; 1; 66; 16; 10; 0; 6; 7; 1; 0] /\
  fframe_try_from (E := env_spec) [9; 1; 66; 16; 10; 0; 6; 7; 1; 0] = Err EIncomplete /\
  fframe_try_from (E := env_spec) [8; 1; 66; 16; 10; 0; 6; 7; 1; 0] = Ok (small_frame 8 [] 1) /\
  fframe_from_bytes (E := env_wizzilab) [9; 1; 66; 16; 20; 0; 12; 14; 0; 0; 0] 0
  = Ok (([], 7%nat), small_frame 9 [plain_nop] 0) /\
  bytes_after_length (E := env_spec) (full_frame 29 [read_uid] 0xABCD) = 30%nat.
Proof. repeat split. Qed.
