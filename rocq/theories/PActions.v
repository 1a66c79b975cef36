(** C06-C09, C13-C15, C37, C41-C43, C48, C49: actions. *)
From Coq Require Import List NArith ZArith Bool.
From Verif Require Import Base Deku Utils Types Physical Link Network Session Data Query Interface File
  Operation Action Command WellFormed SpecLayout SpecApi SpecAction SpecOffset SpecFail Samples LActionApi
  LReencode LCommandApi LCommandMore LWrite LSize LWitness.
Import ListNotations.
Open Scope N_scope.

(** C06. *)
Theorem C06_action_round_trip : forall (E : Env) a, wf_action a ->
  exists l, action_to_bytes a = Ok l /\ bytes l /\ parses_bytes read_action l a /\ action_try_from l = Ok a.
Proof. exact @action_round_trip. Qed.
Print Assumptions C06_action_round_trip.

Example C06_example : forall E : Env, wf_action sample_write /\ wf_action sample_forward /\ wf_action sample_query /\
  action_to_bytes sample_write = Ok [0x44; 0x40; 0x41; 0x2C; 3; 1; 2; 3] /\
  action_try_from [0x44; 0x40; 0x41; 0x2C; 3; 1; 2; 3] = Ok sample_write.
Proof.
  intros E. split; [exact sample_write_wf|]. split; [exact sample_forward_wf|]. split; [exact sample_query_wf|].
  destruct E as [[] [] []]; repeat split.
Qed.

(** C07. *)
Theorem C07_layout : forall (E : Env) a, wf_action a -> action_to_bytes a = Ok (enc_action a) /\ bytes (enc_action a).
Proof. exact @action_bytes. Qed.
Print Assumptions C07_layout.

Theorem C07_first_byte : forall (E : Env) a, wf_action a ->
  exists t, enc_action a = (64 * flag_bits a + opcode_of a) :: t.
Proof. exact @action_first_byte. Qed.
Print Assumptions C07_first_byte.

Example C07_example :
  @action_to_bytes env_spec sample_forward = Ok [0x72; 0xD7; 0x56; 0x38; 0; 0x37; 0x21; 0xAB; 0xCD; 1; 2; 3; 4; 5] /\
  @action_to_bytes env_subiot sample_forward = Ok [0x72; 0xD7; 0x56; 0x38; 0x37; 0x21; 0xAB; 0xCD; 1; 2; 3; 4; 5] /\
  @action_to_bytes env_spec sample_query = Ok [0xC8; 0x5D; 2; 0xFF; 0x0F; 9; 99; 4; 5].
Proof. repeat split. Qed.

(** C08. *)
Theorem C08_dispatch : forall (E : Env) d p n a r', read_action (mkRd d p [] n) = Ok (a, r') -> (p <= length d)%nat ->
  exists b, nth_error d p = Some b /\ In (b mod 64) assigned_opcodes /\ opcode_of a = b mod 64 /\
    (is_tx_status a = false -> stored_opcode a = b mod 64).
Proof. exact @action_dispatch. Qed.
Print Assumptions C08_dispatch.

Theorem C08_unassigned : forall (E : Env) d p n b, nth_error d p = Some b -> ~ In (b mod 64) assigned_opcodes ->
  read_action (mkRd d p [] n) = Err EInvalidParam.
Proof. exact @action_unassigned. Qed.
Print Assumptions C08_unassigned.

Example C08_example : forall E : Env,
  action_try_from [0xFE; 0xB4; 7] = Err EInvalidParam /\ action_try_from [0xB4; 7] = Ok sample_tag.
Proof. intros [[] [] []]; repeat split. Qed.

(** C09. *)
Theorem C09_reencode_refuted : forall E : Env, ~ (forall d a r, read_action (new_reader d) = Ok (a, r) ->
  exists l, action_to_bytes a = Ok l /\ action_try_from l = Ok a).
Proof. exact @reencode_refuted. Qed.
Print Assumptions C09_reencode_refuted.

Theorem C09_reencode_exact : forall (E : Env) d p n a r', (p <= length d)%nat -> read_action (mkRd d p [] n) = Ok (a, r') ->
  exists l, action_to_bytes a = Ok l /\
    (reencodable a -> parses_bytes read_action l a /\ action_try_from l = Ok a) /\
    (~ reencodable a -> action_try_from l <> Ok a /\ forall r'', read_action (new_reader l) <> Ok (a, r'')).
Proof. exact @reencode. Qed.
Print Assumptions C09_reencode_exact.

(** Lengths written in more bytes than necessary. *)
Example C09_example : forall E : Env,
  action_try_from [0x44; 0x40; 0x81; 0; 0; 0x40; 1; 9] =
    Ok (AWriteFileData (mkFileData (mkHeader false true) 4 (mkFileOffset 0x40 0x10000) (FOther [9]))) /\
  action_to_bytes (AWriteFileData (mkFileData (mkHeader false true) 4 (mkFileOffset 0x40 0x10000) (FOther [9])))
    = Ok [0x44; 0x40; 0x81; 0; 0; 1; 9].
Proof. intros [[] [] []]; repeat split. Qed.

(** C13, actions. *)
Theorem C13_action_truncated : forall (E : Env) a k, wf_action a -> (k < length (enc_action a))%nat ->
  action_try_from (firstn k (enc_action a)) = Err EIncomplete /\
  read_action (new_reader (firstn k (enc_action a))) = Err EIncomplete.
Proof. exact @action_truncated. Qed.
Print Assumptions C13_action_truncated.

Example C13_action_example : forall E : Env,
  action_try_from [0x44; 0x40; 0x41; 0x2C; 3; 1; 2] = Err EIncomplete /\ action_try_from [0x44; 0x40; 0x41] = Err EIncomplete.
Proof. intros [[] [] []]; repeat split. Qed.

(** C14. *)
Theorem C14_garbage_refuted : forall E : Env, ~ (forall a s, wf_action a -> s <> [] ->
  action_try_from (enc_action a ++ s) = Err ETooMuchData).
Proof. exact @garbage_refuted. Qed.
Print Assumptions C14_garbage_refuted.

Theorem C14_garbage_exact : forall (E : Env) a s, wf_action a ->
  action_try_from (enc_action a ++ s) = if Nat.leb (length s) 1 then Ok a else Err ETooMuchData.
Proof. exact @action_try_from_suffix. Qed.
Print Assumptions C14_garbage_exact.

Example C14_example : forall E : Env, enc_action sample_tag = [0xB4; 7] /\
  action_try_from [0xB4; 7; 99] = Ok sample_tag /\ action_try_from [0xB4; 7; 99; 0] = Err ETooMuchData.
Proof. intros [[] [] []]; repeat split. Qed.

(** C15, actions. *)
Theorem C15_remainder_refuted : forall E : Env, ~ (forall a s, wf_action a ->
  action_from_bytes (enc_action a ++ s) 0 = Ok ((s, 0%nat), a)).
Proof. exact @remainder_refuted. Qed.
Print Assumptions C15_remainder_refuted.

Theorem C15_remainder_exact : forall (E : Env) d a r, read_action (new_reader d) = Ok (a, r) -> is_tx_status a = false ->
  left r = [] /\ (1 <= pos r <= length d)%nat /\ action_from_bytes d 0 = Ok ((skipn (S (pos r)) d, 0%nat), a).
Proof. exact @action_remainder_aligned. Qed.
Print Assumptions C15_remainder_exact.

Theorem C15_remainder_well_formed : forall (E : Env) a s, wf_action a ->
  action_from_bytes (enc_action a ++ s) 0 = Ok ((tl s, 0%nat), a).
Proof. exact @remainder_wf. Qed.
Print Assumptions C15_remainder_well_formed.

Theorem C15_remainder_bits : forall (E : Env) d a r, read_action (new_reader d) = Ok (a, r) ->
  action_from_bytes d 0 = Ok ((skipn (S (Nat.div (8 * pos r - length (left r)) 8)) d,
                               Nat.modulo (8 * pos r - length (left r)) 8), a).
Proof. exact @action_remainder. Qed.
Print Assumptions C15_remainder_bits.

Example C15_example : forall E : Env,
  action_from_bytes [0xB4; 7; 99; 100] 0 = Ok (([100], 0%nat), sample_tag) /\
  read_action (new_reader [0xB4; 7; 99; 100]) = Ok (sample_tag, mkRd [0xB4; 7; 99; 100] 2 [] 24).
Proof. intros [[] [] []]; repeat split. Qed.

(** C37. [start read_action d k] is the read behind [Action::from_bytes((d, k))]. *)
Theorem C37_offset_refuted : forall E : Env, ~ (forall d k a rest, wf_action a ->
  skipn k (bits_of_bytes d) = bits_of_bytes (enc_action a) ++ rest ->
  exists rem, action_from_bytes d k = Ok (rem, a)).
Proof. exact @offset_refuted. Qed.
Print Assumptions C37_offset_refuted.

Theorem C37_offset_mixed : forall (E : Env) d k b a r, (k + 8 <= 8 * length d)%nat -> nth_error d (boundary k) = Some b ->
  start read_action d k = Ok (a, r) ->
  opcode_of a = opcode_at d k /\ (is_tx_status a = false -> stored_opcode a = b mod 64) /\
  reader_state r /\ data r = d.
Proof. exact @start_mixed. Qed.
Print Assumptions C37_offset_mixed.

Theorem C37_offset_next_byte : forall (E : Env) d k b, (k + 8 <= 8 * length d)%nat -> nth_error d (boundary k) = Some b ->
  opcode_at d k = b mod 64 -> start read_action d k = read_action (mkRd d (boundary k) [] k).
Proof. exact @start_same. Qed.
Print Assumptions C37_offset_next_byte.

Theorem C37_offset_unassigned : forall (E : Env) d k, (k + 8 <= 8 * length d)%nat -> ~ In (opcode_at d k) assigned_opcodes ->
  start read_action d k = Err EInvalidParam.
Proof. exact @start_unassigned. Qed.
Print Assumptions C37_offset_unassigned.

Theorem C37_offset_short : forall (E : Env) d k, (8 * length d < k + 8)%nat -> start read_action d k = Err EIncomplete.
Proof. exact @start_short. Qed.
Print Assumptions C37_offset_short.

Theorem C37_offset_whole_bytes : forall (E : Env) pre a suf, wf_action a ->
  action_from_bytes (pre ++ enc_action a ++ suf) (8 * length pre) =
  match suf with
  | [] => if Nat.leb (length pre) 1 then Ok (([], 0%nat), a) else Panic
  | _ :: t => Ok ((t, 0%nat), a)
  end.
Proof. exact @offset_bytes. Qed.
Print Assumptions C37_offset_whole_bytes.

(** Four bits in, 0xB4 0x07 (a RequestTag); the byte after the boundary is read as the operand,
    with 0x40 as its first byte. *)
Example C37_example : forall E : Env, opcode_at [0x0B; 0x40; 0x70] 4 = 52 /\ boundary 4 = 1%nat /\
  action_from_bytes [0x0B; 0x40; 0x70] 4 = Ok (([], 4%nat), ARequestTag (mkRequestTag false 0 0x70)) /\
  action_from_bytes [1; 2; 0xB4; 7] 16 = Panic /\ action_from_bytes [1; 0xB4; 7; 5; 6] 8 = Ok (([6], 0%nat), sample_tag).
Proof. intros [[] [] []]; repeat split. Qed.

(** C41. *)
Theorem C41_tx_status_refuted : forall (E : Env) v l, action_to_bytes (ATxStatus v) = Ok l ->
  (exists t, l = 0x40 :: t) /\
  (exists r, read_action (new_reader l) = Ok (ANop (mkNop (mkHeader false true) 0), r)) /\
  action_try_from l = (if Nat.leb (length l) 2 then Ok (ANop (mkNop (mkHeader false true) 0)) else Err ETooMuchData).
Proof. exact @tx_never. Qed.
Print Assumptions C41_tx_status_refuted.

Example C41_example :
  @action_to_bytes env_wizzilab sample_tx = Ok [0x40; 0x98; 0x24; 0x08; 0x04; 0x08] /\
  @action_try_from env_wizzilab [0x40; 0x98; 0x24; 0x08; 0x04; 0x08] = Err ETooMuchData /\
  @action_try_from env_wizzilab [0x66; 0x98; 0x24; 0x08; 0x04; 0x08] = Ok sample_tx.
Proof. repeat split. Qed.

(** C42. *)
Theorem C42_prefix_free : forall (E : Env) a b s, wf_action a -> wf_action b ->
  enc_action a ++ s = enc_action b -> a = b /\ s = [].
Proof. exact @action_prefix_free. Qed.
Print Assumptions C42_prefix_free.

Theorem C42_commands : forall (E : Env) a b l, wf_command a -> wf_command b ->
  command_to_bytes a = Ok l -> command_to_bytes b = Ok l -> a = b.
Proof. exact @command_injective. Qed.
Print Assumptions C42_commands.

Example C42_example : forall E : Env, wf_action sample_tag /\ wf_action sample_write /\
  enc_action sample_tag = [0xB4; 7] /\ enc_action sample_write = [0x44; 0x40; 0x41; 0x2C; 3; 1; 2; 3].
Proof. exact (fun E => conj sample_tag_wf (conj sample_write_wf (conj eq_refl eq_refl))). Qed.

(** C43. *)
Theorem C43_fails_refuted : forall E : Env, ~ (forall a, (exists e, action_to_bytes a = Err e) <->
  Exists (fun n => 2 ^ 30 <= n) (lengths_of a) \/ Exists (fun n => 507904 < n) (varints_of a) \/
  Exists (fun k => 2 ^ 30 <= N.of_nat k) (payloads_of a)).
Proof. exact @fails_refuted. Qed.
Print Assumptions C43_fails_refuted.

(** C43 and C48: any value at all is either rejected, for exactly these numbers, or written to a
    number of bytes that depends on its size alone. *)
Theorem C43_fails_exact : forall (E : Env) a,
  (unwritable a -> action_to_bytes a = Err EInvalidParam) /\
  (~ unwritable a -> exists l, action_to_bytes a = Ok l /\ bytes l /\
     length l = (size_of a + if is_tx_status a then 1 else 0)%nat).
Proof. exact @action_fails. Qed.
Print Assumptions C43_fails_exact.

Example C43_example : forall E : Env,
  action_to_bytes (AReadFileData (mkReadFileData (mkHeader true true) 1 (mkFileOffset 7 (2 ^ 30)) 4)) = Err EInvalidParam /\
  action_to_bytes (AReadFileData (mkReadFileData (mkHeader true true) 1 (mkFileOffset 7 (2 ^ 30 - 1)) 4))
    = Ok [0xC1; 7; 0xFF; 0xFF; 0xFF; 0xFF; 4] /\
  size_of (AReadFileData (mkReadFileData (mkHeader true true) 1 (mkFileOffset 7 (2 ^ 30 - 1)) 4)) = 7%nat /\
  size_of sample_write = 8%nat.
Proof. intros [[] [] []]; repeat split. Qed.

(** C48.  Whatever is written, its number of bytes is a function of the sizes of the fields, and any two
    actions of one size are written to the same number of bytes. *)
Theorem C48_size : forall (E : Env) a l, action_to_bytes a = Ok l ->
  length l = (size_of a + if is_tx_status a then 1 else 0)%nat.
Proof. exact @written_size. Qed.
Print Assumptions C48_size.

Theorem C48_at_least_one_byte : forall (E : Env) a l, action_to_bytes a = Ok l -> l <> [].
Proof. exact @written_some. Qed.
Print Assumptions C48_at_least_one_byte.

Example C48_example : forall E : Env,
  let a g n := AReadFileData (mkReadFileData (mkHeader g true) 63 (mkFileOffset 7 n) (2 ^ 14)) in
  action_to_bytes (a true 64) = Ok [0xC1; 7; 0x40; 64; 0x80; 0x40; 0] /\
  action_to_bytes (a false (2 ^ 14 - 1)) = Ok [0x41; 7; 0x7F; 0xFF; 0x80; 0x40; 0] /\
  size_of (a true 64) = 7%nat /\ size_of (a false (2 ^ 14 - 1)) = 7%nat.
Proof. intros [[] [] []]; repeat split. Qed.

(** C49. *)
Theorem C49_opcode_ignored : forall (E : Env) o a, action_to_bytes (with_opcode o a) = action_to_bytes a.
Proof. exact @opcode_ignored. Qed.
Print Assumptions C49_opcode_ignored.

Example C49_example : forall E : Env, with_opcode 63 sample_tag = ARequestTag (mkRequestTag true 63 7) /\
  action_to_bytes (ARequestTag (mkRequestTag true 63 7)) = Ok [0xB4; 7].
Proof. intros [[] [] []]; repeat split. Qed.
