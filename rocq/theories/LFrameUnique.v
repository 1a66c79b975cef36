(** Frame encodings are unambiguous. *)
From Coq Require Import List NArith ZArith Bool Lia ZifyBool ZifyNat ZifyN Arith.
From Verif Require Import Base Deku Utils Types Physical Link Network Session Data Query
  Interface File Operation Action Command Frames WellFormed SpecLayout SpecAction SpecFrames LBits LReader
  LLayout LRound LRoundOps LAction LNumbers LActionApi LCommandApi LFrames LFramesW LFrameCanonTop LFrameCanonW SpecFrameUnique.
Import ListNotations.
Open Scope N_scope.

Lemma enc_bits {E : Env} v : wf_fframe v -> bits_of_bytes (enc_fframe v) = bits_of_fields (head_fields v) ++ fill v.
Proof.
  intros Hv. unfold fill. destruct e_feat eqn:F.
  3: exact (wizzilab_bits v F).
  all: assert (HF : e_feat <> Wizzilab) by (rewrite F; discriminate); destruct (fframe_split v HF Hv) as (-> & _ & Hb);
    rewrite !bits_of_bytes_app, Hb, app_nil_r; reflexivity.
Qed.
Lemma head_of {E : Env} v s : wf_fframe v -> exists r, read_head (new_reader (enc_fframe v ++ s)) = Ok (with_body v [] 0, r).
Proof.
  intros Hv. destruct e_feat eqn:F.
  3: destruct (head_read_wizzilab v s F Hv) as (x & H & _); eauto.
  all: assert (HF : e_feat <> Wizzilab) by (rewrite F; discriminate); eexists; exact (head_read v s HF Hv).
Qed.
Lemma refill_same v w : with_body v [] 0 = with_body w [] 0 <-> w = refill v (command_of w) (ff_crc w).
Proof.
  split; intros H.
  - rewrite <- (with_body_same w) at 1. rewrite <- H. reflexivity.
  - rewrite H. reflexivity.
Qed.
Lemma frame_prefix {E : Env} v w l m s : wf_fframe v -> wf_fframe w -> bytes s -> fframe_to_bytes v = Ok l -> fframe_to_bytes w = Ok m ->
  (l ++ s = m <-> w = refill v (command_of w) (ff_crc w) /\ fill v ++ bits_of_bytes s = fill w).
Proof.
  intros Hv Hw Bs H1 H2. rewrite fframe_bytes in H1, H2 by assumption. apply Ok_inj in H1, H2. subst l m.
  assert (HH : w = refill v (command_of w) (ff_crc w) -> bits_of_fields (head_fields w) = bits_of_fields (head_fields v)).
  { intros ->. reflexivity. }
  assert (HB : w = refill v (command_of w) (ff_crc w) -> (enc_fframe v ++ s = enc_fframe w <-> fill v ++ bits_of_bytes s = fill w)).
  { intros G. split; intros H.
    - apply (f_equal bits_of_bytes) in H. rewrite bits_of_bytes_app, !enc_bits, (HH G), <- app_assoc in H by assumption. exact (app_inv_head _ _ _ H).
    - apply bits_of_bytes_inj; [apply Forall_app; split; [apply fframe_is_bytes|exact Bs]|apply fframe_is_bytes|].
      rewrite bits_of_bytes_app, !enc_bits, (HH G), <- app_assoc, H by assumption. reflexivity. }
  split.
  - intros H. assert (G : w = refill v (command_of w) (ff_crc w)).
    { apply refill_same. destruct (head_of v s Hv) as (r & R1). destruct (head_of w [] Hw) as (r' & R2). rewrite app_nil_r, <- H in R2. congruence. }
    split; [exact G|]. apply (HB G), H.
  - intros (G & H). apply (HB G), H.
Qed.
Lemma frame_injective {E : Env} v w l : wf_fframe v -> wf_fframe w -> fframe_to_bytes v = Ok l -> fframe_to_bytes w = Ok l -> v = w.
Proof.
  intros Hv Hw H1 H2. destruct (proj1 (frame_prefix v w l l [] Hv Hw (Forall_nil _) H1 H2) (app_nil_r l)) as (G & H).
  cbn [bits_of_bytes] in H. rewrite app_nil_r in H. unfold fill in H.
  assert (Cv : wf_command (command_of v)) by apply Hv. assert (Cw : wf_command (command_of w)) by apply Hw.
  rewrite !app_assoc in H. apply app_inv_tail in H. rewrite <- !bits_of_bytes_app in H.
  destruct (W_command _ (proj1 Cv)) as (W1 & B1). destruct (W_command _ (proj1 Cw)) as (W2 & B2).
  apply bits_of_bytes_inj in H; try (apply Forall_app; split; [assumption|apply enc_native_bytes]).
  pose proof (f_equal (@length N) H) as HL. rewrite !app_length, !enc_native_length in HL.
  apply app_eq_len in H as (Hc & Hn); [|lia].
  assert (Qc : command_of v = command_of w).
  { apply (command_injective _ _ (enc_command (command_of v)) Cv Cw); unfold command_to_bytes, to_bytes.
    - rewrite W1. cbn [rbind]. rewrite bytes_of_bits_of_bytes by exact B1. reflexivity.
    - rewrite W2, Hc. cbn [rbind]. rewrite bytes_of_bits_of_bytes by exact B2. reflexivity. }
  assert (Qn : ff_crc v = ff_crc w).
  { assert (Uv : u16 (ff_crc v)) by apply Hv. assert (Uw : u16 (ff_crc w)) by apply Hw.
    assert (T : forall x, to_host 2 x = enc_native 2 x) by (intros x; unfold to_host, enc_native, le_bytes; destruct e_host; reflexivity).
    rewrite <- (of_host_to_host 2 (ff_crc v) Uv), <- (of_host_to_host 2 (ff_crc w) Uw), !T, Hn. reflexivity. }
  rewrite G, <- Qc, <- Qn. symmetry. exact (with_body_same v).
Qed.
Lemma frame_prefix_refuted {E : Env} :
  ~ (forall v w l s, wf_fframe v -> wf_fframe w -> fframe_to_bytes v = Ok l -> fframe_to_bytes w = Ok (l ++ s) -> s = []).
Proof.
  intros H. assert (W1 : wf_command []) by (split; [constructor|intros [|? ?]; discriminate]).
  assert (W2 : wf_command [plain_nop]).
  { split; [constructor; [reflexivity|constructor]|]. intros [|b pre] a post Q; [injection Q as <- Q; intros _; symmetry; exact Q|]. injection Q as _ Q. destruct pre; discriminate. }
  assert (D : exists l, fframe_to_bytes (small_frame 0 [] 0) = Ok l /\ fframe_to_bytes (small_frame 0 [plain_nop] 0) = Ok (l ++ [0])).
  { destruct E as [[] [] []]; eexists; split; vm_compute; reflexivity. }
  destruct D as (l & D1 & D2).
  discriminate (H (small_frame 0 [] 0) (small_frame 0 [plain_nop] 0) l [0] ltac:(apply small_wf; [lia|exact W1|lia]) ltac:(apply small_wf; [lia|exact W2|lia]) D1 D2).
Qed.
Lemma bframe_injective {E : Env} v w l s : wf_bframe v -> wf_bframe w -> bframe_to_bytes v = Ok l -> bframe_to_bytes w = Ok (l ++ s) -> v = w /\ s = [].
Proof.
  intros Hv Hw H1 H2. destruct (bframe_value v Hv) as (A1 & A2 & A3). destruct (bframe_value w Hw) as (B1 & B2 & B3).
  rewrite A1 in H1. apply Ok_inj in H1. rewrite B1 in H2. apply Ok_inj in H2. subst l.
  assert (Q : s = []). { apply (f_equal (@length N)) in H2. rewrite app_length, A2, B2 in H2. destruct s; [reflexivity|cbn in H2; lia]. }
  subst s. rewrite app_nil_r in H2. rewrite H2 in B3. split; [congruence|reflexivity].
Qed.
Lemma enc_length_short {E : Env} v : (length (enc_length (ff_length v)) <= length (enc_fframe v))%nat.
Proof.
  unfold enc_fframe. destruct (padded (bits_of_fields (frame_fields v))) as (n & _ & H). apply (f_equal (@length bool)) in H.
  rewrite bits_of_bytes_length, app_length in H. set (sz := length (bytes_of_bits _)) in *. clearbody sz. unfold frame_fields, head_fields, link_fields in H. cbv zeta in H. rewrite <- !app_assoc in H. cbn [app] in H.
  rewrite bits_of_fields_app, app_length in H.
  assert (G : forall l, length (bits_of_fields (SpecFrames.octets l)) = (8 * length l)%nat).
  { intros l. unfold SpecFrames.octets, bits_of_fields. induction l as [|b l IH]; [reflexivity|]. cbn [map flat_map fst snd length]. rewrite app_length, bits_of_length, IH. lia. }
  rewrite G in H. lia.
Qed.
Lemma frame_counted {E : Env} v w l s : wf_fframe v -> wf_fframe w -> bytes s ->
  N.to_nat (ff_length v) = bytes_after_length v -> N.to_nat (ff_length w) = bytes_after_length w ->
  fframe_to_bytes v = Ok l -> fframe_to_bytes w = Ok (l ++ s) -> v = w /\ s = [].
Proof.
  intros Hv Hw Bs Lv Lw H1 H2. destruct (proj1 (frame_prefix _ _ _ _ s Hv Hw Bs H1 H2) eq_refl) as (G & _).
  assert (Q : ff_length w = ff_length v) by (rewrite G; reflexivity).
  unfold bytes_after_length in Lv, Lw. rewrite fframe_bytes in H1, H2 by assumption. apply Ok_inj in H1, H2.
  pose proof (enc_length_short v) as S1. pose proof (enc_length_short w) as S2. rewrite Q in Lw, S2.
  assert (QS : s = []). { apply (f_equal (@length N)) in H2. rewrite app_length, <- H1 in H2. destruct s; [reflexivity|]. cbn [length] in H2. lia. }
  split; [|exact QS]. subst s. rewrite app_nil_r in H2. apply (frame_injective v w l Hv Hw); rewrite fframe_bytes by assumption; congruence.
Qed.
