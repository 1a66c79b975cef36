(** Different foreground frames that are written as the same bytes. *)
From Coq Require Import List NArith ZArith Bool Lia ZifyBool ZifyNat ZifyN Arith.
From Verif Require Import Base Deku Utils Types Physical Link Network Session Data Query
  Interface File Operation Action Command Frames WellFormed SpecLayout SpecAction SpecFrames SpecDecode SpecFrameUnique
  SpecTwins LBits LReader LLayout LRound LNumbers LReencode LFrames LFrameCanonTop LFrameAgain LFrameUnique LFrameAll LTwins LFramesW.
Import ListNotations.
Open Scope N_scope.

Lemma frame_plain {E : Env} v : e_feat <> Wizzilab -> frame_parseable v -> laid v /\ Forall plain (command_of v) /\ u16 (ff_crc v).
Proof.
  intros Hz (d & n & H). apply LFrameAgain.from_reader_0 in H as (r & H & _).
  destruct (frame_parsed d v r Hz H) as (Hh & Hp & _). unfold head_wf in Hh.
  split; [split; [exact Hh|]; revert Hp; apply Forall_impl; intros a; apply parsed_laid; exact Hz|]. split.
  - revert Hp. apply Forall_impl. intros a Pa. split; [exact Pa|]. destruct Pa as [Pa|[(l & -> & _)|(Q & _)]]; [|reflexivity|contradiction].
    destruct a; try reflexivity. contradiction.
  - apply Hh.
Qed.
Lemma small_handy {E : Env} c : N.of_nat (length (enc_command c)) < 23 * 2 ^ 24 -> Forall handy c.
Proof.
  intros B. rewrite Forall_forall. intros a I l -> [L U].
  apply in_split in I as (x & y & ->). unfold enc_command in B. rewrite flat_map_app in B. cbn [flat_map] in B.
  rewrite LCommandMore.unknown_enc, !app_length in B. cbn [length app] in B. rewrite !app_length in B. lia.
Qed.
Theorem twin_frames {E : Env} v w l : e_feat <> Wizzilab -> frame_parseable v -> frame_parseable w ->
  fframe_to_bytes v = Ok l -> N.of_nat (length l) < 23 * 2 ^ 24 ->
  (fframe_to_bytes w = Ok l <-> twins (command_of v) (command_of w) /\ w = refill v (command_of w) (ff_crc v)).
Proof.
  intros Hz Hv Hw H B. destruct (frame_plain v Hz Hv) as (Lv & Pv & Uv). destruct (frame_plain w Hz Hw) as (Lw & Pw & Uw).
  rewrite (laid_bytes v Lv) in H. assert (l = enc_fframe v) as -> by congruence. clear H. rewrite (laid_bytes w Lw).
  destruct (laid_fframe_split v Hz Lv) as (Sv & Cv & Bv). destruct (laid_fframe_split w Hz Lw) as (Sw & Cw & Bw).
  assert (HB : forall x y, refill x (command_of y) (ff_crc x) = y -> header_bytes y = header_bytes x) by (intros x y <-; reflexivity).
  split.
  - intros H. assert (Q : enc_fframe w = enc_fframe v) by congruence.
    pose proof (laid_head_read v [] Hz Lv) as Rv. pose proof (laid_head_read w [] Hz Lw) as Rw. rewrite Q, Rv in Rw.
    assert (G : with_body v [] 0 = with_body w [] 0) by congruence. apply (proj1 (refill_same v w)) in G.
    assert (HH : header_bytes w = header_bytes v) by (rewrite G; reflexivity).
    rewrite Sv, Sw, HH in Q. apply app_inv_head in Q.
    pose proof (f_equal (@length N) Q) as LQ. rewrite !app_length, !enc_native_length in LQ.
    apply app_eq_len in Q as (Qc & Qn); [|lia].
    assert (N : ff_crc w = ff_crc v).
    { assert (T : forall x, to_host 2 x = enc_native 2 x) by (intros x; unfold to_host, enc_native, le_bytes; destruct e_host; reflexivity).
      rewrite <- (of_host_to_host 2 (ff_crc v) Uv), <- (of_host_to_host 2 (ff_crc w) Uw), !T, Qn. reflexivity. }
    split; [|rewrite <- N; exact G].
    rewrite Sv in B. rewrite !app_length in B.
    apply (twins_sound (length (command_of v) + length (command_of w))); auto; [apply small_handy; lia|apply small_handy; rewrite Qc; lia].
  - intros (T & G). f_equal. rewrite Sv, Sw, (HB v w (eq_sym G)), (twins_same_bytes _ _ T). do 3 f_equal. rewrite G. reflexivity.
Qed.
Lemma twin_frames_refuted {E : Env} : e_feat <> Wizzilab -> exists v w l, frame_parseable v /\ frame_parseable w /\ v <> w /\
  fframe_to_bytes v = Ok l /\ fframe_to_bytes w = Ok l.
Proof.
  intros Hz. exists (small_frame 10 [unknown_status [0]] 0), (small_frame 10 [serial_status] 0), [10; 1; 66; 16; 10; 0; 6; 7; 0x62; 1; 0; 0; 0].
  destruct E as [[] [] []]; try (contradiction Hz; reflexivity); (split; [|split; [|split; [discriminate|split; vm_compute; reflexivity]]]).
  all: try (exists [10; 1; 66; 16; 10; 0; 6; 7; 0x62; 0x40; 1; 0; 0; 0], 120%nat; vm_compute; reflexivity).
  all: try (exists [10; 1; 66; 16; 10; 0; 6; 7; 0x62; 0x40; 1; 0; 0; 0], 128%nat; vm_compute; reflexivity).
  all: exists [10; 1; 66; 16; 10; 0; 6; 7; 0x62; 1; 0; 0; 0], 112%nat; vm_compute; reflexivity.
Qed.
