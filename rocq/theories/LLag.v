(** Lemmas for C66: once the output lags behind the input it never catches up. *)
From Coq Require Import List NArith ZArith Bool Lia ZifyBool ZifyNat ZifyN Arith.
From Verif Require Import Base Deku Utils Types Physical Link Network Session Data Query
  Interface File Operation Action Command WellFormed SpecLayout SpecApi SpecAction SpecDecode SpecCanonical SpecFail SpecGrow Position LBits LReader LDecodeTx
  LNumbers LDecode LCanon LActionApi LCommandApi LLayout LFail LWrite LSize LDecodeLoop LPosition LFiles LGrow LCanonTop.
Import ListNotations.
Open Scope N_scope.

(** ** A clash between two lists of bits of which some are unknown *)
Inductive sym := C (b : bool) | V (n : nat).
Definition ev (r : nat -> bool) (s : sym) : bool := match s with C b => b | V n => r n end.
Fixpoint look (k : nat) (g : list (nat * sym)) (s : sym) : sym :=
  match k, s with
  | S k, V n => match find (fun p => Nat.eqb (fst p) n) g with Some p => look k g (snd p) | None => s end
  | _, _ => s
  end.
Fixpoint clash (g : list (nat * sym)) (l m : list sym) : bool :=
  match l, m with
  | a :: l, b :: m =>
      match look 50 g a, look 50 g b with
      | C x, C y => if Bool.eqb x y then clash g l m else true
      | V n, s | s, V n => clash ((n, s) :: g) l m
      end
  | _, _ => false
  end.
Lemma look_sound r k : forall g s, Forall (fun p => r (fst p) = ev r (snd p)) g -> ev r (look k g s) = ev r s.
Proof.
  induction k as [|k IH]; intros g s H; [reflexivity|]. destruct s as [b|n]; [reflexivity|]. cbn [look].
  destruct (find _ g) as [p|] eqn:F; [|reflexivity]. rewrite IH by exact H. apply find_some in F as (F & N1).
  rewrite Forall_forall in H. rewrite <- (H _ F). apply Nat.eqb_eq in N1. rewrite N1. reflexivity.
Qed.
Lemma clash_sound r : forall l m g s t, Forall (fun p => r (fst p) = ev r (snd p)) g -> clash g l m = true ->
  map (ev r) l ++ s <> map (ev r) m ++ t.
Proof.
  induction l as [|a l IH]; intros m g s t Hg Hc H; [discriminate|]. destruct m as [|b m]; [discriminate|].
  cbn [map app clash] in *. injection H as Hab H. rewrite <- (look_sound r 50 g a Hg), <- (look_sound r 50 g b Hg) in Hab.
  destruct (look 50 g a) as [x|n], (look 50 g b) as [y|n']; cbn [ev] in Hab.
  - subst y. rewrite eqb_reflx in Hc. exact (IH _ _ _ _ Hg Hc H).
  - apply (IH _ _ s t) in Hc; [exact (Hc H)|]. constructor; [symmetry; exact Hab|exact Hg].
  - apply (IH _ _ s t) in Hc; [exact (Hc H)|]. constructor; [exact Hab|exact Hg].
  - apply (IH _ _ s t) in Hc; [exact (Hc H)|]. constructor; [exact Hab|exact Hg].
Qed.

(** ** The cases
    Unknown: the bits of the number (0 to 29), what is left over (30 to 35), two bits of the first
    byte (36 and 37) and the bits of the size (38 to 51). The number is written in [m + 1] bytes and
    was read from [k + m + 1]. *)
Definition K (n : nat) (v : N) : list sym := map C (bits_of n v).
Definition U (a n : nat) : list sym := map V (seq a n).
Definition written (m : nat) : list sym := K 2 (N.of_nat m) ++ U 0 (6 + 8 * m).
Definition wide (m k : nat) : list sym := K 2 (N.of_nat (k + m)) ++ K (8 * k) 0 ++ U 0 (6 + 8 * m).
Definition case_file (n : nat) : list sym * list sym :=
  match n with O => (K 8 9, K 2 1 ++ U 38 14) | S k => (K 8 (32 + N.of_nat k), K 16 0x4041) end.
Definition case_op (late : bool) (op : N) : list sym := if late then K 6 op ++ U 36 2 else U 36 2 ++ K 6 op.
Definition all_clash : bool :=
  forallb (fun i => forallb (fun m => forallb (fun k => forallb (fun w => forallb (fun op => forallb (fun q =>
    let '(f, n) := case_file i in
    clash [] (f ++ written m ++ n) (U 30 (2 * q) ++ case_op w op ++ f ++ wide m k))
    (seq 0 4)) [4; 5; 32]) [false; true]) (seq 0 (4 - m))) (seq 0 4)) (seq 0 16).
Lemma all_clash_true : all_clash = true. Proof. vm_compute. reflexivity. Qed.
Lemma clashes i m k w op q : (i < 16)%nat -> (m + k < 4)%nat -> In op [4; 5; 32] -> (q < 4)%nat ->
  clash [] (fst (case_file i) ++ written m ++ snd (case_file i)) (U 30 (2 * q) ++ case_op w op ++ fst (case_file i) ++ wide m k) = true.
Proof.
  intros Hi Hm Ho Hq. pose proof all_clash_true as A. unfold all_clash in A.
  rewrite forallb_forall in A. specialize (A i ltac:(apply in_seq; lia)).
  rewrite forallb_forall in A. specialize (A m ltac:(apply in_seq; lia)).
  rewrite forallb_forall in A. specialize (A k ltac:(apply in_seq; lia)).
  rewrite forallb_forall in A. specialize (A w ltac:(destruct w; cbn; auto)).
  rewrite forallb_forall in A. specialize (A op Ho).
  rewrite forallb_forall in A. specialize (A q ltac:(apply in_seq; lia)).
  destruct (case_file i). exact A.
Qed.
Lemma ev_K r n v : map (ev r) (K n v) = bits_of n v.
Proof. unfold K. rewrite map_map. cbn [ev]. apply map_id. Qed.
Lemma ev_U r a n x : length x = n -> (forall i, (i < n)%nat -> r (a + i)%nat = nth i x false) -> map (ev r) (U a n) = x.
Proof.
  intros <- H. unfold U. rewrite map_map. cbn [ev]. revert a H. induction x as [|b x IH]; intros a H; [reflexivity|].
  cbn [length seq map]. f_equal; [specialize (H 0%nat); rewrite Nat.add_0_r in H; apply H; cbn; lia|].
  apply IH. intros i Hi. specialize (H (S i)). rewrite Nat.add_succ_comm. rewrite H by (cbn; lia). reflexivity.
Qed.

(** ** Numbers *)
Lemma enc_length_bits v : v < 2 ^ 30 -> exists m, (m < 4)%nat /\ v < 2 ^ N.of_nat (6 + 8 * m) /\
  (m = 0%nat \/ 2 ^ N.of_nat (8 * m - 2) <= v) /\ bits_of_bytes (enc_length v) = bits_of 2 (N.of_nat m) ++ bits_of (6 + 8 * m) v.
Proof.
  intros H. unfold enc_length.
  destruct (N.ltb_spec v (2 ^ 6)) as [L|L]; [exists 0%nat|destruct (N.ltb_spec v (2 ^ 14)) as [L1|L1];
    [exists 1%nat|destruct (N.ltb_spec v (2 ^ 22)) as [L2|L2]; [exists 2%nat|exists 3%nat]]].
  all: split; [lia|]; split; [assumption|]; split; [auto|].
  - cbn [bits_of_bytes]. rewrite app_nil_r. change 8%nat with (2 + 6)%nat. rewrite bits_of_app. f_equal.
    rewrite N.div_small by exact L. reflexivity.
  - rewrite bits_of_be. apply (bits_of_join 2 14). exact L1.
  - rewrite bits_of_be. apply (bits_of_join 2 22). exact L2.
  - rewrite bits_of_be. apply (bits_of_join 2 30). exact H.
Qed.
Lemma dec_length_bits l v rest : bytes l -> dec_length l = Some (v, rest) -> exists m p, (m < 4)%nat /\ l = p ++ rest /\
  v < 2 ^ N.of_nat (6 + 8 * m) /\ bits_of_bytes p = bits_of 2 (N.of_nat m) ++ bits_of (6 + 8 * m) v.
Proof.
  intros H G. destruct l as [|b l]; [discriminate|]. rewrite dec_length_cons in G. inversion H as [|? ? Hb Hl]; subst.
  destruct (some_bytes (b / 64) l) as [[t r]|] eqn:Q; [|discriminate].
  assert (b mod 64 * 256 ^ (b / 64) + N_of_be t = v /\ r = rest) as (<- & ->) by (split; congruence). clear G.
  apply some_bytes_inv in Q as (-> & L). apply Forall_app in Hl as (Ht & _). unfold byte in Hb.
  assert (B1 : b / 64 < 4) by (apply N.div_lt_upper_bound; lia). assert (B2 : b mod 64 < 64) by (apply N.mod_lt; lia).
  pose proof (N.div_mod b 64 ltac:(lia)) as DM.
  exists (N.to_nat (b / 64)), (b :: t). split; [lia|]. split; [reflexivity|]. rewrite N2Nat.id.
  set (k := b / 64) in *. set (x := b mod 64) in *. pose proof (N_of_be_lt t Ht) as Lt. rewrite L, N2Nat.id in Lt.
  assert (P : 2 ^ N.of_nat (8 * N.to_nat k) = 256 ^ k) by (rewrite <- pow256, N2Nat.id; reflexivity).
  split.
  - rewrite Nat2N.inj_add, N.pow_add_r, P. change (2 ^ N.of_nat 6) with 64. nia.
  - rewrite <- P in *. rewrite bits_of_join by exact Lt. rewrite bits_of_bytes_cons, app_assoc. f_equal.
    + rewrite DM, (N.mul_comm 64). apply (bits_of_join 2 6). exact B2.
    + rewrite N_of_be_bits by exact Ht. rewrite <- L, <- bits_of_bytes_length. symmetry. apply bits_of_N_of_bits.
Qed.
Lemma wide_bits m k v : v < 2 ^ N.of_nat (6 + 8 * m) -> bits_of (6 + 8 * (k + m)) v = bits_of (8 * k) 0 ++ bits_of (6 + 8 * m) v.
Proof.
  intros H. replace (6 + 8 * (k + m))%nat with (8 * k + (6 + 8 * m))%nat by lia. rewrite bits_of_app.
  rewrite N.div_small by exact H. reflexivity.
Qed.
Definition first_byte_bits (b : N) (late : bool) (op : N) : Prop := if late then part 2 6 b = op else part 0 6 b = op.
Lemma op_bits b late op : b < 256 -> first_byte_bits b late op ->
  exists x y, bits_of 8 b = if late then bits_of 6 op ++ [x; y] else [x; y] ++ bits_of 6 op.
Proof.
  intros Hb H. unfold first_byte_bits, part in H.
  assert (T : forall v, exists x y, bits_of 2 v = [x; y]) by (intros v; cbn [bits_of]; eauto).
  destruct late; subst op.
  - destruct (T b) as (x & y & Q). exists x, y. rewrite <- Q. change 8%nat with (6 + 2)%nat. rewrite bits_of_app. f_equal. apply bits_of_mod.
  - destruct (T (b / 2 ^ N.of_nat 6)) as (x & y & Q). exists x, y. rewrite <- Q. change 8%nat with (2 + 6)%nat. rewrite bits_of_app. f_equal.
    rewrite N.div_1_r. apply bits_of_mod.
Qed.

(** ** File data in 64 bytes or more *)
Lemma big_bits {E : Env} id f : wf_file id f -> big_file f = true -> exists i z, (i < 16)%nat /\ length z = 14%nat /\
  forall r, (forall k, (k < 14)%nat -> r (38 + k)%nat = nth k z false) ->
    bits_of 8 id = map (ev r) (fst (case_file i)) /\
    bits_of_bytes (enc_length (N.of_nat (length (enc_file f)))) = map (ev r) (snd (case_file i)).
Proof.
  intros W B. pose proof (file_bytes f _ (W_to_bytes _ _ (W_file id f W))) as L. rewrite L. destruct f; try discriminate B; cbn [wf_file file_size big_file] in *.
  - destruct W as (W1 & -> & P & _ & Q & _). exists (S (N.to_nat i)), (repeat false 14). split; [lia|]. split; [reflexivity|].
    intros r _. cbn [case_file fst snd]. rewrite !ev_K, N2Nat.id. split; [reflexivity|].
    rewrite P, Q. reflexivity.
  - destruct W as (-> & _ & _ & _ & _ & U1 & L1 & _). unfold u8 in U1. apply Nat.leb_le in B.
    set (n := N.of_nat (15 + 3 * length (ps_channels v))) in *. exists 0%nat, (bits_of 14 n). split; [lia|].
    split; [apply bits_of_length|]. intros r Hr. cbn [case_file fst snd]. rewrite map_app, !ev_K. split; [reflexivity|].
    rewrite (ev_U r 38 14 (bits_of 14 n)) by (auto using bits_of_length).
    assert (64 <= n < 2 ^ 14) as (B1 & B2) by (subst n; lia). unfold enc_length.
    destruct (N.ltb_spec n (2 ^ 6)) as [G|_]; [lia|]. destruct (N.ltb_spec n (2 ^ 14)) as [_|G]; [|lia].
    rewrite bits_of_be. apply (bits_of_join 2 14). exact B2.
Qed.
Lemma file_stuck {E : Env} b l id off n f l2 l3 late op q s t : In op [4; 5; 32] -> bytes (b :: id :: l) -> first_byte_bits b late op ->
  dec_length l = Some (off, l2) -> dec_file id n l3 = Some (f, t) -> wf_file id f -> big_file f = true -> off < 2 ^ 30 ->
  In (length q) [0; 2; 4; 6]%nat ->
  bits_of_bytes (id :: enc_length off ++ enc_length (N.of_nat (length (enc_file f))) ++ enc_file f) ++ s
  <> q ++ bits_of_bytes (b :: id :: l).
Proof.
  intros Ho Hb Hf Dl Df Wf Bf Hoff Hq H. apply Forall_cons_iff in Hb as (Hb & Hl). apply Forall_cons_iff in Hl as (Hi & Hl).
  destruct (dec_length_bits l off l2 Hl Dl) as (M & p & HM & -> & HvM & Bp).
  destruct (enc_length_bits off Hoff) as (m & Hm & Hvm & Hmin & Be).
  assert (m <= M)%nat as Hle.
  { destruct Hmin as [->|Hmin]; [lia|]. destruct (Nat.leb_spec m M) as [G|G]; [exact G|exfalso].
    assert (2 ^ N.of_nat (6 + 8 * M) <= 2 ^ N.of_nat (8 * m - 2)) by (apply N.pow_le_mono_r; lia). lia. }
  destruct (op_bits b late op Hb Hf) as (x & y & Bb).
  destruct (big_bits id f Wf Bf) as (i & z & Hi16 & Lz & Bi).
  assert (exists j, (j < 4)%nat /\ length q = (2 * j)%nat) as (j & Hj & Lq).
  { cbn [In] in Hq. destruct Hq as [Q|[Q|[Q|[Q|[]]]]]; [exists 0%nat|exists 1%nat|exists 2%nat|exists 3%nat]; lia. }
  set (bs := bits_of (6 + 8 * m) off) in *.
  set (r := fun k => if Nat.ltb k 30 then nth k bs false else if Nat.ltb k 36 then nth (k - 30) q false
                     else if Nat.ltb k 38 then nth (k - 36) [x; y] false else nth (k - 38) z false).
  assert (R1 : map (ev r) (U 0 (6 + 8 * m)) = bs).
  { apply ev_U; [apply bits_of_length|]. intros k Hk. unfold r. destruct (Nat.ltb_spec (0 + k) 30); [reflexivity|lia]. }
  assert (R2 : map (ev r) (U 30 (2 * j)) = q).
  { apply ev_U; [exact Lq|]. intros k Hk. unfold r. destruct (Nat.ltb_spec (30 + k) 30); [lia|].
    destruct (Nat.ltb_spec (30 + k) 36); [|lia]. f_equal. lia. }
  assert (R3 : map (ev r) (U 36 2) = [x; y]) by reflexivity.
  destruct (Bi r) as (R4 & R5).
  { intros k Hk. unfold r. destruct (Nat.ltb_spec (38 + k) 30); [lia|]. destruct (Nat.ltb_spec (38 + k) 36); [lia|].
    destruct (Nat.ltb_spec (38 + k) 38); [lia|]. f_equal. lia. }
  pose proof (clashes i m (M - m) late op j Hi16 ltac:(lia) Ho Hj) as CL.
  apply (clash_sound r _ _ _ (bits_of_bytes (enc_file f) ++ s) (bits_of_bytes l2)) in CL; [|constructor]. apply CL. clear CL.
  rewrite !map_app, R2, <- R4, <- R5. unfold written, wide. rewrite !map_app, !ev_K, R1.
  replace (M - m + m)%nat with M by lia.
  rewrite !bits_of_bytes_cons, !bits_of_bytes_app, Be, Bp, Bb in H.
  replace M with (M - m + m)%nat in H at 2 by lia. rewrite (wide_bits m (M - m) off Hvm) in H. fold bs in H.
  assert (R6 : map (ev r) (case_op late op) = if late then bits_of 6 op ++ [x; y] else [x; y] ++ bits_of 6 op).
  { unfold case_op. destruct late; rewrite map_app, R3, ev_K; reflexivity. }
  rewrite R6. rewrite <- !app_assoc in H. rewrite <- !app_assoc. exact H.
Qed.

(** ** Actions *)
Lemma app_inj_length {A} (a b c d : list A) : length a = length b -> a ++ c = b ++ d -> a = b /\ c = d.
Proof.
  revert b. induction a as [|x a IH]; intros [|y b] L H; try discriminate; [split; [reflexivity|exact H]|].
  injection H as -> H. destruct (IH b ltac:(injection L; auto) H) as (-> & ->). split; reflexivity.
Qed.
Lemma operand_suffix {E : Env} b l (late : bool) a rest : bytes (b :: l) -> dec_operand (if late then part 2 6 b else part 0 6 b) (b :: l) = Some (a, rest) ->
  exists p, b :: l = p ++ rest.
Proof.
  intros H G. assert (H0 : bytes (0 :: b :: l)) by (constructor; [reflexivity|exact H]).
  assert (L1 : (1 <= length (0%N :: b :: l))%nat) by (cbn [length]; lia).
  pose proof (entry_action (0 :: b :: l) 1 0 late (if late then mkRd (0 :: b :: l) 1 [false; false] 0 else at_byte (0 :: b :: l) 1 0) H0 L1) as A.
  assert (En : entry (0 :: b :: l) 1 0 late (if late then mkRd (0 :: b :: l) 1 [false; false] 0 else at_byte (0 :: b :: l) 1 0))
    by (destruct late; constructor; lia).
  specialize (A En). cbn [skipn] in A. unfold OpAt in A. rewrite at_byte_view in A by exact H0.
  cbn [skipn] in A. rewrite G in A. destruct A as (k & _ & _ & -> & _). exists (firstn k (b :: l)). symmetry. apply firstn_skipn.
Qed.
Lemma swell_op {E : Env} op l a rest : op < 64 -> dec_operand op l = Some (a, rest) -> swells a = true ->
  exists c, In (op, c) [(4, AWriteFileData); (5, AWriteFileDataFlush); (32, AReturnFileData)] /\ dec_file_data c l = Some (a, rest).
Proof.
  intros Ho H Sw. assert (I : In op (map N.of_nat (seq 0 64))).
  { apply in_map_iff. exists (N.to_nat op). split; [lia|]. apply in_seq. lia. }
  cbn in I. clear Ho. repeat destruct I as [<-|I]; try contradiction; try discriminate H; cbn [dec_operand N.eqb Pos.eqb] in *.
  all: try (exfalso; unfold dec_nop, dec_file_id_op, dec_file_properties, dec_action_query, andthen, give, reject in H;
    repeat match type of H with
    | context [match ?e with _ => _ end] =>
        lazymatch e with context [match _ with _ => _ end] => fail | _ => destruct e as [] end; try discriminate H
    | context [match ?e with _ => _ end] =>
        lazymatch e with context [match _ with _ => _ end] => fail | _ => destruct e as [[? ?]|] end; try discriminate H
    end; injection H as <- _; discriminate Sw).
  - exists AWriteFileData. split; [left; reflexivity|exact H].
  - exists AWriteFileDataFlush. split; [right; left; reflexivity|exact H].
  - exists AReturnFileData. split; [right; right; left; reflexivity|exact H].
Qed.
Lemma swell_stuck {E : Env} b l (late : bool) a rest o q s : bytes (b :: l) ->
  dec_operand (if late then part 2 6 b else part 0 6 b) (b :: l) = Some (a, rest) -> swells a = true -> write_action a = Ok o ->
  In (length q) [8; 10; 12; 14]%nat -> q ++ bits_of_bytes (b :: l) <> o ++ s.
Proof.
  intros Hb G Sw Hw Hq H.
  assert (Ho : (if late then part 2 6 b else part 0 6 b) < 64) by (destruct late; unfold part; apply N.mod_lt; discriminate).
  destruct (swell_op _ _ _ _ Ho G Sw) as (c & Hc & D). clear G. set (op := if late then part 2 6 b else part 0 6 b) in *.
  assert (Hop : In op [4; 5; 32]) by (cbn [In] in *; destruct Hc as [Hc|[Hc|[Hc|[]]]]; injection Hc as <- _; auto).
  assert (Ef : first_byte_bits b late op) by (unfold first_byte_bits, op; destruct late; reflexivity).
  clearbody op. unfold dec_file_data in D. apply then_inv in D as (b' & l1 & Q & D). injection Q as <- <-.
  apply then_inv in D as (fo & l2 & Q1 & D). apply then_inv in D as (n & l3 & Q2 & D). apply then_inv in D as (f & l4 & Q3 & D). injection D as <- <-.
  unfold dec_file_offset in Q1. apply then_inv in Q1 as (id0 & m1 & Q & Q1). destruct l as [|id l]; [discriminate|]. injection Q as <- <-.
  apply then_inv in Q1 as (off & m2 & Q & Q1). injection Q1 as <- <-. cbn [fo_file_id] in Q3.
  pose proof Hb as Hl. apply Forall_cons_iff in Hl as (Hb0 & Hl). apply Forall_cons_iff in Hl as (Hid & Hl).
  set (v := mkFileData (dec_header b) op (mkFileOffset id off) f).
  assert (Wv : wf_file_data op v /\ big_file f = true).
  { set (b' := hdr_byte (dec_header b) op).
    assert (P : part 0 6 b' = op).
    { unfold b', dec_header. destruct (flag 7 b), (flag 6 b); cbn [In] in Hop; destruct Hop as [Z|[Z|[Z|[]]]]; rewrite <- Z; reflexivity. }
    assert (Hh : dec_header b' = dec_header b).
    { unfold b', dec_header. destruct (flag 7 b), (flag 6 b); cbn [In] in Hop; destruct Hop as [Z|[Z|[Z|[]]]]; rewrite <- Z; reflexivity. }
    assert (B' : byte b').
    { unfold b', dec_header. destruct (flag 7 b), (flag 6 b); cbn [In] in Hop; destruct Hop as [Z|[Z|[Z|[]]]]; rewrite <- Z; reflexivity. }
    assert (D1 : dec_action (b' :: id :: l) = Some (c v, l4)).
    { unfold dec_action. rewrite P. replace (dec_operand op (b' :: id :: l)) with (dec_file_data c (b' :: id :: l)).
      - unfold dec_file_data, dec_file_offset, andthen, one, give. rewrite Q, Q2. cbn [fo_file_id]. rewrite Q3, Hh, P. reflexivity.
      - cbn [In] in Hc. destruct Hc as [Hc|[Hc|[Hc|[]]]]; injection Hc as <- <-; reflexivity. }
    destruct (dec_parsed _ _ _ ltac:(constructor; [exact B'|constructor; [exact Hid|exact Hl]]) D1) as (P1 & _).
    cbn [In] in Hc. destruct Hc as [Hc|[Hc|[Hc|[]]]]; injection Hc as <- <-;
    (destruct P1 as [P1|[(p & P1 & _)|(_ & w & P1 & _)]]; [|discriminate P1|discriminate P1]; split; [exact P1|exact Sw]). }
  destruct Wv as (Wv & Bf). pose proof (W_file_data op v Ho Wv) as (Wo & _).
  assert (write_action (c (mkFileData (dec_header b) (part 0 6 b) (mkFileOffset id off) f)) = write_file_data op v) as Ew
    by (cbn [In] in Hc; destruct Hc as [Hc|[Hc|[Hc|[]]]]; injection Hc as Z1 Z2; rewrite <- Z1, <- Z2; reflexivity).
  rewrite Ew, Wo in Hw. assert (o = bits_of_bytes (enc_file_data op v)) as -> by congruence. destruct Wv as (_ & (_ & Hoff) & Wf). cbn [fd_offset fo_offset fd_data v] in *.
  assert (En : enc_file_data op v = hdr_byte (dec_header b) op ::
    (id :: enc_length off ++ enc_length (N.of_nat (length (enc_file f))) ++ enc_file f)) by reflexivity.
  rewrite En, (bits_of_bytes_cons (hdr_byte _ _)) in H.
  assert (exists q1 q2, q = q1 ++ q2 /\ length q1 = 8%nat /\ In (length q2) [0; 2; 4; 6]%nat) as (q1 & q2 & -> & L1 & L2).
  { exists (firstn 8 q), (skipn 8 q). split; [symmetry; apply firstn_skipn|]. rewrite firstn_length, skipn_length. cbn [In] in *. split; lia. }
  rewrite <- !app_assoc in H. apply app_inj_length in H as (_ & H); [|rewrite L1, bits_of_length; reflexivity].
  symmetry in H.
  exact (file_stuck b l id off n f _ _ late op q2 s _ Hop Hb Ef Q Q3 Wf Bf Hoff L2 H).
Qed.

(** ** Commands *)
Lemma lag {E : Env} k : forall late r c rest q pad o, bytes r -> dec_actions k late r = Some (c, rest) -> write_command c = Ok o ->
  (8 <= length q)%nat -> Nat.Even (length q) -> (length pad < 8)%nat -> q ++ bits_of_bytes r <> o ++ pad.
Proof.
  induction k as [|k IH]; intros late r c rest q pad o Hr D Hw Hq Ev Hp H; cbn [dec_actions] in D.
  - destruct r; [|discriminate]. destruct late; [discriminate|]. injection D as <- _. cbn in Hw. injection Hw as <-.
    apply (f_equal (@length bool)) in H. rewrite !app_length in H. cbn in H. lia.
  - destruct r as [|b l].
    { destruct late; [discriminate|]. injection D as <- _. cbn in Hw. injection Hw as <-.
      apply (f_equal (@length bool)) in H. rewrite !app_length in H. cbn in H. lia. }
    destruct (dec_operand _ _) as [[a r1]|] eqn:G; [|discriminate].
    destruct (operand_suffix b l late a r1 Hr G) as (p & Hp1).
    destruct (operand_size _ _ _ _ Hr G) as (B1 & Sz).
    assert (exists c', c = a :: c' /\ (is_indirect a = true /\ c' = [] \/ dec_actions k (is_tx a) r1 = Some (c', rest))) as (c' & -> & Hc').
    { destruct (is_indirect a); [injection D as <- <-; eauto|].
      destruct (dec_actions k (is_tx a) r1) as [[c' r']|]; [|discriminate]. injection D as <- <-. eauto. }
    clear D. unfold write_command in Hw. cbn [write_list] in Hw. unfold wseq in Hw.
    destruct (write_action a) as [oa| |] eqn:Wa; try discriminate. cbn [rbind] in Hw.
    destruct (write_list write_action c') as [oc| |] eqn:Wc; try discriminate. cbn [rbind] in Hw. injection Hw as <-.
    assert (La : length oa = (8 * size_of a + odd_bits a)%nat).
    { destruct (unwritable_dec a) as [U1|U1]; [|destruct (write_bits a U1) as (x & X1 & X2); congruence].
      pose proof (action_fails a) as (F1 & _). specialize (F1 U1). unfold action_to_bytes, to_bytes in F1. rewrite Wa in F1. discriminate. }
    assert (Hodd : odd_bits a = if is_tx_status a then 6%nat else 0%nat) by (destruct a; reflexivity).
    assert (Lr : length (bits_of_bytes p) = (8 * length (b :: l) - 8 * length r1)%nat).
    { rewrite Hp1, app_length, bits_of_bytes_length. lia. }
    assert (Big : (length oa <= length q + length (bits_of_bytes p) - 8)%nat).
    { destruct (swells a) eqn:Sw; [|destruct (is_tx_status a); lia].
      assert (Tx : is_tx_status a = false) by (destruct a; try discriminate Sw; reflexivity). rewrite Tx in *.
      destruct (Nat.leb_spec 16 (length q)) as [L|L]; [lia|]. exfalso.
      rewrite <- app_assoc in H. refine (swell_stuck b l late a r1 oa q _ Hr G Sw Wa _ H).
      destruct Ev as (h & Eh). cbn [In]. lia. }
    rewrite Hp1, bits_of_bytes_app, (app_assoc q), <- (app_assoc oa) in H.
    assert (exists q', q ++ bits_of_bytes p = oa ++ q' /\ q' ++ bits_of_bytes r1 = oc ++ pad) as (q' & E1 & E2).
    { exists (skipn (length oa) (q ++ bits_of_bytes p)).
      rewrite <- (firstn_skipn (length oa) (q ++ bits_of_bytes p)) in H. rewrite <- app_assoc in H.
      apply app_inj_length in H as (H1 & H2).
      - split; [transitivity (firstn (length oa) (q ++ bits_of_bytes p) ++ skipn (length oa) (q ++ bits_of_bytes p)); [symmetry; apply firstn_skipn|f_equal; exact H1]|exact H2].
      - rewrite firstn_length, app_length. lia. }
    assert (Lq : length q' = (length q + length (bits_of_bytes p) - length oa)%nat).
    { apply (f_equal (@length bool)) in E1. rewrite !app_length in E1. lia. }
    destruct Hc' as [(_ & ->)|Hc'].
    + cbn in Wc. injection Wc as <-. apply (f_equal (@length bool)) in E2. rewrite !app_length in E2. cbn [length] in E2. lia.
    + refine (IH _ r1 c' rest q' pad oc B1 Hc' Wc _ _ Hp E2); [lia|].
      destruct Ev as (h & Eh). rewrite Lq, La, Lr, Eh, Hodd. exists (h + 4 * (length (b :: l) - length r1) - (4 * size_of a + if is_tx_status a then 3 else 0))%nat.
      destruct (is_tx_status a); lia.
Qed.
Lemma padding l : exists p, (length p < 8)%nat /\ bits_of_bytes (bytes_of_bits l) = l ++ p.
Proof.
  induction l as [l Hl|x l Hx IH] using octet_ind.
  - destruct l as [|b1 [|b2 [|b3 [|b4 [|b5 [|b6 [|b7 [|b8 l]]]]]]]]; cbn [length] in Hl; try lia.
    1: exists []; split; [cbn; lia|reflexivity].
    all: cbn [bytes_of_bits bits_of_bytes]; rewrite app_nil_r;
      match goal with |- context [N_of_bits ?y] => change 8%nat with (length y); rewrite bits_of_N_of_bits end.
    all: match goal with |- exists p, _ /\ ?y = ?z ++ p => exists (skipn (length z) y) end; split; [cbn; lia|reflexivity].
  - destruct IH as (p & Hp & IH). exists p. split; [exact Hp|]. rewrite bytes_of_bits_cons8 by exact Hx.
    rewrite bits_of_bytes_cons, IH, app_assoc. f_equal. rewrite <- Hx at 1. rewrite bits_of_N_of_bits. reflexivity.
Qed.
Lemma never_behind {E : Env} k late r c rest q : bytes r -> dec_actions k late r = Some (c, rest) -> q <> [] -> command_to_bytes c <> Ok (q ++ r).
Proof.
  intros Hb D Hq H. unfold command_to_bytes, to_bytes in H. destruct (write_command c) as [o| |] eqn:Hw; try discriminate. cbn [rbind] in H.
  injection H as H. destruct (padding o) as (p & Hp & Hpad). rewrite H, bits_of_bytes_app in Hpad.
  refine (lag k late r c rest (bits_of_bytes q) p o Hb D Hw _ _ Hp Hpad); rewrite bits_of_bytes_length.
  - destruct q; [congruence|cbn [length]; lia].
  - exists (4 * length q)%nat. lia.
Qed.

(** ** What comes back unchanged *)
Lemma strict_of_dec_any {E : Env} k : forall d c rest, bytes d -> dec_actions k false d = Some (c, rest) ->
  command_to_bytes c = Ok d -> strict_actions k d = Some c.
Proof.
  induction k as [|k IH]; intros d c rest Hd H Hw.
  - destruct d; [|discriminate]. cbn in H. injection H as <- _. reflexivity.
  - destruct d as [|b l]; [cbn in H; injection H as <- _; reflexivity|].
    cbn [dec_actions] in H. change (dec_operand (part 0 6 b) (b :: l)) with (dec_action (b :: l)) in H.
    pose proof (canon_action (b :: l) Hd) as C. cbn [strict_actions].
    destruct (dec_action (b :: l)) as [[a rest1]|] eqn:D; [|discriminate].
    destruct (dec_parsed _ a rest1 Hd D) as [P B].
    assert (exists c', c = a :: c' /\ (is_indirect a = true /\ c' = [] \/ is_indirect a = false /\
        exists r', dec_actions k (is_tx a) rest1 = Some (c', r'))) as (c' & -> & Hc').
    { destruct (is_indirect a) eqn:Ei.
      - injection H as <- _. exists []. split; [reflexivity|]. left. split; reflexivity.
      - destruct (dec_actions k (is_tx a) rest1) as [[c' r']|]; [|discriminate]. injection H as <- _. exists c'.
        split; [reflexivity|]. right. split; [reflexivity|]. exists r'. reflexivity. }
    clear H. destruct C as [(Ct & _)|(Ct & Ce & C)].
    + destruct (is_tx_inv a Ct) as (v & ->). destruct (command_tx v c' _ Hw) as (t & Ht). injection Ht as -> ->.
      unfold dec_action in D. change (part 0 6 64) with 0 in D. apply operand_tx in D; [discriminate|reflexivity].
    + rewrite (command_cons a c' (parsed_W a P Ct)) in Hw. rewrite Ct in Hc'.
      destruct (command_to_bytes c') as [d'| |] eqn:Hw'; try discriminate. injection Hw as Hw.
      assert (d' = rest1) as ->.
      { destruct (Ce d' ltac:(symmetry; exact Hw)) as [G|(_ & G)]; [exact G|]. exfalso.
        destruct (operand_suffix b l false a rest1 Hd D) as (p & Hp). rewrite Hp in Hw.
        assert (exists q, d' = q ++ rest1 /\ q <> []) as (q & -> & Hq).
        { exists (firstn (length d' - length rest1) d'). split.
          - rewrite <- (firstn_skipn (length d' - length rest1) d') at 1. f_equal.
            apply (f_equal (@rev N)) in Hw. rewrite !rev_app_distr in Hw.
            apply (f_equal (firstn (length rest1))) in Hw. rewrite !firstn_app, !rev_length in Hw.
            replace (length rest1 - length d')%nat with 0%nat in Hw by lia. rewrite Nat.sub_diag in Hw. cbn [firstn] in Hw. rewrite !app_nil_r in Hw.
            rewrite (firstn_all2 (rev rest1)) in Hw by (rewrite rev_length; lia). rewrite firstn_rev in Hw.
            apply (f_equal (@rev N)) in Hw. rewrite !rev_involutive in Hw. exact Hw.
          - intros Q. apply (f_equal (@length N)) in Q. rewrite firstn_length in Q. cbn in Q. lia. }
        destruct Hc' as [(_ & ->)|(_ & r' & H)].
        - cbn in Hw'. injection Hw' as Q. destruct q; [congruence|discriminate].
        - exact (never_behind k false rest1 c' r' q B H Hq Hw'). }
      destruct C as [(-> & _)|(_ & C)]; [|congruence].
      destruct rest1 as [|b1 l1].
      * destruct Hc' as [(_ & ->)|(_ & r' & H)]; [reflexivity|]. destruct k; cbn in H; injection H as <- _; reflexivity.
      * destruct Hc' as [(Ei & ->)|(Ei & r' & H)]; [discriminate Hw'|]. rewrite Ei.
        rewrite (IH _ c' r' B H Hw'). reflexivity.
Qed.
Lemma canonical_command_any {E : Env} d c : bytes d ->
  (command_try_from d = Ok c /\ command_to_bytes c = Ok d <-> strict_command d = Some c).
Proof.
  intros Hd. pose proof (decode_command_try_from d Hd) as T. split.
  - intros [H1 H2]. destruct (dec_command d) as [[c' rest]|] eqn:D; [|destruct T as [e T]; congruence].
    assert (c' = c) by (destruct (Nat.leb _ _); congruence). subst c'.
    exact (strict_of_dec_any (length d) d c rest Hd D H2).
  - intros H. destruct (dec_of_strict (length d) d c Hd H) as (D & H2 & Hn). split; [|exact H2].
    unfold dec_command in T. rewrite D in T. rewrite Hn in T. exact T.
Qed.
