(** Lemmas for C92. *)
From Coq Require Import List NArith ZArith Bool Lia Arith.
From Verif Require Import Base Deku Utils Types Physical Link Network Session Data Query Interface File
  Operation Action Command Frames Position WellFormed SpecApi SpecPutBack LBits LReader LAction LActionApi SpecDecode LDecodeLoop.
Import ListNotations.
Open Scope N_scope.

(** ** Bits left over *)
Lemma bits_read n r l r' : read_bits n r = Ok (l, r') -> (length (left r) < 8)%nat -> (n <= 8)%nat ->
  r' = adv r n /\ length (left r') = (if Nat.leb n (length (left r)) then length (left r) - n else length (left r) + 8 - n)%nat.
Proof.
  unfold read_bits. destruct (Nat.leb_spec (pos r + need r n) (length (data r))) as [H|H]; [|discriminate].
  intros K L M. assert (r' = adv r n) by congruence. subst r'. split; [reflexivity|].
  unfold adv. cbn [left]. rewrite skipn_length, app_length, bits_of_bytes_length, firstn_length, skipn_length.
  pose proof (need_bounds r n). destruct (Nat.leb_spec n (length (left r))); lia.
Qed.
Lemma uint_read n r v r' : read_uint n r = Ok (v, r') -> exists l, read_bits n r = Ok (l, r') /\ v = N_of_bits l.
Proof.
  unfold read_uint, bind. destruct (read_bits n r) as [[l r1]| |]; try discriminate. intros K. exists l.
  unfold ret in K. split; congruence.
Qed.
Lemma uint_left n r v r' : read_uint n r = Ok (v, r') -> (length (left r) < 8)%nat -> (n <= 8)%nat ->
  length (left r') = (if Nat.leb n (length (left r)) then length (left r) - n else length (left r) + 8 - n)%nat.
Proof. intros H L M. destruct (uint_read n r v r' H) as (l & K & _). exact (proj2 (bits_read _ _ _ _ K L M)). Qed.
Lemma bool_left r v r' : read_bool r = Ok (v, r') -> (length (left r) < 8)%nat ->
  length (left r') = (if Nat.leb 1 (length (left r)) then length (left r) - 1 else length (left r) + 7)%nat.
Proof.
  unfold read_bool, bind. destruct (read_uint 1 r) as [[x r1]| |] eqn:K; try discriminate. intros H L.
  assert (r1 = r') by (unfold ret in H; congruence). subst r1. rewrite (uint_left _ _ _ _ K L) by lia.
  destruct (Nat.leb 1 (length (left r))); lia.
Qed.
Lemma skip_left n r v r' : skip_bits n r = Ok (v, r') -> (length (left r) < 8)%nat -> (n <= 8)%nat ->
  length (left r') = (if Nat.leb n (length (left r)) then length (left r) - n else length (left r) + 8 - n)%nat.
Proof.
  unfold skip_bits, bind. destruct (read_bits n r) as [[l r1]| |] eqn:K; try discriminate. intros H L M.
  assert (r1 = r') by (unfold ret in H; congruence). subst r1. exact (proj2 (bits_read _ _ _ _ K L M)).
Qed.
Lemma enum_left {A} n (f : N -> option A) r v r' : read_enum n f r = Ok (v, r') -> (length (left r) < 8)%nat -> (n <= 8)%nat ->
  length (left r') = (if Nat.leb n (length (left r)) then length (left r) - n else length (left r) + 8 - n)%nat.
Proof.
  unfold read_enum, bind. destruct (read_uint n r) as [[x r1]| |] eqn:K; try discriminate. intros H L M.
  assert (r1 = r') by (destruct (f x); [unfold ret in H; congruence|discriminate H]). subst r1. exact (uint_left _ _ _ _ K L M).
Qed.
Lemma u8_again r x r' : left r = [] -> read_u8 r = Ok (x, r') -> seek_last_read8 r' = Ok (tt, r) /\ left r' = [].
Proof.
  intros L H. destruct (uint_read 8 r x r' H) as (l & K & _). destruct (bits_read 8 r l r' K) as (-> & M); [rewrite L; cbn; lia|lia|].
  rewrite L in M. cbn in M. apply length_zero_iff_nil in M. split; [|exact M].
  unfold seek_last_read8, adv. cbn [pos data bread]. pose proof (need_bounds r 8) as N8. rewrite L in N8. cbn [length] in N8.
  assert (need r 8 = 1%nat) as -> by lia. rewrite Nat.add_1_r. replace (bread r + 8 - 8)%nat with (bread r) by lia.
  destruct r as [d p l' n]. cbn in *. subst l'. reflexivity.
Qed.
Lemma id_field_same E r x r' : left r = [] -> read_u8 r = Ok (x, r') -> forall b, read_id_field (E := deku b E) x r' = Ok (x, r').
Proof.
  intros L H b. destruct (u8_again r x r' L H) as (S' & _). unfold read_id_field, bind. cbn [deku e_rewind].
  destruct b; [|reflexivity]. rewrite S'. exact H.
Qed.

(** ** The same result from a byte boundary on *)
Lemma config_same E b b' r : left r = [] -> read_interface_config (E := deku b E) r = read_interface_config (E := deku b' E) r.
Proof.
  intros L. unfold read_interface_config, bind. destruct (read_u8 r) as [[x r']| |] eqn:K; [|reflexivity..].
  cbn [assoc]. repeat (match goal with |- context [if ?t then _ else _] => destruct t; [reflexivity|] end).
  rewrite !(id_field_same E r x r' L K). reflexivity.
Qed.
Lemma indirect_same E b b' r : left r = [] -> read_indirect_interface (E := deku b E) r = read_indirect_interface (E := deku b' E) r.
Proof.
  intros L. unfold read_indirect_interface, bind. destruct (read_u8 r) as [[x r']| |] eqn:K; [|reflexivity..].
  cbn [assoc]. repeat (match goal with |- context [if ?t then _ else _] => destruct t; [reflexivity|] end).
  rewrite !(id_field_same E r x r' L K). reflexivity.
Qed.
Lemma no_left (r : rd) : length (left r) = 0%nat -> left r = [].
Proof. apply length_zero_iff_nil. Qed.
Lemma forward_same E b b' r : left r = [] -> read_forward (E := deku b E) r = read_forward (E := deku b' E) r.
Proof.
  intros L. unfold read_forward. unfold bind at 1 5. destruct (skip_bits 1 r) as [[[] r1]| |] eqn:K1; [|reflexivity..].
  unfold bind at 1 4. destruct (read_bool r1) as [[v r2]| |] eqn:K2; [|reflexivity..].
  unfold bind at 1 3. destruct (read_opcode r2) as [[o r3]| |] eqn:K3; [|reflexivity..].
  apply skip_left in K1; [|rewrite L; cbn; lia|lia]. rewrite L in K1. cbn in K1.
  apply bool_left in K2; [|lia]. rewrite K1 in K2. cbn in K2.
  apply uint_left in K3; [|lia|lia]. rewrite K2 in K3. cbn in K3. apply no_left in K3.
  unfold bind. rewrite (config_same E b b' r3 K3). reflexivity.
Qed.
Lemma indirect_forward_same E b b' r : left r = [] -> read_indirect_forward (E := deku b E) r = read_indirect_forward (E := deku b' E) r.
Proof.
  intros L. unfold read_indirect_forward. unfold bind at 1 5. destruct (read_bool r) as [[w r1]| |] eqn:K1; [|reflexivity..].
  unfold bind at 1 4. destruct (read_bool r1) as [[v r2]| |] eqn:K2; [|reflexivity..].
  unfold bind at 1 3. destruct (read_opcode r2) as [[o r3]| |] eqn:K3; [|reflexivity..].
  apply bool_left in K1; [|rewrite L; cbn; lia]. rewrite L in K1. cbn in K1.
  apply bool_left in K2; [|lia]. rewrite K1 in K2. cbn in K2.
  apply uint_left in K3; [|lia|lia]. rewrite K2 in K3. cbn in K3. apply no_left in K3.
  destruct w; [|reflexivity]. unfold read_cond, bind. rewrite (indirect_same E b b' r3 K3). reflexivity.
Qed.

(** ** Statuses *)
Lemma type_known E b b' r t r' : read_interface_type (E := deku b E) r = Ok (t, r') -> t <> ItUnknown ->
  read_interface_type (E := deku b' E) r = Ok (t, r').
Proof.
  unfold read_interface_type, bind. destruct (read_u8 r) as [[x r1]| |]; try discriminate.
  destruct (assoc x interface_type_tbl) as [v|]; [auto|]. intros H U. exfalso. apply U.
  destruct (read_id_unit r1) as [[[] r2]| |]; try discriminate. unfold ret in H. congruence.
Qed.
Lemma status_known E b b' r v r' : read_status_operand (E := deku b E) r = Ok (v, r') -> of_unknown_interface (AStatus v) = false ->
  read_status_operand (E := deku b' E) r = Ok (v, r').
Proof.
  unfold read_status_operand. unfold bind at 1 4. destruct (read_status_type r) as [[t r1]| |]; try discriminate.
  unfold bind at 1 3. destruct (read_opcode r1) as [[o r2]| |]; try discriminate.
  destruct t; [exact (fun H _ => H)| |exact (fun H _ => H)]. unfold read_status, read_itf_status_op, bind.
  destruct (read_interface_type (E := deku b E) r2) as [[t r3]| |] eqn:K; try discriminate.
  intros H U. assert (T : t <> ItUnknown).
  { intros ->. destruct (read_length r3) as [[n r4]| |]; try discriminate.
    destruct (read_interface_status (E := deku b E) ItUnknown n r4) as [[s r5]| |]; try discriminate.
    unfold ret in H. assert (v = mkStatusOperand StInterface o (StatusInterface (mkItfStatusOp ItUnknown s))) by congruence.
    subst v. discriminate U. }
  rewrite (type_known E b b' r2 t r3 K T). exact H.
Qed.

(** ** Actions, commands and frames *)
Lemma back_left r u r' : seek_back1 r = Ok (u, r') -> left r' = [].
Proof. unfold seek_back1. destruct (pos r); intros H; assert (E : forall x y : rd, Ok (tt, x) = Ok (u, y) -> x = y) by congruence; apply E in H; subst r'; reflexivity. Qed.
Definition agree (p q : N * reader action) : Prop :=
  fst p = fst q /\ (fst p <> 34 -> forall r, left r = [] -> snd p r = snd q r).
Lemma agree_same n m : agree (n, m) (n, m).
Proof. split; reflexivity. Qed.
Lemma agree_map {A} n (m m' : reader A) (f : A -> action) : (forall r, left r = [] -> m r = m' r) ->
  agree (n, v <- m ;; ret (f v)) (n, v <- m' ;; ret (f v)).
Proof. intros H. split; [reflexivity|]. intros _ r L. cbn [snd]. unfold bind. rewrite H by exact L. reflexivity. Qed.
Lemma agree_34 m m' : agree (34, m) (34, m').
Proof. split; [reflexivity|]. intros H. destruct H. reflexivity. Qed.
Lemma file_id_same E b b' x : file_id_try_from (E := deku b E) x = file_id_try_from (E := deku b' E) x.
Proof.
  assert (H : forall c, file_id_try_from (E := deku c E) x = Ok (file_id_of (N_of_bits (bits_of 8 x)))).
  { intros c. unfold file_id_try_from, d_from_bytes, start. cbn [Nat.eqb]. unfold read_file_id, bind. unfold read_u8.
    rewrite read_uint_ok; [|apply RWf_new|rewrite view_new, bits_of_bytes_length; cbn; lia].
    change (adv (new_reader [x]) 8) with (mkRd [x] 1 [] 8). rewrite view_new.
    assert (F : firstn 8 (bits_of_bytes [x]) = bits_of 8 x) by reflexivity. rewrite F. clear F. set (i := file_id_of _).
    destruct (file_id_is_pat _); [|reflexivity]. unfold read_id_unit. cbn [deku e_rewind]. destruct c; reflexivity. }
  rewrite !H. reflexivity.
Qed.
Lemma file_data_same E b b' r : read_file_data (E := deku b E) r = read_file_data (E := deku b' E) r.
Proof.
  unfold read_file_data. unfold bind at 1 5. destruct (read_header r) as [[h r1]| |]; [|reflexivity..].
  unfold bind at 1 4. destruct (read_opcode r1) as [[o r2]| |]; [|reflexivity..].
  unfold bind at 1 3. destruct (read_file_offset r2) as [[f r3]| |]; [|reflexivity..].
  unfold read_file_payload, bind. destruct (read_length r3) as [[n r4]| |]; [|reflexivity..].
  rewrite (file_id_same E b b'). destruct (file_id_try_from (fo_file_id f)); reflexivity.
Qed.
Lemma readers_agree E b b' : Forall2 agree (action_readers (E := deku b E)) (action_readers (E := deku b' E)).
Proof.
  unfold action_readers. apply Forall2_app; [|apply Forall2_app].
  - do 3 (apply Forall2_cons; [apply agree_same|]).
    do 2 (apply Forall2_cons; [apply agree_map; intros; apply file_data_same|]).
    do 12 (apply Forall2_cons; [apply agree_same|]).
    apply Forall2_cons; [apply agree_map; intros; apply file_data_same|].
    repeat (apply Forall2_cons; [apply agree_same|]). apply Forall2_nil.
  - change (@is_wizzilab (deku b' E)) with (@is_wizzilab (deku b E)). destruct is_wizzilab; [|apply Forall2_nil].
    apply Forall2_cons; [apply agree_same|apply Forall2_nil].
  - do 3 (apply Forall2_cons; [apply agree_same|]). apply Forall2_cons; [apply agree_34|].
    apply Forall2_cons; [apply agree_map, forward_same|]. apply Forall2_cons; [apply agree_map, indirect_forward_same|].
    apply Forall2_cons; [apply agree_same|apply Forall2_nil].
Qed.
Lemma reader_cases E b b' code r : left r = [] -> code <> 34 ->
  match assoc code (action_readers (E := deku b E)) with Some m => m | None => fail EInvalidParam end r
  = match assoc code (action_readers (E := deku b' E)) with Some m => m | None => fail EInvalidParam end r.
Proof.
  intros L N34. induction (readers_agree E b b') as [|[n m] [n' m'] l l' (A & B) _ IH]; [reflexivity|].
  cbn [fst snd] in *. subst n'. cbn [assoc]. destruct (N.eqb_spec code n) as [-> |]; [|exact IH]. apply B; assumption.
Qed.
Lemma reader_34 E b : assoc 34 (action_readers (E := deku b E)) = Some (v <- read_status_operand (E := deku b E) ;; ret (AStatus v)).
Proof. destruct E as [[] h w]; reflexivity. Qed.
Lemma action_known E b b' r a r' : read_action (E := deku b E) r = Ok (a, r') -> of_unknown_interface a = false ->
  read_action (E := deku b' E) r = Ok (a, r').
Proof.
  unfold read_action. unfold bind at 1 4. destruct (skip_bits 2 r) as [[[] r1]| |]; try discriminate.
  unfold bind at 1 3. destruct (read_opcode r1) as [[code r2]| |]; try discriminate.
  unfold bind at 1 2. destruct (seek_back1 r2) as [[[] r3]| |] eqn:B; try discriminate. apply back_left in B.
  destruct (N.eq_dec code 34) as [-> |Hc].
  - rewrite !reader_34. unfold bind at 1 2. intros H U.
    destruct (read_status_operand (E := deku b E) r3) as [[v r4]| |] eqn:K; try discriminate.
    assert (a = AStatus v) by (unfold ret in H; congruence). subst a. rewrite (status_known E b b' r3 v r4 K U). exact H.
  - rewrite (reader_cases E b b' code r3 B Hc). auto.
Qed.
Lemma actions_prefix E b n len : forall acc r c r', read_actions (E := deku b E) n len acc r = Ok (c, r') -> exists t, c = acc ++ t.
Proof.
  induction n as [|n IH]; intros acc r c r'; cbn [read_actions]; [discriminate|]. unfold bind at 1.
  destruct (valid_length len r) as [[[] r1]| |]; try discriminate.
  - unfold bind at 1. destruct (at_end r1) as [[[] r2]| |]; try discriminate.
    + intros H. exists []. rewrite app_nil_r. unfold ret in H. congruence.
    + destruct (last_is_indirect acc); [intros H; exists []; rewrite app_nil_r; unfold ret in H; congruence|].
      unfold bind. destruct (read_action r2) as [[a r3]| |]; try discriminate. intros H.
      destruct (IH _ _ _ _ H) as (t & ->). exists (a :: t). rewrite <- app_assoc. reflexivity.
  - intros H. exists []. rewrite app_nil_r. unfold ret in H. congruence.
Qed.
Lemma none_app c t : none_unknown (c ++ t) = none_unknown c && none_unknown t.
Proof. unfold none_unknown. rewrite existsb_app. apply negb_orb. Qed.
Lemma actions_known E b b' n len : forall acc r c r', read_actions (E := deku b E) n len acc r = Ok (c, r') -> none_unknown c = true ->
  read_actions (E := deku b' E) n len acc r = Ok (c, r').
Proof.
  induction n as [|n IH]; intros acc r c r'; cbn [read_actions]; [discriminate|]. unfold bind at 1 4.
  destruct (valid_length len r) as [[[] r1]| |]; try discriminate; [|auto].
  unfold bind at 1 3. destruct (at_end r1) as [[[] r2]| |]; try discriminate; [auto|].
  destruct (last_is_indirect acc); [auto|]. unfold bind.
  destruct (read_action (E := deku b E) r2) as [[a r3]| |] eqn:K; try discriminate. intros H U.
  destruct (actions_prefix _ _ _ _ _ _ _ _ H) as (t & ->). rewrite none_app, none_app in U.
  apply andb_true_iff in U as U'. destruct U' as (U1 & _). apply andb_true_iff in U1. destruct U1 as (_ & U1).
  unfold none_unknown in U1. cbn [existsb] in U1. rewrite orb_false_r in U1. apply negb_true_iff in U1.
  rewrite (action_known E b b' r2 a r3 K U1). apply IH; [exact H|]. rewrite none_app, none_app. exact U.
Qed.
Lemma command_known E b b' len r c r' : read_command (E := deku b E) len r = Ok (c, r') -> none_unknown c = true ->
  read_command (E := deku b' E) len r = Ok (c, r').
Proof. apply actions_known. Qed.
Lemma tframe_known E b b' len r v r' : read_tframe (E := deku b E) len r = Ok (v, r') -> none_unknown (tf_command v) = true ->
  read_tframe (E := deku b' E) len r = Ok (v, r').
Proof.
  unfold read_tframe, bind.
  repeat match goal with |- match ?m with Ok _ => _ | Err _ => _ | Panic => _ end = _ -> _ =>
    lazymatch m with read_command _ _ => fail | _ => destruct m as [[? ?]| |]; try discriminate end end.
  destruct (read_command (E := deku b E) len _) as [[cc rr]| |] eqn:K; try discriminate. intros H U.
  rewrite (command_known E b b' len _ cc rr K); [exact H|]. unfold ret in H.
  assert (X : forall (x y : tframe) (p q : rd), Ok (x, p) = Ok (y, q) -> x = y) by (intros; congruence). apply X in H. subst v. exact U.
Qed.
Lemma nframe_known E b b' len r v r' : read_nframe (E := deku b E) len r = Ok (v, r') -> none_unknown (tf_command (nf_frame v)) = true ->
  read_nframe (E := deku b' E) len r = Ok (v, r').
Proof.
  unfold read_nframe, bind. change (@read_ncontrol (deku b' E)) with (@read_ncontrol (deku b E)).
  repeat match goal with |- match ?m with Ok _ => _ | Err _ => _ | Panic => _ end = _ -> _ =>
    lazymatch m with read_tframe _ _ => fail | _ => destruct m as [[? ?]| |]; try discriminate end end.
  destruct (read_tframe (E := deku b E) len _) as [[cc rr]| |] eqn:K; try discriminate. intros H U.
  assert (X : forall (x y : nframe) (p q : rd), Ok (x, p) = Ok (y, q) -> x = y) by (intros; congruence). unfold ret in H.
  rewrite (tframe_known E b b' len _ cc rr K); [exact H|]. apply X in H. subst v. exact U.
Qed.
Lemma fframe_known E b b' r v r' : read_fframe (E := deku b E) r = Ok (v, r') -> none_unknown (tf_command (nf_frame (ff_frame v))) = true ->
  read_fframe (E := deku b' E) r = Ok (v, r').
Proof.
  unfold read_fframe, bind.
  repeat match goal with |- match ?m with Ok _ => _ | Err _ => _ | Panic => _ end = _ -> _ =>
    lazymatch m with read_nframe _ _ => fail | _ => destruct m as [[? ?]| |]; try discriminate end end.
  destruct (read_nframe (E := deku b E) _ _) as [[cc rr]| |] eqn:K; try discriminate. intros H U.
  assert (X : forall (x y : fframe) (p q : rd), Ok (x, p) = Ok (y, q) -> x = y) by (intros; congruence).
  rewrite (nframe_known E b b' _ _ cc rr K); [exact H|].
  change (@read_native (deku b' E)) with (@read_native (deku b E)) in *.
  destruct (read_native (E := deku b E) 2 rr) as [[kk rq]| |]; try discriminate. unfold ret in H. apply X in H. subst v. exact U.
Qed.

(** ** Entry points *)
Lemma alike {A} (fit : A -> bool) (m : Env -> reader A) E :
  (forall b b' r v r', m (deku b E) r = Ok (v, r') -> fit v = true -> m (deku b' E) r = Ok (v, r')) -> read_alike fit m E.
Proof.
  intros H b b' d p off [[n w] q]. unfold from_stream. cbn [fst snd].
  destruct (Nat.eqb off 0).
  - destruct (m (deku b E) (mkRd d p [] 0)) as [[v r']| |] eqn:K; try discriminate. cbn [rbind]. intros X F.
    rewrite (H b b' _ v r' K); [exact X|]. cbn [fst snd] in X. assert (v = w) by congruence. subst w. exact F.
  - unfold bind. destruct (skip_bits off (mkRd d p [] 0)) as [[[] r1]| |]; try discriminate.
    destruct (m (deku b E) r1) as [[v r']| |] eqn:K; try discriminate. cbn [rbind]. intros X F.
    rewrite (H b b' _ v r' K); [exact X|]. cbn [fst snd] in X. assert (v = w) by congruence. subst w. exact F.
Qed.

Lemma alike_all E : read_alike (fun a => negb (of_unknown_interface a)) (@read_action) E /\
  (forall n, read_alike none_unknown (fun E => @read_command E n) E) /\
  read_alike (fun v => none_unknown (tf_command (nf_frame (ff_frame v)))) (@read_fframe) E /\ read_alike (fun _ => true) (@read_bframe) E.
Proof.
  split; [|split; [|split]].
  - apply alike. intros b b' r a r' H U. apply (action_known E b b' r a r' H). apply negb_true_iff. exact U.
  - intros n. apply alike. intros b b' r c r' H U. exact (command_known E b b' n r c r' H U).
  - apply alike. intros b b' r v r' H U. exact (fframe_known E b b' r v r' H U).
  - apply alike. auto.
Qed.
Lemma byte_same E b b' d p : from_stream (read_interface_config (E := deku b E)) d p 0 = from_stream (read_interface_config (E := deku b' E)) d p 0 /\
  from_stream (read_indirect_interface (E := deku b E)) d p 0 = from_stream (read_indirect_interface (E := deku b' E)) d p 0.
Proof.
  unfold from_stream. cbn [Nat.eqb]. rewrite (config_same E b b' (mkRd d p [] 0) eq_refl), (indirect_same E b b' (mkRd d p [] 0) eq_refl).
  split; reflexivity.
Qed.
Lemma payload_written E b b' f o : write_file_payload (E := deku b E) f o = write_file_payload (E := deku b' E) f o.
Proof. unfold write_file_payload. rewrite (file_id_same E b b'). reflexivity. Qed.
Lemma action_written E b b' a : write_action (E := deku b E) a = write_action (E := deku b' E) a.
Proof. destruct a; try reflexivity; cbn [write_action]; unfold write_file_data; rewrite (payload_written E b b'); reflexivity. Qed.
Lemma command_written E b b' c : write_command (E := deku b E) c = write_command (E := deku b' E) c.
Proof.
  unfold write_command. induction c as [|a c IH]; [reflexivity|]. cbn [write_list]. rewrite (action_written E b b' a), IH. reflexivity.
Qed.
Lemma fframe_written E b b' v : write_fframe (E := deku b E) v = write_fframe (E := deku b' E) v.
Proof. unfold write_fframe, write_nframe, write_tframe. rewrite (command_written E b b'). reflexivity. Qed.
Lemma written_same E b b' : (forall a, action_to_bytes (E := deku b E) a = action_to_bytes (E := deku b' E) a) /\
  (forall c, command_to_bytes (E := deku b E) c = command_to_bytes (E := deku b' E) c) /\
  (forall v, bframe_to_bytes (E := deku b E) v = bframe_to_bytes (E := deku b' E) v) /\
  (forall v, fframe_to_bytes (E := deku b E) v = fframe_to_bytes (E := deku b' E) v).
Proof.
  split; [intros a; unfold action_to_bytes; rewrite (action_written E b b'); reflexivity|].
  split; [intros c; unfold command_to_bytes; rewrite (command_written E b b'); reflexivity|].
  split; [reflexivity|]. intros v. unfold fframe_to_bytes. rewrite (fframe_written E b b'). reflexivity.
Qed.

(** ** Errors as well, for an action at the beginning *)
Lemma known_assoc {A} (tbl : list (N * A)) i : assoc i tbl = None <-> ~ In i (map fst tbl).
Proof.
  induction tbl as [|[k v] tbl IH]; cbn [assoc map fst In]; [tauto|]. destruct (N.eqb_spec i k) as [-> |H].
  - split; [discriminate|]. intros K. destruct K. left. reflexivity.
  - rewrite IH. split; [intros K [L|L]; congruence|tauto].
Qed.
Lemma status_input E b b' c tl n : byte c -> bytes tl -> c mod 64 = 34 -> ~ begins_unknown (c :: tl) ->
  read_status_operand (E := deku b E) (mkRd (c :: tl) 0 [] n) = read_status_operand (E := deku b' E) (mkRd (c :: tl) 0 [] n).
Proof.
  intros Hc Ht M U. set (r := mkRd (c :: tl) 0 [] n).
  assert (R : RWf r) by (unfold RWf, r; cbn; lia).
  assert (V : view r = bits_of 8 c ++ bits_of_bytes tl) by reflexivity.
  assert (LV : (8 <= length (view r))%nat) by (rewrite V, app_length, bits_of_length; lia).
  assert (T : N_of_bits (firstn 2 (view r)) = c / 64).
  { rewrite V, firstn_app, bits_of_length. change (2 - 8)%nat with 0%nat. cbn [firstn]. rewrite app_nil_r.
    unfold byte in Hc. revert Hc. clear. intros Hc.
    assert (F : forall k, (k < 256)%nat -> N_of_bits (firstn 2 (bits_of 8 (N.of_nat k))) = N.of_nat k / 64).
    { assert (A : forallb (fun k => N_of_bits (firstn 2 (bits_of 8 (N.of_nat k))) =? N.of_nat k / 64) (seq 0 256) = true) by (vm_compute; reflexivity).
      intros k Hk. rewrite forallb_forall in A. apply N.eqb_eq. apply A. apply in_seq. lia. }
    specialize (F (N.to_nat c) ltac:(lia)). rewrite N2Nat.id in F. exact F. }
  assert (A1 : read_status_type r = match assoc (c / 64) status_type_tbl with Some t => Ok (t, adv r 2) | None => Err EParse end).
  { unfold read_status_type, read_enum, bind. rewrite read_uint_ok by (assumption || lia). rewrite T. destruct (assoc _ _); reflexivity. }
  assert (A2 : exists o, read_opcode (adv r 2) = Ok (o, mkRd (c :: tl) 1 [] (n + 8 * 1))).
  { unfold read_opcode. rewrite read_uint_ok; [|apply RWf_adv; [assumption|lia]|rewrite view_adv, skipn_length by (assumption || lia); lia].
    rewrite adv_adv by (assumption || lia). change (2 + 6)%nat with (8 * 1)%nat. rewrite adv_aligned; [|exact R|reflexivity|lia].
    eexists. reflexivity. }
  destruct A2 as (o & A2). unfold read_status_operand. unfold bind at 1 4. rewrite A1.
  destruct (assoc (c / 64) status_type_tbl) as [t|] eqn:St; [|reflexivity]. unfold bind at 1 3. rewrite A2.
  destruct t; [reflexivity| |reflexivity].
  set (r5 := mkRd (c :: tl) 1 [] (n + 8 * 1)).
  assert (K : read_interface_type (E := deku b E) r5 = read_interface_type (E := deku b' E) r5); [|unfold read_status, read_itf_status_op, bind; rewrite K; reflexivity].
  assert (R5 : RWf r5) by (unfold RWf, r5; cbn; lia).
  unfold read_interface_type, bind. unfold read_u8.
  assert (V5 : view r5 = bits_of_bytes tl) by reflexivity.
  destruct tl as [|i l]; [rewrite read_uint_err; [reflexivity|exact R5|rewrite V5; cbn; lia]|].
  rewrite read_uint_ok; [|exact R5|rewrite V5, bits_of_bytes_length; cbn; lia].
  assert (I8 : N_of_bits (firstn 8 (view r5)) = i).
  { rewrite V5. cbn [bits_of_bytes]. rewrite firstn_app, bits_of_length, Nat.sub_diag, firstn_O, app_nil_r, firstn_all2 by (rewrite bits_of_length; lia).
    rewrite N_of_bits_bits_of. apply N.mod_small. inversion Ht; subst. assumption. }
  rewrite I8. destruct (assoc i interface_type_tbl) eqn:Ai; [reflexivity|]. exfalso. apply U. exists i, l. split.
  - f_equal. unfold byte in Hc. assert (c / 64 = 1).
    { assert (c / 64 < 4) by (apply N.div_lt_upper_bound; lia). assert (c / 64 = 0 \/ c / 64 = 1 \/ c / 64 = 2 \/ c / 64 = 3) as [Z|[Z|[Z|Z]]] by lia; rewrite Z in St |- *; cbn in St; congruence. }
    pose proof (N.div_mod' c 64). lia.
  - apply known_assoc in Ai. exact Ai.
Qed.
Lemma action_input E b b' d : bytes d -> ~ begins_unknown d ->
  read_action (E := deku b E) (new_reader d) = read_action (E := deku b' E) (new_reader d).
Proof.
  intros B U. destruct d as [|c tl]; [rewrite !(read_action_nil _ 0); [reflexivity|apply At_new|reflexivity|apply At_new|reflexivity]|].
  rewrite !(read_action_at (new_reader (c :: tl)) 0 c tl (At_new _) eq_refl). cbn [new_reader data bread]. change (0 + 8)%nat with 8%nat.
  inversion B as [|x l Bc Bl]; subst. destruct (N.eq_dec (c mod 64) 34) as [M|M].
  - rewrite M, !reader_34. unfold bind. rewrite (status_input E b b' c tl 8 Bc Bl M U). reflexivity.
  - pose proof (reader_cases E b b' (c mod 64) (mkRd (c :: tl) 0 [] 8) eq_refl M) as K.
    destruct (assoc (c mod 64) (action_readers (E := deku b E))), (assoc (c mod 64) (action_readers (E := deku b' E))); exact K.
Qed.
Lemma action_input_all E b b' d : bytes d -> ~ begins_unknown d ->
  action_from_bytes (E := deku b E) d 0 = action_from_bytes (E := deku b' E) d 0 /\
  action_try_from (E := deku b E) d = action_try_from (E := deku b' E) d.
Proof.
  intros B U. unfold action_from_bytes, action_try_from. rewrite !u_from_bytes_0, !u_try_from_eq, (action_input E b b' d B U).
  split; reflexivity.
Qed.
(** An id that is put back is read once more. *)
Lemma doubled_decoded E i l : unknown_interface i ->
  dec_action (E := deku true E) (98 :: i :: l) = dec_action (E := deku false E) (98 :: i :: i :: l).
Proof.
  intros U. unfold unknown_interface in U. cbn [In] in U. unfold dec_action. change (part 0 6 98) with 34.
  assert (K : dec_itf_status (E := deku true E) (i :: l) = dec_itf_status (E := deku false E) (i :: i :: l)).
  { unfold dec_itf_status, andthen, one. cbn [deku e_rewind].
    destruct (N.eqb_spec i 0); [exfalso; subst i; tauto|]. destruct (N.eqb_spec i 1); [exfalso; subst i; tauto|]. destruct (N.eqb_spec i 0xD7); [exfalso; subst i; tauto|].
    destruct (N.eqb_spec i 2); [exfalso; subst i; tauto|]. destruct (N.eqb_spec i 3); [exfalso; subst i; tauto|]. cbn [orb]. reflexivity. }
  cbn [dec_operand]. unfold andthen at 1 4. cbn [one]. change (part 6 2 98) with 1. change (part 0 6 98) with 34.
  unfold andthen at 1 3. unfold named at 1 2. cbn. unfold andthen. rewrite K. reflexivity.
Qed.
Lemma doubled E i l x : byte i -> bytes l -> unknown_interface i ->
  (action_from_bytes (E := deku true E) (98 :: i :: l) 0 = Ok x <-> action_from_bytes (E := deku false E) (98 :: i :: i :: l) 0 = Ok x).
Proof.
  intros Hi Hl U. pose proof (doubled_decoded E i l U) as D.
  assert (B : bytes (98 :: i :: l)) by (constructor; [unfold byte; lia|constructor; assumption]).
  assert (B' : bytes (98 :: i :: i :: l)) by (constructor; [unfold byte; lia|constructor; [|constructor]; assumption]).
  pose proof (decode_action_from_bytes (E := deku true E) _ B) as P. pose proof (decode_action_from_bytes (E := deku false E) _ B') as Q.
  rewrite <- D in Q. destruct (dec_action (E := deku true E) (98 :: i :: l)) as [[a rest]|].
  - rewrite P, Q. tauto.
  - destruct P as (e & ->), Q as (e' & ->). split; discriminate.
Qed.
