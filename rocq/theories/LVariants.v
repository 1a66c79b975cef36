(** Lemmas for C52. *)
From Coq Require Import List NArith ZArith Bool Lia Arith ZifyBool ZifyNat ZifyN.
From Verif Require Import Base Deku Utils Types Physical Link Network Session Data Query Interface File
  Operation Action Command WellFormed SpecApi SpecLayout SpecDecode SpecVariants LBits LReader LHost LCommandApi LDecodeLoop.
Import ListNotations.
Open Scope N_scope.

(** ** Writing *)
Definition WV (a b : writer) (P : Prop) : Prop :=
  match a, b with
  | Ok x, Ok y => length x = length y /\ (x = y <-> P)
  | Err e, Err f => e = f
  | Panic, Panic => True
  | _, _ => False
  end.
Lemma WV_same w : WV w w True.
Proof. destruct w; cbn; [|reflexivity|exact I]. split; [reflexivity|]. split; [constructor|reflexivity]. Qed.
Lemma WV_iff a b P Q : WV a b P -> (P <-> Q) -> WV a b Q.
Proof. unfold WV. destruct a, b; tauto. Qed.
Lemma WV_seq a b c d P Q : WV a b P -> WV c d Q -> WV (a +++ c) (b +++ d) (P /\ Q).
Proof.
  unfold WV, wseq. destruct a as [x| |], b as [y| |]; cbn [rbind]; try tauto.
  destruct c as [x'| |], d as [y'| |]; cbn [rbind]; try tauto.
  intros [L1 H1] [L2 H2]. rewrite !app_length. split; [lia|]. rewrite <- H1, <- H2. split.
  - intros H. assert (x = y).
    { rewrite <- (firstn_all2 (n := length x) x), <- (firstn_all2 (n := length x) y) by lia.
      apply (f_equal (firstn (length x))) in H. rewrite !firstn_app in H.
      replace (length x - length x)%nat with O in H by lia. replace (length x - length y)%nat with O in H by lia.
      cbn [firstn] in H. rewrite !app_nil_r in H. exact H. }
    subst y. apply app_inv_head in H. auto.
  - intros [-> ->]. reflexivity.
Qed.
Lemma WV_skip w a b P : WV a b P -> WV (w +++ a) (w +++ b) P.
Proof. intros H. eapply WV_iff; [apply WV_seq; [apply WV_same|exact H]|tauto]. Qed.
Lemma WV_last a b w P : WV a b P -> WV (a +++ w) (b +++ w) P.
Proof. intros H. eapply WV_iff; [apply WV_seq; [exact H|apply WV_same]|tauto]. Qed.
Lemma bytes_of_bits_len x : forall y, length x = length y -> length (bytes_of_bits x) = length (bytes_of_bits y).
Proof.
  induction x as [x Hx|p x Hp IH] using octet_ind; intros y L.
  - do 8 (destruct x as [|? x]; [do 8 (destruct y as [|? y]; [try discriminate; reflexivity|]); discriminate|]). cbn [length] in Hx. lia.
  - rewrite app_length, Hp in L. rewrite <- (firstn_skipn 8 y).
    rewrite !bytes_of_bits_cons8 by (assumption || (rewrite firstn_length; lia)). cbn [length]. f_equal. apply IH.
    rewrite skipn_length. lia.
Qed.
Lemma WV_prefixed a b P : WV a b P -> WV (write_length_prefixed a) (write_length_prefixed b) P.
Proof.
  unfold WV at 1, write_length_prefixed, to_bytes. destruct a as [x| |], b as [y| |]; cbn [rbind]; try tauto.
  intros [L H]. rewrite (bytes_of_bits_len x y L). unfold write_buf, write_vec_u8. rewrite !write_bytes.
  apply WV_skip. cbn. rewrite !bits_of_bytes_length. rewrite (bytes_of_bits_len x y L). split; [reflexivity|].
  rewrite <- H. split; [|intros ->; reflexivity].
  intros K. apply bits_of_bytes_inj in K; try apply bytes_of_bits_bytes. apply octets_inj; assumption.
Qed.

Section Variants.
Variable E : Env.
Notation ES := (build Spec E).
Notation EI := (build Subiot E).
Notation EW := (build Wizzilab E).

Lemma WV_addressee v : WV (@write_addressee ES v) (@write_addressee EW v) (plain_addressee v).
Proof.
  unfold write_addressee. unfold is_wizzilab, write_nls_method, nls_bits, is_wizzilab. cbn [e_feat build].
  destruct v as [g t u n c a s]. unfold plain_addressee. cbn [ad_group ad_type ad_use_vid ad_nls ad_access ad_address ad_state].
  apply WV_iff with (P := (g = GcAny /\ (True /\ (u = false /\ True)))); [|tauto].
  set (R := write_access_class c +++ write_address a +++ write_nls_state s).
  assert (HR : forall w1 w2 w3 : writer, w1 +++ w2 +++ w3 +++ R = (w1 +++ w2 +++ w3) +++ R).
  { intros. unfold wseq. destruct w1; cbn [rbind]; try reflexivity. destruct w2; cbn [rbind]; try reflexivity.
    destruct w3; cbn [rbind]; try reflexivity. destruct R; cbn [rbind]; try reflexivity. rewrite !app_assoc. reflexivity. }
  apply WV_seq; [destruct g; cbn; split; try reflexivity; split; intros; (reflexivity || discriminate)|].
  apply WV_seq; [apply WV_same|].
  assert (K : WV (wnil +++ write_uint 4 (nls_method_id n)) (write_bool u +++ write_uint 3 (nls_method_id n)) (u = false)).
  { destruct u, n; cbn; split; try reflexivity; split; intros; (reflexivity || discriminate). }
  assert (A3 : forall w1 w2 : writer, w1 +++ w2 +++ R = (w1 +++ w2) +++ R).
  { intros. unfold wseq. destruct w1; cbn [rbind]; try reflexivity. destruct w2; cbn [rbind]; try reflexivity.
    destruct R; cbn [rbind]; try reflexivity. rewrite !app_assoc. reflexivity. }
  fold R. rewrite !A3. apply WV_seq; [exact K|apply WV_same].
Qed.
Lemma WV_action a : wizzilab_only a = false -> WV (@write_action ES a) (@write_action EW a) (plain_action a).
Proof.
  intros H. destruct a; try exact (WV_same _); try discriminate; cbn [write_action]; unfold plain_action; cbn [action_addressee].
  - unfold write_status_operand. do 2 apply WV_skip. cbn [wizzilab_only] in H. destruct (so_status v) as [s|i|f]; [exact (WV_same _)| |discriminate].
    cbn [write_status]. unfold write_itf_status_op. apply WV_skip. apply WV_prefixed.
    destruct (iso_status i) as [| |d|l]; try exact (WV_same _). cbn [write_interface_status]. unfold write_dash7_status.
    repeat apply WV_skip. apply WV_addressee.
  - unfold write_forward. do 3 apply WV_skip. destruct (fw_config v); try exact (WV_same _). cbn [write_interface_config].
    apply WV_skip. unfold write_dash7_config. do 2 apply WV_skip. apply (WV_skip (write_varint (dc_exec_delay c))). apply WV_addressee.
  - unfold write_indirect_forward. do 3 apply WV_skip. destruct (if_config v) as [[| |x|i]|]; try exact (WV_same _).
    cbn [write_opt write_indirect_interface]. apply WV_skip. apply WV_addressee.
Qed.
Lemma WV_command c : Forall (fun a => wizzilab_only a = false) c ->
  WV (@write_command ES c) (@write_command EW c) (Forall plain_action c).
Proof.
  intros H. unfold write_command. induction H as [|a c Ha Hc IH]; cbn [write_list].
  - eapply WV_iff; [apply WV_same|]. split; [constructor|reflexivity].
  - eapply WV_iff; [apply WV_seq; [apply WV_action; exact Ha|exact IH]|]. split; [intros [? ?]; constructor; assumption|].
    intros K. inversion_clear K. auto.
Qed.
Lemma WV_bytes a b P : WV a b P -> (to_bytes a = to_bytes b <-> (forall l, to_bytes a <> Ok l) \/ P).
Proof.
  unfold WV, to_bytes. destruct a as [x| |], b as [y| |]; cbn [rbind]; try tauto.
  - intros [L H]. rewrite <- H. split.
    + intros K. right. injection K as K. apply octets_inj; assumption.
    + intros [K|K]; [destruct (K _ eq_refl)|subst y; reflexivity].
  - intros <-. split; [|reflexivity]. intros _. left. discriminate.
  - split; [|reflexivity]. intros _. left. discriminate.
Qed.
Lemma subiot_action a : dash7_forward a = false -> @write_action EI a = @write_action ES a.
Proof.
  intros H. destruct a; try reflexivity. cbn [dash7_forward] in H. cbn [write_action]. unfold write_forward.
  destruct (fw_config v); try reflexivity. discriminate.
Qed.
Lemma subiot_command c : Forall (fun a => dash7_forward a = false) c -> @write_command EI c = @write_command ES c.
Proof.
  intros H. unfold write_command. induction H as [|a c Ha Hc IH]; cbn [write_list]; [reflexivity|].
  rewrite subiot_action by exact Ha. rewrite IH. reflexivity.
Qed.
End Variants.

Lemma wseq_ok a b l : a +++ b = Ok l -> exists x y, a = Ok x /\ b = Ok y /\ l = x ++ y.
Proof.
  unfold wseq. destruct a as [x| |]; cbn [rbind]; try discriminate. destruct b as [y| |]; cbn [rbind]; try discriminate.
  intros H. injection H as <-. exists x, y. auto.
Qed.
Lemma write_varint_length v l : write_varint v = Ok l -> length l = 8%nat.
Proof.
  unfold write_varint. destruct (compress _ _) as [[e m]|]; [|discriminate]. intros H. apply wseq_ok in H as (x & y & Hx & Hy & ->).
  unfold write_uint in *. assert (x = bits_of 3 e) by congruence. assert (y = bits_of 5 m) by congruence. subst.
  rewrite app_length, !bits_of_length. reflexivity.
Qed.
Lemma write_qos_length v : exists l, write_qos v = Ok l /\ length l = 8%nat.
Proof. destruct v as [s r t m]. destruct t, m; eexists; split; reflexivity. Qed.
Lemma octets4 p q r s t : length p = 8%nat -> length q = 8%nat -> length r = 8%nat -> length s = 8%nat ->
  bytes_of_bits (p ++ q ++ r ++ s ++ t) = [N_of_bits p; N_of_bits q; N_of_bits r; N_of_bits s] ++ bytes_of_bits t.
Proof. intros. rewrite !bytes_of_bits_cons8 by assumption. reflexivity. Qed.
Lemma subiot_forward (E : Env) v c l : fw_config v = IcDash7 c ->
  @action_to_bytes (build Spec E) (AForward v) = Ok l ->
  exists e, to_bytes (write_varint (dc_exec_delay c)) = Ok [e] /\ nth_error l 4 = Some e /\
    @action_to_bytes (build Subiot E) (AForward v) = Ok (firstn 4 l ++ skipn 5 l).
Proof.
  intros Hc. unfold action_to_bytes, to_bytes. cbn [write_action action_opcode]. unfold write_forward. rewrite Hc.
  cbn [write_interface_config]. unfold write_dash7_config, is_subiot. cbn [e_feat build].
  destruct (write_qos_length (dc_qos c)) as (r & -> & Lr).
  destruct (write_varint (dc_dormant c)) as [s| |] eqn:Hs; [|intros H; discriminate..].
  destruct (write_varint (dc_exec_delay c)) as [x| |] eqn:Hx; [|intros H; discriminate..].
  change (@write_addressee (build Subiot E) (dc_addressee c)) with (@write_addressee (build Spec E) (dc_addressee c)).
  destruct (@write_addressee (build Spec E) (dc_addressee c)) as [y| |]; [|intros H; discriminate..].
  apply write_varint_length in Hs. apply write_varint_length in Hx.
  set (p := false :: fw_response v :: bits_of 6 50). assert (Lp : length p = 8%nat) by reflexivity.
  set (q := bits_of 8 0xD7). assert (Lq : length q = 8%nat) by reflexivity.
  change (rbind _ _) with (Ok (bytes_of_bits (p ++ q ++ r ++ s ++ x ++ y))) at 1.
  intros H. assert (Hl : l = bytes_of_bits (p ++ q ++ r ++ s ++ x ++ y)) by congruence. clear H.
  rewrite octets4, (bytes_of_bits_cons8 x) in Hl by assumption. exists (N_of_bits x).
  cbn [rbind]. split; [rewrite <- (app_nil_r x) at 1; rewrite bytes_of_bits_cons8 by assumption; reflexivity|].
  rewrite Hl. split; [reflexivity|].
  change (rbind _ _) with (Ok (bytes_of_bits (p ++ q ++ r ++ s ++ y))). rewrite octets4 by assumption. reflexivity.
Qed.

(** ** Reading *)
Definition narrow_opt {A} (n : A -> option A) (o : option (A * list N)) : option (A * list N) :=
  match o with
  | Some (v, rest) => match n v with Some v' => Some (v', rest) | None => None end
  | None => None
  end.
Definition Nar {A} (n : A -> option A) (P W : dec A) : Prop := forall l, P l = narrow_opt n (W l).
Lemma Nar_pre {A B} n (D : dec A) (P W : A -> dec B) : (forall a, Nar n (P a) (W a)) -> Nar n (andthen D P) (andthen D W).
Proof. intros H l. unfold andthen. destruct (D l) as [[a l']|]; [apply H|reflexivity]. Qed.
Lemma Nar_last {A B} (n : A -> option A) m (g : A -> B) P W : Nar n P W -> (forall x, m (g x) = option_map g (n x)) ->
  Nar m (let* x := P in give (g x)) (let* x := W in give (g x)).
Proof.
  intros H Hg l. unfold andthen, give. rewrite H. unfold narrow_opt. destruct (W l) as [[a l']|]; [|reflexivity].
  rewrite Hg. destruct (n a); reflexivity.
Qed.
Lemma Nar_give {A} (n : A -> option A) v w : n w = Some v -> Nar n (give v) (give w).
Proof. intros H l. cbn. rewrite H. reflexivity. Qed.
Lemma Nar_none {A} (n : A -> option A) W : (forall l v r, W l = Some (v, r) -> n v = None) -> Nar n reject W.
Proof. intros H l. unfold narrow_opt. destruct (W l) as [[v r]|] eqn:Hl; [rewrite (H _ _ _ Hl)|]; reflexivity. Qed.
Lemma Nar_if {A} (n : A -> option A) (c : bool) P W P' W' : Nar n P W -> Nar n P' W' -> Nar n (if c then P else P') (if c then W else W').
Proof. destruct c; auto. Qed.
Lemma group_known c : exists g, named code_group [GcAny; GcNotEqual; GcEqual; GcGreaterThan] (part 6 2 c) = give g.
Proof.
  unfold part. assert (H : (c / 2 ^ 6) mod 2 ^ 2 < 4) by (apply N.mod_lt; discriminate).
  assert (K : (c / 2 ^ 6) mod 2 ^ 2 = 0 \/ (c / 2 ^ 6) mod 2 ^ 2 = 1 \/ (c / 2 ^ 6) mod 2 ^ 2 = 2 \/ (c / 2 ^ 6) mod 2 ^ 2 = 3) by lia.
  destruct K as [->|[->|[->| ->]]]; eexists; reflexivity.
Qed.
Lemma nls_parts c : exists x, x < 16 /\ part 0 4 c = x /\ part 0 3 c = x mod 8 /\ flag 3 c = (8 <=? x).
Proof.
  exists (part 0 4 c). unfold flag, part. change (2 ^ 0) with 1. change (2 ^ 4) with 16. change (2 ^ 3) with 8. change (2 ^ 1) with 2.
  rewrite N.div_1_r. split; [apply N.mod_lt; discriminate|]. split; [reflexivity|].
  assert (Q : c mod 8 = (c mod 16) mod 8 /\ (c / 8) mod 2 = (c mod 16) / 8) by divlia. destruct Q as [-> ->]. split; [reflexivity|].
  assert (c mod 16 < 16) by (apply N.mod_lt; discriminate). destruct (N.leb_spec 8 (c mod 16)); apply N.eqb_eq || apply N.eqb_neq; divlia.
Qed.
Lemma reject_l {A B} (k : A -> dec B) l : andthen reject k l = None.
Proof. reflexivity. Qed.
Section Readers.
Variable E : Env.
Notation ES := (build Spec E).
Notation EI := (build Subiot E).
Notation EW := (build Wizzilab E).
Lemma Nar_addressee : Nar narrow_addressee (@dec_addressee ES) (@dec_addressee EW).
Proof.
  unfold dec_addressee. cbn [e_feat build]. apply Nar_pre. intros c. apply Nar_pre. intros t.
  destruct (group_known c) as [g ->]. destruct (nls_parts c) as (x & Hx & H4 & H3 & Hf). rewrite H4, H3, Hf. clear H4 H3 Hf.
  intros l. unfold andthen at 1. cbn [give]. unfold andthen at 2. cbn [give]. revert l.
  change (Nar narrow_addressee
    (let* n := named code_nls all_nls x in let* k := one in let* a := dec_address t in let* s := dec_nls_state n in
     give (mkAddressee GcAny t false n (mkAccessClass (part 4 4 k) (part 0 4 k)) a s))
    (let* n := named code_nls all_nls (x mod 8) in let* k := one in let* a := dec_address t in let* s := dec_nls_state n in
     give (mkAddressee g t (8 <=? x) n (mkAccessClass (part 4 4 k) (part 0 4 k)) a s))).
  destruct (N.leb_spec 8 x) as [L|L].
  - replace (named code_nls all_nls x) with (@reject nls_method).
    + intros l. rewrite reject_l. unfold narrow_opt, andthen, give.
      repeat match goal with |- context [match ?d with Some _ => _ | None => _ end] =>
        lazymatch d with match _ with _ => _ end => fail | _ => destruct d as [[? ?]|]; try reflexivity end end.
    + assert (K : x = 8 \/ x = 9 \/ x = 10 \/ x = 11 \/ x = 12 \/ x = 13 \/ x = 14 \/ x = 15) by lia.
      repeat (destruct K as [K|K]; [subst x; reflexivity|]). subst x. reflexivity.
  - rewrite N.mod_small by lia. do 4 (apply Nar_pre; intros ?). apply Nar_give. reflexivity.
Qed.
(** Decoders that are the same in both builds and have no values that are narrowed. *)
Definition Fixed {A} (n : A -> option A) (W : dec A) : Prop := forall l v r, W l = Some (v, r) -> n v = Some v.
Lemma Nar_fixed {A} (n : A -> option A) (P W : dec A) : P = W -> Fixed n W -> Nar n P W.
Proof. intros -> H l. unfold narrow_opt. destruct (W l) as [[v r]|] eqn:Hl; [rewrite (H _ _ _ Hl)|]; reflexivity. Qed.
Lemma Fixed_bind {A B} n (D : dec A) (K : A -> dec B) : (forall a, Fixed n (K a)) -> Fixed n (andthen D K).
Proof. intros H l v r. unfold andthen. destruct (D l) as [[a l']|]; [apply H|discriminate]. Qed.
Lemma Fixed_give {A} (n : A -> option A) v : n v = Some v -> Fixed n (give v).
Proof. intros H l w r K. unfold give in K. congruence. Qed.
Lemma Fixed_reject {A} (n : A -> option A) : Fixed n reject.
Proof. intros l w r. discriminate. Qed.
Lemma Fixed_if {A} (n : A -> option A) (c : bool) P Q : Fixed n P -> Fixed n Q -> Fixed n (if c then P else Q).
Proof. destruct c; auto. Qed.
Ltac fixed := repeat first [apply Fixed_if | apply Fixed_bind; intros ? | apply Fixed_give; reflexivity | apply Fixed_reject].

Definition narrow_dash7_config (d : dash7_config) : option dash7_config :=
  option_map (mkDash7Config (dc_qos d) (dc_dormant d) (dc_exec_delay d)) (narrow_addressee (dc_addressee d)).
Lemma Nar_dash7_config : Nar narrow_dash7_config (@dec_dash7_config ES) (@dec_dash7_config EW).
Proof.
  unfold dec_dash7_config. cbn [e_feat build]. do 3 (apply Nar_pre; intros ?). apply (Nar_last _ _ _ _ _ Nar_addressee). reflexivity.
Qed.
Lemma Nar_interface_config : Nar narrow_config (@dec_interface_config ES) (@dec_interface_config EW).
Proof.
  unfold dec_interface_config. apply Nar_pre. intros i.
  repeat apply Nar_if; try (apply Nar_fixed; [reflexivity|fixed]).
  apply (Nar_last _ _ _ _ _ Nar_dash7_config). intros x. unfold narrow_config, narrow_dash7_config.
  destruct (narrow_addressee (dc_addressee x)); reflexivity.
Qed.
Lemma Nar_indirect_interface : Nar narrow_indirect (@dec_indirect_interface ES) (@dec_indirect_interface EW).
Proof.
  unfold dec_indirect_interface. apply Nar_pre. intros i.
  repeat apply Nar_if; try (apply Nar_fixed; [reflexivity|fixed]).
  apply (Nar_last _ _ _ _ _ Nar_addressee). reflexivity.
Qed.
Lemma Nar_dash7_status : Nar narrow_dash7_status (@dec_dash7_status ES) (@dec_dash7_status EW).
Proof.
  unfold dec_dash7_status. do 8 (apply Nar_pre; intros ?). apply (Nar_last _ _ _ _ _ Nar_addressee). reflexivity.
Qed.
Lemma Nar_itf_status : Nar narrow_itf_status (@dec_itf_status ES) (@dec_itf_status EW).
Proof.
  intros l. unfold dec_itf_status. revert l.
  enough (H : forall m, Nar narrow_itf_status
   (let* i := one in
   if i =? 0 then let* n := dec_length in give (mkItfStatusOp ItHost IsHost)
   else if i =? 1 then let* n := dec_length in give (mkItfStatusOp ItSerial IsSerial)
   else if i =? 0xD7 then
     let* n := dec_length in let* s := @dec_dash7_status ES in give (mkItfStatusOp ItDash7 (IsDash7 s))
   else if (i =? 2) || (i =? 3) then reject
   else fun l' => (let* n := dec_length in let* p := some_bytes n in
                give (mkItfStatusOp ItUnknown (IsOther p))) (if @e_rewind ES then m else l'))
   (let* i := one in
   if i =? 0 then let* n := dec_length in give (mkItfStatusOp ItHost IsHost)
   else if i =? 1 then let* n := dec_length in give (mkItfStatusOp ItSerial IsSerial)
   else if i =? 0xD7 then
     let* n := dec_length in let* s := @dec_dash7_status EW in give (mkItfStatusOp ItDash7 (IsDash7 s))
   else if (i =? 2) || (i =? 3) then reject
   else fun l' => (let* n := dec_length in let* p := some_bytes n in
                give (mkItfStatusOp ItUnknown (IsOther p))) (if @e_rewind EW then m else l'))) by (intros l; apply H).
  intros m. apply Nar_pre. intros i. repeat apply Nar_if; try (apply Nar_fixed; [reflexivity|fixed]).
  apply Nar_pre. intros n. apply (Nar_last _ _ _ _ _ Nar_dash7_status). reflexivity.
Qed.
Lemma Nar_status k : Nar narrow_status (@dec_status ES k) (@dec_status EW k).
Proof.
  unfold dec_status. cbn [e_feat build]. repeat apply Nar_if; try (apply Nar_fixed; [reflexivity|fixed]).
  - apply (Nar_last _ _ _ _ _ Nar_itf_status). reflexivity.
  - apply Nar_none. intros l v r. unfold andthen, give. destruct (dec_itf_final l) as [[x y]|]; [|discriminate].
    intros H. assert (v = StatusInterfaceFinal x) by congruence. subst. reflexivity.
Qed.
Lemma Nar_operand op : Nar narrow_action (@dec_operand ES op) (@dec_operand EW op).
Proof.
  unfold dec_operand. destruct op as [|p]; [apply Nar_fixed; [reflexivity|unfold dec_nop; fixed]|].
  do 6 (try (destruct p as [p|p|]; [| |]));
  try (apply Nar_fixed; [reflexivity|unfold dec_nop, dec_file_id_op, dec_file_properties, dec_file_data, dec_action_query; fixed]).
  all: cbn [e_feat build].
  - apply Nar_pre. intros b. apply Nar_if; [|apply Nar_fixed; [reflexivity|fixed]].
    apply (Nar_last _ _ _ _ _ Nar_indirect_interface). intros x. cbn [narrow_action if_config]. destruct x; cbn [narrow_indirect]; try reflexivity.
  - apply Nar_none. intros l v r. unfold andthen, give. destruct (dec_tx l) as [[x y]|]; [|discriminate].
    intros H. assert (v = ATxStatus x) by congruence. subst. reflexivity.
  - apply Nar_pre. intros b. apply (Nar_last _ _ _ _ _ Nar_interface_config). intros x. reflexivity.
  - apply Nar_pre. intros b. apply Nar_pre. intros t. apply (Nar_last _ _ _ _ _ (Nar_status _)). reflexivity.
Qed.
Lemma Nar_action : Nar narrow_action (@dec_action ES) (@dec_action EW).
Proof. intros [|b l]; [reflexivity|]. apply Nar_operand. Qed.
Lemma narrow_kind a a' : narrow_action a = Some a' -> is_indirect a' = is_indirect a /\ is_tx a = false /\ is_tx a' = false.
Proof.
  destruct a; cbn [narrow_action]; intros H; try (assert (a' = _) by (symmetry; injection H; intros X; exact X); subst a'; repeat split; reflexivity);
    try discriminate.
  - destruct (narrow_status _); [|discriminate]. cbn in H. injection H as <-. repeat split.
  - destruct (narrow_config _); [|discriminate]. cbn in H. injection H as <-. repeat split.
  - destruct (if_config v); [destruct (narrow_indirect _); [|discriminate]|]; cbn in H; injection H as <-; repeat split.
Qed.
Lemma Nar_actions k : Nar narrow_command (@dec_actions ES k false) (@dec_actions EW k false).
Proof.
  induction k as [|k IH]; intros [|b l]; try reflexivity. cbn [dec_actions].
  rewrite Nar_operand. destruct (@dec_operand EW _ _) as [[a rest]|]; [|reflexivity]. unfold narrow_opt at 1.
  destruct (narrow_action a) as [a'|] eqn:Ha.
  - destruct (narrow_kind _ _ Ha) as (-> & Hw & Hs). rewrite Hw, Hs. destruct (is_indirect a).
    + cbn [narrow_opt narrow_command]. rewrite Ha. reflexivity.
    + rewrite IH. destruct (@dec_actions EW k false rest) as [[c r]|]; [|reflexivity]. cbn [narrow_opt narrow_command]. rewrite Ha.
      destruct (narrow_command c); reflexivity.
  - destruct (is_indirect a); [cbn [narrow_opt narrow_command]; rewrite Ha; reflexivity|].
    destruct (@dec_actions EW k (is_tx a) rest) as [[c r]|]; [|reflexivity]. cbn [narrow_opt narrow_command]. rewrite Ha. reflexivity.
Qed.
Lemma narrow_count c : forall c', narrow_command c = Some c' -> length c' = length c /\ count_tx c' = 0%nat /\ count_tx c = 0%nat.
Proof.
  unfold count_tx. induction c as [|a c IH]; cbn [narrow_command]; intros c' H; [injection H as <-; repeat split|].
  destruct (narrow_action a) as [x|] eqn:Ha; [|discriminate]. destruct (narrow_command c) as [y|]; [|discriminate].
  injection H as <-. destruct (narrow_kind _ _ Ha) as (_ & H1 & H2). destruct (IH y eq_refl) as (L & L1 & L2).
  cbn [length filter]. rewrite H1, H2, L. auto.
Qed.

Lemma wizzilab_action d : bytes d -> narrowed narrow_action (@action_from_bytes ES d 0) (@action_from_bytes EW d 0).
Proof.
  intros Hd. pose proof (@decode_action_from_bytes ES d Hd) as P. pose proof (@decode_action_from_bytes EW d Hd) as W.
  rewrite Nar_action in P. destruct (@dec_action EW d) as [[a rest]|]; cbn [narrow_opt] in P.
  - rewrite W. unfold narrowed. destruct (narrow_action a) as [a'|] eqn:Ha; [|exact P].
    destruct (narrow_kind _ _ Ha) as (_ & H1 & H2). rewrite H1. rewrite H2 in P. exact P.
  - destruct W as [e ->]. exact P.
Qed.
Lemma wizzilab_command d : bytes d -> narrowed narrow_command (@command_from_bytes ES d 0) (@command_from_bytes EW d 0).
Proof.
  intros Hd. pose proof (@decode_command_from_bytes ES d Hd) as P. pose proof (@decode_command_from_bytes EW d Hd) as W.
  unfold dec_command in *. rewrite Nar_actions in P. destruct (@dec_actions EW _ _ d) as [[c rest]|]; cbn [narrow_opt] in P.
  - rewrite W. cbv zeta. unfold narrowed. destruct (narrow_command c) as [c'|] eqn:Hc; [|exact P].
    destruct (narrow_count _ _ Hc) as (L & H1 & H2). rewrite L, H1 in P. rewrite H2. exact P.
  - destruct W as [e ->]. exact P.
Qed.
Lemma wizzilab_try_from d : bytes d -> narrowed_value narrow_command (@command_try_from ES d) (@command_try_from EW d).
Proof.
  intros Hd. pose proof (@decode_command_try_from ES d Hd) as P. pose proof (@decode_command_try_from EW d Hd) as W.
  unfold dec_command in *. rewrite Nar_actions in P. destruct (@dec_actions EW _ _ d) as [[c rest]|]; cbn [narrow_opt] in P.
  - destruct (narrow_command c) as [c'|] eqn:Hc.
    + destruct (narrow_count _ _ Hc) as (L & H1 & H2). rewrite L, H1 in P. rewrite H2 in W.
      destruct (Nat.leb _ _); rewrite W; unfold narrowed_value; [rewrite Hc; exact P|exists ETooMuchData; exact P].
    + destruct (Nat.leb _ _); rewrite W; unfold narrowed_value; [rewrite Hc|]; exact P.
  - destruct W as [e ->]. exact P.
Qed.

Lemma one_then {A} (k : N -> dec A) i l : andthen one k (i :: l) = k i l.
Proof. reflexivity. Qed.
Lemma subiot_config i l : (i =? 0xD7) = false -> @dec_interface_config EI (i :: l) = @dec_interface_config ES (i :: l).
Proof.
  intros H. unfold dec_interface_config. rewrite !one_then, H.
  destruct (i =? 0); [reflexivity|]. destruct (i =? 1); [reflexivity|]. destruct (i =? 2); [reflexivity|].
  destruct (i =? 3); [reflexivity|]. reflexivity.
Qed.
Lemma subiot_operand op l : (op =? 50) && (match l with _ :: i :: _ => i =? 0xD7 | _ => false end) = false ->
  @dec_operand EI op l = @dec_operand ES op l.
Proof.
  intros H. destruct (N.eqb_spec op 50) as [->|Hop].
  - cbn [andb] in H. destruct l as [|b [|i l]]; try reflexivity. unfold dec_operand, andthen, one.
    rewrite (subiot_config _ _ H). reflexivity.
  - clear H. unfold dec_operand. destruct op as [|p]; [reflexivity|].
    do 6 (try (destruct p as [p|p|]; [| |])); try reflexivity. exfalso. apply Hop. reflexivity.
Qed.
Lemma opcode_part b : part 0 6 b = b mod 64.
Proof. unfold part. change (2 ^ 0) with 1. change (2 ^ 6) with 64. rewrite N.div_1_r. reflexivity. Qed.
Lemma subiot_dec d : forwards_dash7 d = false -> @dec_action EI d = @dec_action ES d.
Proof.
  destruct d as [|b d]; [reflexivity|]. intros H. apply subiot_operand. rewrite opcode_part.
  destruct d; [apply andb_false_r|exact H].
Qed.
Lemma dash7_config_tail b q t l : @dec_operand EI 50 (b :: 0xD7 :: q :: t :: l) =
  (let* x := dec_qos in let* y := dec_varint in let* a := @dec_addressee EI in
   give (AForward (mkForward (flag 6 b) (part 0 6 b) (IcDash7 (mkDash7Config x y (mkVarInt 0 false) a))))) (q :: t :: l).
Proof.
  unfold dec_operand, dec_interface_config. rewrite one_then. unfold andthen at 1. rewrite one_then. cbn [N.eqb Pos.eqb].
  unfold dec_dash7_config. cbn [e_feat build]. unfold andthen, give.
  destruct (dec_qos _) as [[x ?]|]; [|reflexivity]. destruct (dec_varint _) as [[y ?]|]; [|reflexivity].
  destruct (dec_addressee _) as [[z ?]|]; reflexivity.
Qed.
Lemma dash7_config_tail_spec b q t l : @dec_operand ES 50 (b :: 0xD7 :: q :: t :: l) =
  (let* x := dec_qos in let* y := dec_varint in let* z := dec_varint in let* a := @dec_addressee ES in
   give (AForward (mkForward (flag 6 b) (part 0 6 b) (IcDash7 (mkDash7Config x y z a))))) (q :: t :: l).
Proof.
  unfold dec_operand, dec_interface_config. rewrite one_then. unfold andthen at 1. rewrite one_then. cbn [N.eqb Pos.eqb].
  unfold dec_dash7_config. cbn [e_feat build]. unfold andthen, give.
  destruct (dec_qos _) as [[x ?]|]; [|reflexivity]. destruct (dec_varint _) as [[y ?]|]; [|reflexivity].
  destruct (dec_varint _) as [[z ?]|]; [|reflexivity]. destruct (dec_addressee _) as [[w ?]|]; reflexivity.
Qed.
Lemma qos_local q : (exists v, forall l, dec_qos (q :: l) = Some (v, l)) \/ (forall l, dec_qos (q :: l) = None).
Proof.
  unfold dec_qos, named, andthen, one, give. destruct (find _ _); [|right; reflexivity].
  destruct (find _ _); [left; eexists; reflexivity|right; reflexivity].
Qed.
Lemma subiot_delay b q t e l : b mod 64 = 50 ->
  @dec_action ES (b :: 0xD7 :: q :: t :: e :: l) =
  narrow_opt (fun a => Some (with_delay (mkVarInt (e mod 32 * 4 ^ (e / 32)) false) a)) (@dec_action EI (b :: 0xD7 :: q :: t :: l)).
Proof.
  intros H. unfold dec_action. rewrite opcode_part, H, dash7_config_tail, dash7_config_tail_spec, opcode_part.
  change (@dec_addressee EI) with (@dec_addressee ES).
  unfold andthen. destruct (qos_local q) as [[v Hv]|Hv]; rewrite !Hv; [|reflexivity]. cbn [dec_varint andthen one give].
  destruct (@dec_addressee ES l) as [[x r]|]; reflexivity.
Qed.
Lemma subiot_plain d : bytes d -> forwards_dash7 d = false ->
  narrowed Some (@action_from_bytes EI d 0) (@action_from_bytes ES d 0).
Proof.
  intros Hd Hf. pose proof (@decode_action_from_bytes EI d Hd) as P. pose proof (@decode_action_from_bytes ES d Hd) as W.
  rewrite (subiot_dec d Hf) in P. destruct (@dec_action ES d) as [[a rest]|]; [rewrite W|destruct W as [e ->]]; exact P.
Qed.
Lemma subiot_delayed b q t e l : bytes (b :: 0xD7 :: q :: t :: e :: l) -> b mod 64 = 50 ->
  narrowed (fun a => Some (with_delay (mkVarInt (e mod 32 * 4 ^ (e / 32)) false) a))
    (@action_from_bytes ES (b :: 0xD7 :: q :: t :: e :: l) 0) (@action_from_bytes EI (b :: 0xD7 :: q :: t :: l) 0).
Proof.
  intros Hd Hb. pose proof (@decode_action_from_bytes ES _ Hd) as P.
  assert (Hd' : bytes (b :: 0xD7 :: q :: t :: l)).
  { unfold bytes in *. repeat match goal with H : Forall _ (_ :: _) |- _ => inversion H; subst; clear H end. repeat constructor; assumption. }
  pose proof (@decode_action_from_bytes EI _ Hd') as W. rewrite (subiot_delay _ _ _ _ _ Hb) in P.
  destruct (@dec_action EI _) as [[a rest]|]; cbn [narrow_opt] in P; [rewrite W; unfold narrowed|destruct W as [x ->]; exact P].
  rewrite P. f_equal. f_equal. replace (is_tx (with_delay _ a)) with (is_tx a); [reflexivity|].
  destruct a; try reflexivity. cbn. destruct (fw_config v); reflexivity.
Qed.
Lemma dash7_only (F : Env) b l a r : @dec_operand F 50 (b :: 0xD7 :: l) = Some (a, r) -> dash7_forward a = true.
Proof.
  unfold dec_operand, dec_interface_config. rewrite one_then. unfold andthen at 1. rewrite one_then. cbn [N.eqb Pos.eqb].
  unfold andthen, give. destruct (dec_dash7_config l) as [[c x]|]; [|discriminate]. intros H.
  assert (a = AForward (mkForward (flag 6 b) (part 0 6 b) (IcDash7 c))) by congruence. subst. reflexivity.
Qed.
Lemma subiot_operand_iff op l a r : dash7_forward a = false ->
  @dec_operand EI op l = Some (a, r) <-> @dec_operand ES op l = Some (a, r).
Proof.
  intros Ha. destruct ((op =? 50) && (match l with _ :: i :: _ => i =? 0xD7 | _ => false end)) eqn:C; [|rewrite subiot_operand by exact C; reflexivity].
  apply andb_true_iff in C as [H1 H2]. apply N.eqb_eq in H1. subst op. destruct l as [|b [|i l]]; try discriminate. apply N.eqb_eq in H2. subst i.
  split; intros H; apply dash7_only in H; congruence.
Qed.
Lemma subiot_actions_iff c : Forall (fun a => dash7_forward a = false) c -> forall k pend l r,
  @dec_actions EI k pend l = Some (c, r) <-> @dec_actions ES k pend l = Some (c, r).
Proof.
  induction 1 as [|a c Ha Hc IH]; intros k pend l r.
  - destruct k, l; cbn [dec_actions]; try reflexivity.
    split; intros K; exfalso; revert K; destruct (dec_operand _ _) as [[a x]|]; try discriminate; destruct (is_indirect a); try discriminate;
      destruct (dec_actions _ _ _) as [[y z]|]; discriminate.
  - destruct k as [|k], l as [|b l]; cbn [dec_actions]; try (destruct pend; split; discriminate); try (split; discriminate).
    set (op := if pend then _ else _).
    split; intros K;
      (destruct (dec_operand _ _) as [[a' x]|] eqn:Ho; [|discriminate];
       assert (a' = a) by (destruct (is_indirect a'); [congruence|destruct (dec_actions _ _ _) as [[y z]|]; congruence]); subst a';
       apply (subiot_operand_iff _ _ _ _ Ha) in Ho; rewrite Ho; destruct (is_indirect a); [exact K|];
       destruct (dec_actions _ _ _) as [[y z]|] eqn:Hy; [|discriminate]; assert (y = c) by congruence; subst y;
       apply IH in Hy; rewrite Hy; exact K).
Qed.
Lemma subiot_command_iff d c : bytes d -> Forall (fun a => dash7_forward a = false) c ->
  (command_try_from (E := EI) d = Ok c <-> command_try_from (E := ES) d = Ok c) /\
  (forall r, command_from_bytes (E := EI) d 0 = Ok (r, c) <-> command_from_bytes (E := ES) d 0 = Ok (r, c)).
Proof.
  intros Hd Hc. pose proof (@decode_command_try_from EI d Hd) as T1. pose proof (@decode_command_try_from ES d Hd) as T2.
  pose proof (@decode_command_from_bytes EI d Hd) as F1. pose proof (@decode_command_from_bytes ES d Hd) as F2.
  unfold dec_command in *. pose proof (subiot_actions_iff c Hc (length d) false d) as S. cbv zeta in *.
  assert (X : forall c', (exists r, @dec_actions EI (length d) false d = Some (c', r)) -> c' = c -> @dec_actions EI (length d) false d = @dec_actions ES (length d) false d).
  { intros c' [r H] ->. pose proof H as H'. apply S in H'. congruence. }
  assert (Y : forall c', (exists r, @dec_actions ES (length d) false d = Some (c', r)) -> c' = c -> @dec_actions EI (length d) false d = @dec_actions ES (length d) false d).
  { intros c' [r H] ->. pose proof H as H'. apply S in H'. congruence. }
  destruct (@dec_actions EI _ _ d) as [[c1 r1]|], (@dec_actions ES _ _ d) as [[c2 r2]|].
  - specialize (X c1 (ex_intro _ r1 eq_refl)). specialize (Y c2 (ex_intro _ r2 eq_refl)). split.
    + split; intros H.
      * assert (E1 : c1 = c) by (destruct (Nat.leb _ _) in T1; congruence). specialize (X E1). inversion X; subst. destruct (Nat.leb _ _); congruence.
      * assert (E1 : c2 = c) by (clear T1; destruct (Nat.leb _ _) in T2; congruence). specialize (Y E1). inversion Y; subst. destruct (Nat.leb _ _); congruence.
    + intros r. rewrite F1, F2. split; intros H.
      * assert (E1 : c1 = c) by congruence. specialize (X E1). inversion X; subst. exact H.
      * assert (E1 : c2 = c) by congruence. specialize (Y E1). inversion Y; subst. exact H.
  - specialize (X c1 (ex_intro _ r1 eq_refl)). destruct T2 as [e2 T2], F2 as [f2 F2]. rewrite T2, F2, F1.
    assert (N1 : c1 <> c) by (intros E1; specialize (X E1); discriminate). split; [|intros r]; (split; intros H; [exfalso; apply N1|discriminate]).
    + destruct (Nat.leb _ _) in T1; congruence.
    + congruence.
  - specialize (Y c2 (ex_intro _ r2 eq_refl)). destruct T1 as [e2 T1], F1 as [f2 F1]. rewrite T1, F2, F1.
    assert (N1 : c2 <> c) by (intros E1; specialize (Y E1); discriminate). split; [|intros r]; (split; intros H; [discriminate|exfalso; apply N1]).
    + destruct (Nat.leb _ _) in T2; congruence.
    + congruence.
  - destruct T1 as [? ->], T2 as [? ->], F1 as [? ->], F2 as [? ->]. split; [|intros r]; split; discriminate.
Qed.
End Readers.

(** ** Statements *)
Lemma variants_refuted (E : Env) : ~ @understood E Spec Subiot /\ ~ @understood E Subiot Spec /\ ~ @understood E Wizzilab Spec.
Proof.
  assert (T : forall F G c d x, command_to_bytes (E := build F E) c = Ok d -> command_try_from (E := build F E) d = Ok c ->
    command_try_from (E := build G E) d = Ok x -> x <> c -> ~ @understood E F G) by (intros F G c d x H1 H2 H3 N U; exact (N (U c d x H1 H2 H3))).
  destruct E as [f h w]. split; [|split].
  - eapply (T _ _ [sample_broadcast (mkAccessClass 0 1); ARequestTag (mkRequestTag true 52 7)] [114; 215; 86; 56; 0; 16; 1; 180; 7]
      [AForward (mkForward true 50 (IcDash7 (mkDash7Config (mkQos false true RtFifoFast RmPreferred)
        (mkVarInt 96 false) (mkVarInt 0 false) (mkAddressee GcAny AtNbId false NlsNone (mkAccessClass 1 0) (NbId (mkVarInt 1 false)) NsNone))));
       ARequestTag (mkRequestTag true 52 7)]); [destruct h, w; vm_compute; reflexivity..|discriminate].
  - eapply (T _ _ [sample_broadcast (mkAccessClass 1 0); ANop (mkNop (mkHeader false false) 0)] [114; 215; 86; 56; 16; 16; 0]
      [AForward (mkForward true 50 (IcDash7 (mkDash7Config (mkQos false true RtFifoFast RmPreferred)
        (mkVarInt 96 false) (mkVarInt 16 false) (mkAddressee GcAny AtNoId false NlsNone (mkAccessClass 0 0) NoId NsNone))))]);
      [destruct h, w; vm_compute; reflexivity..|discriminate].
  - eapply (T _ _ [sample_group false] [0xB3; 0xD7; 0xB7; 0x21; 0xAB; 0xCD; 1; 2; 3; 4; 5] 
      [AIndirectForward (mkIndirectForward true false 51 (Some (IiDash7
        (mkAddressee GcAny AtVId false NlsAesCcm32 (mkAccessClass 2 1) (VId 0xABCD) (NsAesCcm32 [1; 2; 3; 4; 5])))))]);
      [destruct h, w; vm_compute; reflexivity..|discriminate].
Qed.
Lemma variants_written (E : Env) :
  (forall a, wizzilab_only a = false ->
     (action_to_bytes (E := build Spec E) a = action_to_bytes (E := build Wizzilab E) a <->
      (forall l, action_to_bytes (E := build Spec E) a <> Ok l) \/ plain_action a)) /\
  (forall c, Forall (fun a => wizzilab_only a = false) c ->
     (command_to_bytes (E := build Spec E) c = command_to_bytes (E := build Wizzilab E) c <->
      (forall l, command_to_bytes (E := build Spec E) c <> Ok l) \/ Forall plain_action c)).
Proof. split; intros x H; apply WV_bytes; [apply WV_action|apply WV_command]; exact H. Qed.
Lemma variants_written_subiot (E : Env) :
  (forall a, dash7_forward a = false -> action_to_bytes (E := build Subiot E) a = action_to_bytes (E := build Spec E) a) /\
  (forall c, Forall (fun a => dash7_forward a = false) c ->
     command_to_bytes (E := build Subiot E) c = command_to_bytes (E := build Spec E) c).
Proof.
  split; intros x H; unfold action_to_bytes, command_to_bytes; f_equal; [apply subiot_action|apply subiot_command]; exact H.
Qed.
Lemma variants_wizzilab (E : Env) d : bytes d ->
  narrowed narrow_action (action_from_bytes (E := build Spec E) d 0) (action_from_bytes (E := build Wizzilab E) d 0) /\
  narrowed narrow_command (command_from_bytes (E := build Spec E) d 0) (command_from_bytes (E := build Wizzilab E) d 0) /\
  narrowed_value narrow_command (command_try_from (E := build Spec E) d) (command_try_from (E := build Wizzilab E) d).
Proof. intros H. split; [|split]; [apply wizzilab_action|apply wizzilab_command|apply wizzilab_try_from]; exact H. Qed.
Lemma wf_addressee_any (E : Env) v : @wf_addressee (build Spec E) v ->
  plain_addressee v /\ @wf_addressee (build Wizzilab E) v /\ @wf_addressee (build Subiot E) v.
Proof.
  intros (P & H). assert (Q : plain_addressee v) by (destruct P as [P|P]; [discriminate|exact P]).
  split; [exact Q|]. split; (split; [|exact H]); [left; reflexivity|right; exact Q].
Qed.
Lemma wf_action_any (E : Env) a : @wf_action (build Spec E) a ->
  plain_action a /\ wizzilab_only a = false /\ @wf_action (build Wizzilab E) a /\
  (dash7_forward a = false -> @wf_action (build Subiot E) a).
Proof.
  destruct a; try contradiction; try (intros H; split; [exact I|split; [reflexivity|split; [exact H|intros _; exact H]]]); cbn [wf_action]; unfold plain_action; cbn [action_addressee wizzilab_only dash7_forward].
  - intros (H & K). unfold wf_status_operand. destruct (so_type v), (so_status v) as [s|i|f]; try contradiction.
    + repeat split; tauto.
    + unfold wf_itf_status_op in *. destruct (iso_type i), (iso_status i) as [| |d|l]; try contradiction; try (split; [exact I|split; [reflexivity|split; [exact (conj H K)|intros _; exact (conj H K)]]]).
      unfold wf_dash7_status in *. destruct K as (K1 & K2 & K3 & K4 & K5 & K6 & K7 & K8). pose proof (wf_addressee_any E _ K8) as (P & W & S).
      split; [exact P|]. split; [reflexivity|]. split; [|intros _]; (split; [exact H|]; repeat (split; [assumption|])); assumption.
    + destruct K as [K _]. discriminate.
  - intros (H & K). unfold wf_forward. destruct (fw_config v) as [| | | |c|i]; try (split; [exact I|split; [reflexivity|split; [exact (conj H K)|intros _; exact (conj H K)]]]).
    cbn [wf_interface_config] in *. unfold wf_dash7_config in *. destruct K as (K1 & K2 & K3 & K4). pose proof (wf_addressee_any E _ K4) as (P & W & S).
    split; [exact P|]. split; [reflexivity|]. split; [|discriminate]. split; [exact H|]. split; [exact K1|]. split; [exact K2|]. split; [discriminate|exact W].
  - intros (H & K). unfold wf_indirect_forward. destruct (if_overloaded v), (if_config v) as [[| |x|i]|]; try contradiction; try (split; [exact I|split; [reflexivity|split; [exact (conj H K)|intros _; exact (conj H K)]]]).
    cbn [wf_indirect_interface] in *. pose proof (wf_addressee_any E _ K) as (P & W & S). split; [exact P|]. split; [reflexivity|]. split; [split; [exact H|exact W]|].
    intros _. split; [exact H|exact S].
Qed.
Lemma variants_understood (E : Env) c : @wf_command (build Spec E) c -> exists d,
  command_to_bytes (E := build Spec E) c = Ok d /\
  command_to_bytes (E := build Wizzilab E) c = Ok d /\ command_try_from (E := build Wizzilab E) d = Ok c /\
  (Forall (fun a => dash7_forward a = false) c ->
     command_to_bytes (E := build Subiot E) c = Ok d /\ command_try_from (E := build Subiot E) d = Ok c).
Proof.
  intros [Hw Hl]. assert (H : Forall (fun a => plain_action a /\ wizzilab_only a = false /\ @wf_action (build Wizzilab E) a /\
    (dash7_forward a = false -> @wf_action (build Subiot E) a)) c) by (eapply Forall_impl; [|exact Hw]; apply wf_action_any).
  destruct (@command_round_trip (build Spec E) c (conj Hw Hl)) as (d & H1 & _ & H2). exists d. split; [exact H1|].
  assert (W : @wf_command (build Wizzilab E) c) by (split; [eapply Forall_impl; [|exact H]; cbn; tauto|exact Hl]).
  destruct (@command_round_trip (build Wizzilab E) c W) as (d' & W1 & _ & W2).
  destruct (proj2 (variants_written E) c) as [_ Q]; [eapply Forall_impl; [|exact H]; cbn; tauto|].
  rewrite Q, W1 in H1 by (right; eapply Forall_impl; [|exact H]; cbn; tauto). assert (d' = d) by congruence. subst d'.
  split; [exact W1|]. split; [exact W2|]. intros Hf.
  assert (S : @wf_command (build Subiot E) c).
  { split; [|exact Hl]. clear - H Hf. induction H; constructor; inversion_clear Hf; auto. apply H. assumption. }
  destruct (@command_round_trip (build Subiot E) c S) as (d' & S1 & _ & S2). rewrite (proj2 (variants_written_subiot E) c Hf) in *.
  rewrite Q, W1 in S1 by (right; eapply Forall_impl; [|exact H]; cbn; tauto). assert (d' = d) by congruence. subst d'.
  rewrite Q, W1 by (right; eapply Forall_impl; [|exact H]; cbn; tauto). auto.
Qed.
