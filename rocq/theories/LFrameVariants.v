(** Lemmas for C82: frames between builds. *)
From Coq Require Import List NArith ZArith Bool Lia Arith ZifyBool ZifyNat ZifyN.
From Verif Require Import Base Deku Utils Types Physical Link Network Session Data Query Interface File
  Operation Action Command Frames WellFormed SpecApi SpecLayout SpecDecode SpecVariants LBits LReader LLayout LHost LCommandApi LDecode LDecodeLoop
  LVariants SpecFrames LFrames LFramesW LFrameAgain LDecodeFrame LFrameCanon LFrameCanonTop LFrameCanonW LGrow SpecFrameDecode SpecFrameVariants.
Import ListNotations.
Open Scope N_scope.

Section Builds.
Context (E : Env).
Notation ES := (build Spec E).
Notation EI := (build Subiot E).
Notation EW := (build Wizzilab E).

(** ** subiot *)
Lemma subiot_limited_iff c : Forall (fun a => dash7_forward a = false) c -> forall k limit p pend l r,
  @dec_limited EI k limit p pend l = Some (c, r) <-> @dec_limited ES k limit p pend l = Some (c, r).
Proof.
  induction 1 as [|a c Ha Hc IH]; intros k limit p pend l r.
  - destruct k, l; cbn [dec_limited]; try reflexivity; destruct ((limit =? 0) || (p <? limit)); try reflexivity.
    split; intros K; exfalso; revert K; destruct (dec_operand _ _) as [[a x]|]; try discriminate; destruct (is_indirect a); try discriminate;
      destruct (dec_limited _ _ _ _ _) as [[y z]|]; discriminate.
  - destruct k as [|k], l as [|b l]; cbn [dec_limited]; try reflexivity; destruct ((limit =? 0) || (p <? limit)); try reflexivity.
    set (op := part _ 6 b).
    split; intros K;
      (destruct (dec_operand _ _) as [[a' x]|] eqn:Ho; [|discriminate];
       assert (a' = a) by (destruct (is_indirect a'); [congruence|destruct (dec_limited _ _ _ _ _) as [[y z]|]; congruence]); subst a';
       apply (subiot_operand_iff _ _ _ _ _ Ha) in Ho; rewrite Ho; destruct (is_indirect a); [exact K|];
       destruct (dec_limited _ _ _ _ _) as [[y z]|] eqn:Hy; [|discriminate]; assert (y = c) by congruence; subst y;
       apply IH in Hy; rewrite Hy; exact K).
Qed.
Lemma subiot_fframe_iff v : no_dash7_forward v -> forall d r, @dec_fframe EI d = Some (v, r) <-> @dec_fframe ES d = Some (v, r).
Proof.
  intros Hv d r. unfold dec_fframe. destruct (dec_link d) as [[[limit link] l]|] eqn:DL; [|reflexivity].
  change (@dec_headers EI l) with (@dec_headers ES l). destruct (@dec_headers ES l) as [[net l1]|] eqn:DH; [|reflexivity].
  change (@e_feat EI) with Subiot. change (@e_feat ES) with Spec. cbv iota.
  change (@host_num EI) with (@host_num ES).
  assert (Q : forall c crc, link (net c) crc = v -> c = command_of v).
  { intros c crc <-. unfold command_of. rewrite (dec_link_shape _ _ _ _ DL), (dec_headers_shape _ _ _ DH). reflexivity. }
  split; intros K; (destruct (dec_limited _ _ _ _ _) as [[c l2]|] eqn:DC; [|discriminate]; destruct (host_num 2 l2) as [[crc rest]|] eqn:DN; [|discriminate];
    assert (Hc : c = command_of v) by (apply (Q c crc); congruence); subst c;
    apply (subiot_limited_iff _ Hv) in DC; rewrite DC, DN; exact K).
Qed.
Lemma dec_reader (F : Env) d n v : bytes d -> (d_from_reader (@read_fframe F) d 0 = Ok (n, v) <->
  exists rest, @dec_fframe F d = Some (v, rest) /\ n = @frame_bits F (length d - length rest) v).
Proof.
  intros Hd. pose proof (@fframe_at F d Hd) as A. rewrite LFrameAgain.from_reader_0. destruct (@dec_fframe F d) as [[x rest]|].
  - destruct A as (s & A & B & _). split.
    + intros (r & R & N1). rewrite A in R. injection R as <- <-. exists rest. split; [reflexivity|congruence].
    + intros (rest' & R & ->). injection R as <- <-. exists s. auto.
  - destruct A as (e & A). split; [intros (r & R & _)|intros (r & R & _)]; congruence.
Qed.
Lemma subiot_frame_read d n v : bytes d -> no_dash7_forward v ->
  (d_from_reader (@read_fframe EI) d 0 = Ok (n, v) <-> d_from_reader (@read_fframe ES) d 0 = Ok (n, v)).
Proof.
  intros Hd Hv. rewrite !dec_reader by exact Hd. split; intros (r & R & ->); exists r; (split; [apply (subiot_fframe_iff _ Hv), R|reflexivity]).
Qed.
Lemma subiot_frame_written v : no_dash7_forward v -> @fframe_to_bytes EI v = @fframe_to_bytes ES v.
Proof.
  intros Hv. unfold fframe_to_bytes, to_bytes. rewrite !write_fframe_eq.
  change (@write_head EI v) with (@write_head ES v). rewrite (subiot_command E _ Hv). reflexivity.
Qed.

(** ** wizzilab *)
Lemma rotate (l : list bool) : false :: l = l ++ [false] <-> l = repeat false (length l).
Proof.
  induction l as [|b l IH]; [split; reflexivity|]. cbn [app length repeat]. split.
  - intros H. injection H as <- H. f_equal. apply IH, H.
  - intros H. injection H as -> H. f_equal. apply IH, H.
Qed.
Lemma all_false (l : list bool) : l = repeat false (length l) <-> Forall (fun b => b = false) l.
Proof.
  induction l as [|b l IH]; [split; [constructor|reflexivity]|]. cbn [length repeat]. split.
  - intros H. injection H as -> H. constructor; [reflexivity|apply IH, H].
  - intros H. inversion H as [|? ? -> H2]; subst. f_equal. apply IH, H2.
Qed.
Lemma bits_zero k v : v < 2 ^ N.of_nat k -> (Forall (fun b => b = false) (bits_of k v) <-> v = 0).
Proof.
  intros H. rewrite <- all_false, bits_of_length, <- bits_of_0. split; [|intros ->; reflexivity].
  intros G. apply bits_of_inj in G; [exact G|exact H|]. pose proof (N.pow_nonzero 2 (N.of_nat k)). lia.
Qed.
Definition fits (l : list (N * N)) : Prop := Forall (fun f => snd f < 2 ^ fst f) l.
Lemma fields_zero l : fits l -> (Forall (fun b => b = false) (bits_of_fields l) <-> Forall (fun f => snd f = 0) l).
Proof.
  induction 1 as [|[k v] l H _ IH]; [split; constructor|]. unfold bits_of_fields in *. cbn [flat_map fst snd] in *. rewrite Forall_app, IH.
  rewrite bits_zero by (rewrite N2Nat.id; exact H). split; [intros (-> & H2); constructor; auto|intros K; inversion K; subst; auto].
Qed.
Lemma fits_octets l : bytes l -> fits (SpecFrames.octets l).
Proof. induction 1 as [|b l H _ IH]; constructor; [exact H|exact IH]. Qed.
Lemma fits_optional {A} (enc : A -> list N) (P : A -> Prop) o b : present o b P -> (forall x, P x -> bytes (enc x)) -> fits (optional enc o).
Proof. destruct o as [x|]; cbn [present optional]; intros H G; [|constructor]. apply fits_octets, G, H. Qed.
Lemma fits_one w v l : v < 2 ^ w -> fits l -> fits ((w, v) :: l).
Proof. intros H1 H2. constructor; assumption. Qed.
Lemma bit_1 b : bit b < 2 ^ 1. Proof. destruct b; reflexivity. Qed.
Lemma type_2 t : code_address_type t < 2 ^ 2. Proof. destruct t; reflexivity. Qed.
Lemma access_8 k : wf_access_class k -> enc_access_class k < 2 ^ 8.
Proof. intros H. destruct (W_access_class k _ _ H W_nil) as (_ & B). apply Forall_cons_iff in B as (B & _). exact B. Qed.
Lemma varint_bytes v : wf_varint v -> bytes (enc_varint v).
Proof. intros H. apply (W_varint v H). Qed.
Lemma head_fits (F : Env) n : @wf_nframe F n ->
  fits (network_fields n ++ tcontrol_fields (tf_control (nf_frame n)) ++ transport_fields (nf_frame n)).
Proof.
  intros (H1 & H2 & H3 & H4 & H5). destruct H5 as (T1 & T2 & T3 & T4 & T5 & T6 & T7 & _). unfold fits.
  apply Forall_app. split; [|apply Forall_app; split].
  - unfold network_fields. apply Forall_app. split.
    + destruct (nf_hopping n); [|constructor]. unfold hopping_fields. repeat (apply fits_one; [first [apply bit_1|apply type_2|reflexivity]|]). constructor.
    + cbn [app]. apply fits_one; [apply access_8, H2|]. apply fits_octets, (W_address _ H4).
  - unfold tcontrol_fields. repeat (apply fits_one; [apply bit_1|]). constructor.
  - unfold transport_fields. cbn [app]. apply fits_one; [exact T1|]. apply fits_one; [exact T2|].
    apply Forall_app. split; [apply (fits_optional _ _ _ _ T3); intros x Hx; constructor; [exact Hx|constructor]|].
    apply Forall_app. split; [apply (fits_optional _ _ _ _ T4); intros x Hx; apply varint_bytes, Hx|].
    apply Forall_app. split; [apply (fits_optional _ _ _ _ T5); intros x Hx; apply varint_bytes, Hx|].
    apply Forall_app. split; [apply (fits_optional _ _ _ _ T6); intros x Hx; apply varint_bytes, Hx|].
    apply (fits_optional _ _ _ _ T7). intros x (Hx & Hy). constructor; [exact Hx|]. constructor; [exact Hy|constructor].
Qed.
Lemma wf_any v : @wf_fframe ES v -> @wf_fframe EW v /\ @enc_command EW (command_of v) = @enc_command ES (command_of v).
Proof.
  intros (H1 & H2 & H3 & H4 & H5 & H6 & N1 & N2 & N3 & N4 & T1 & T2 & T3 & T4 & T5 & T6 & T7 & T8).
  destruct (variants_understood E _ T8) as (d & U1 & U2 & _).
  assert (WC : @wf_command EW (tf_command (nf_frame (ff_frame v)))).
  { destruct T8 as (T8 & T9). split; [|exact T9]. eapply Forall_impl; [|exact T8]. intros a Ha. apply (wf_action_any E a Ha). }
  split.
  - repeat (split; [assumption|]). exact WC.
  - pose proof (proj1 (@command_bytes ES _ (proj1 T8))) as B1. pose proof (proj1 (@command_bytes EW _ (proj1 WC))) as B2. unfold command_of in *. congruence.
Qed.
Lemma bytes_zero l : bytes l -> (Forall (fun b => b = false) (bits_of_bytes l) <-> Forall (fun b => b = 0) l).
Proof.
  induction 1 as [|b l H _ IH]; [split; constructor|]. rewrite bits_of_bytes_cons, Forall_app, IH, bits_zero by exact H.
  split; [intros (-> & K); constructor; auto|intros K; inversion K; subst; auto].
Qed.
Lemma native_zero (F : Env) v : u16 v -> (Forall (fun b => b = false) (bits_of_bytes (enc_native 2 v)) <-> v = 0).
Proof.
  intros H. rewrite bytes_zero by apply (W_native 2 v). unfold enc_native, u16 in *.
  assert (B : be_bytes 2 v = [v / 256 mod 256; v mod 256]).
  { cbn [be_bytes]. change (256 ^ N.of_nat 1) with 256. change (256 ^ N.of_nat 0) with 1. rewrite N.div_1_r. reflexivity. }
  rewrite B. clear B.
  assert (K : Forall (fun b => b = 0) [v / 256 mod 256; v mod 256] <-> v = 0).
  { split; [|intros ->; repeat constructor]. intros G. inversion G as [|? ? G1 G2]; subst. inversion G2 as [|? ? G3 G4]; subst. lia. }
  destruct e_host; [|exact K]. rewrite <- K. split; intros G; apply Forall_rev in G; [rewrite rev_involutive in G|]; exact G.
Qed.
Lemma frame_written_wizzilab v : @wf_fframe ES v -> (@fframe_to_bytes ES v = @fframe_to_bytes EW v <-> @quiet ES v).
Proof.
  intros Hv. destruct (wf_any v Hv) as (Hw & HC).
  rewrite (proj1 (@frame_layout ES v Hv)), (proj1 (@frame_layout EW v Hw)).
  set (S := bits_of_fields (@frame_fields ES v)). set (X := bits_of_fields (@frame_fields EW v)).
  pose proof (@wizzilab_bits EW v eq_refl) as PW. unfold enc_fframe in PW. fold X in PW.
  set (A := bits_of_fields (link_fields v) ++ bits_of_fields [(1, bit (nc_no_origin (nf_control (ff_frame v)))); (1, bit (nc_hopping (nf_control (ff_frame v))));
     (2, code_address_type (nc_origin_type (nf_control (ff_frame v)))); (1, 0)]).
  set (m := nc_nls (nf_control (ff_frame v))).
  set (hf := network_fields (ff_frame v) ++ tcontrol_fields (tf_control (nf_frame (ff_frame v))) ++ transport_fields (nf_frame (ff_frame v))).
  set (Y := bits_of_fields hf ++ bits_of_bytes (@enc_command ES (command_of v)) ++ bits_of_bytes (@enc_native ES 2 (ff_crc v))).
  assert (HD : forall F, bits_of_fields (@head_fields F v) = (A ++ bits_of (N.to_nat (@nls_width F)) (code_nls m)) ++ bits_of_fields hf).
  { intros F. unfold head_fields. cbv zeta. fold hf. unfold ncontrol_fields. fold m. rewrite !bits_of_fields_app. unfold A. rewrite <- !app_assoc. f_equal.
    unfold bits_of_fields. cbn [flat_map fst snd app]. rewrite <- !app_assoc. cbn [app]. reflexivity. }
  assert (N4 : bits_of 4 (code_nls m) = false :: bits_of 3 (code_nls m)) by (destruct m; reflexivity).
  assert (ES_ : S = A ++ false :: bits_of 3 (code_nls m) ++ Y).
  { unfold S. rewrite LFrames.frame_bits, HD. change (N.to_nat (@nls_width ES)) with 4%nat. rewrite N4, <- !app_assoc. reflexivity. }
  assert (EX : bits_of_bytes (bytes_of_bits X) = A ++ (bits_of 3 (code_nls m) ++ Y) ++ [false]).
  { rewrite PW, HD, HC. change (N.to_nat (@nls_width EW)) with 3%nat. unfold Y. rewrite <- !app_assoc. reflexivity. }
  assert (BS : bits_of_bytes (bytes_of_bits S) = S).
  { apply (bits_of_bytes_of_bits S (@command_start ES v + length (@enc_command ES (command_of v)) + 2)).
    unfold S. rewrite LFrames.frame_bits, !app_length, bits_of_fields_length, head_aligned, !bits_of_bytes_length, enc_native_length by discriminate. lia. }
  assert (Q : Ok (bytes_of_bits S) = Ok (bytes_of_bits X) <-> S = bits_of_bytes (bytes_of_bits X)).
  { split; intros H.
    - apply Ok_inj in H. rewrite <- H. symmetry. exact BS.
    - f_equal. apply bits_of_bytes_inj; try apply bytes_of_bits_bytes. rewrite BS. exact H. }
  rewrite Q, EX, ES_. rewrite (app_same A _ A _ eq_refl).
  change (false :: bits_of 3 (code_nls m) ++ Y) with (false :: (bits_of 3 (code_nls m) ++ Y)). rewrite rotate, all_false.
  unfold Y. rewrite !Forall_app.
  destruct Hv as (H1 & H2 & H3 & H4 & H5 & H6 & H7).
  rewrite (fields_zero hf (head_fits ES _ H7)).
  assert (WC : bytes (@enc_command ES (command_of v))) by (apply command_bytes, H7).
  rewrite (bytes_zero _ WC), (native_zero ES _ H6). rewrite bits_zero by (destruct m; reflexivity).
  assert (M : code_nls m = 0 <-> m = NlsNone) by (destruct m; split; intros K; (reflexivity || discriminate K)).
  rewrite M. unfold quiet. cbv zeta. fold hf m. tauto.
Qed.
Lemma named_some {A} (code : A -> N) vs x l v r : named code vs x l = Some (v, r) -> code v = x /\ find (fun v => code v =? x) vs = Some v.
Proof.
  unfold named. destruct (find _ vs) as [y|] eqn:F; [|discriminate]. intros H. assert (y = v) by (unfold give in H; congruence). subst y.
  split; [|reflexivity]. apply find_some in F as (_ & F). apply N.eqb_eq, F.
Qed.
Lemma dec_net_control c nls l f l' : dec_net c nls l = Some (f, l') -> exists t n,
  find (fun v => code_address_type v =? part 4 2 c) address_types = Some t /\ code_nls n = nls /\
  forall x, nf_control (f x) = mkNControl (flag 7 c) (flag 6 c) t n.
Proof.
  intros H. unfold dec_net in H. apply then_inv in H as (t & l1 & H1 & H). apply then_inv in H as (n & l2 & H2 & H).
  apply then_inv in H as (h & l3 & H3 & H). apply then_inv in H as (k & l4 & H4 & H). apply then_inv in H as (a & l5 & H5 & H).
  apply named_some in H1 as (_ & H1). apply named_some in H2 as (H2 & _). injection H as <- <-. exists t, n. auto.
Qed.
Lemma wizzilab_common F v w d n m : F <> Wizzilab -> bytes d -> d_from_reader (@read_fframe (build F E)) d 0 = Ok (n, v) ->
  d_from_reader (@read_fframe EW) d 0 = Ok (m, w) ->
  same_start v w /\ code_nls (nc_nls (nf_control (ff_frame w))) = code_nls (nc_nls (nf_control (ff_frame v))) / 2.
Proof.
  intros HF Hd R1 R2. apply dec_reader in R1 as (r1 & R1 & _); [|exact Hd]. apply dec_reader in R2 as (r2 & R2 & _); [|exact Hd].
  unfold dec_fframe in R1, R2. destruct (dec_link d) as [[[limit link] l]|] eqn:DL; [|discriminate].
  destruct (@dec_headers (build F E) l) as [[net1 l1]|] eqn:D1; [|discriminate]. destruct (@dec_headers EW l) as [[net2 l2]|] eqn:D2; [|discriminate].
  destruct (dec_limited _ _ _ _ l1) as [[c1 k1]|]; [|discriminate]. destruct (dec_limited _ _ _ _ l2) as [[c2 k2]|]; [|discriminate].
  destruct (host_num 2 k1) as [[x1 y1]|]; [|discriminate]. destruct (host_num 2 k2) as [[x2 y2]|]; [|discriminate].
  assert (V : v = link (net1 c1) x1) by congruence. assert (Wd : w = link (net2 c2) x2) by congruence. subst v w.
  unfold same_start. rewrite !(dec_link_shape _ _ _ _ DL).
  assert (L : forall a b x y, ff_length (link a x) = ff_length (link b y) /\ ff_subnet (link a x) = ff_subnet (link b y) /\
    ff_type (link a x) = ff_type (link b y) /\ ff_eirp (link a x) = ff_eirp (link b y) /\ ff_target (link a x) = ff_target (link b y)).
  { intros. unfold dec_link in DL. repeat (apply then_inv in DL as (? & ? & ? & DL)). injection DL as <- <- <-. repeat split. }
  destruct (L (net1 c1) (net2 c2) x1 x2) as (L1 & L2 & L3 & L4 & L5).
  assert (K : exists t n1 n2 c, part 0 3 c < 8 /\ nf_control (net1 c1) = mkNControl (flag 7 c) (flag 6 c) t n1 /\ nf_control (net2 c2) = mkNControl (flag 7 c) (flag 6 c) t n2 /\
    (exists b, b < 2 /\ code_nls n1 = 2 * part 0 3 c + b) /\ code_nls n2 = part 0 3 c).
  { unfold dec_headers in D1, D2. change (@e_feat EW) with Wizzilab in D2. cbv iota in D2. destruct l as [|c tl]; [discriminate|].
    destruct (dec_net c (part 0 3 c) tl) as [[g2 [|z more]]|] eqn:N2; try discriminate.
    destruct (dec_trans (part 1 7 z) _) as [[t2 s2]|]; [|discriminate]. injection D2 as <- <-.
    change (@e_feat (build F E)) with F in D1.
    assert (D1' : match tl with x :: _ => match dec_net c (2 * part 0 3 c + part 7 1 x) (late 1 tl) with
      | Some (g1, s1) => exists t1 : command -> tframe, net1 = (fun m => g1 (t1 m)) | None => False end | [] => False end).
    { destruct F; try congruence; (destruct tl as [|x tl]; [discriminate|]);
      (destruct (dec_net c (2 * part 0 3 c + part 7 1 x) (late 1 (x :: tl))) as [[g1 s1]|]; [|discriminate]);
      (destruct (skipn _ _) as [|y more1]; [discriminate|]); (destruct (dec_trans (part 0 7 y) more1) as [[t1 s1']|]; [|discriminate]);
      injection D1 as <- <-; exists t1; reflexivity. }
    destruct tl as [|x tl]; [contradiction|].
    destruct (dec_net c (2 * part 0 3 c + part 7 1 x) (late 1 (x :: tl))) as [[g1 s1]|] eqn:N1; [|contradiction]. destruct D1' as (t1 & ->).
    apply dec_net_control in N1 as (ta & na & A1 & A2 & A3). apply dec_net_control in N2 as (tb & nb & B1 & B2 & B3).
    assert (ta = tb) by congruence. subst tb. exists ta, na, nb, c. rewrite A3, B3.
    assert (P : part 0 3 c < 8) by (unfold part; apply N.mod_lt; discriminate).
    split; [exact P|]. split; [reflexivity|]. split; [reflexivity|]. split; [|exact B2].
    exists (part 7 1 x). split; [unfold part; apply N.mod_lt; discriminate|exact A2]. }
  destruct K as (t & n1 & n2 & c & _ & K1 & K2 & (b & B1 & B2) & K4). rewrite K1, K2. cbn [nc_no_origin nc_hopping nc_origin_type nc_nls].
  split; [repeat split; assumption|]. rewrite K4, B2. lia.
Qed.
End Builds.

(** ** Witnesses *)
Definition witness (F G : feature) : fframe :=
  match F, G with
  | Spec, Subiot => forward_frame
  | Subiot, Spec => forward_frame'
  | _, _ => small_frame 9 [ANop (mkNop (mkHeader false false) 0)] 0
  end.
Lemma misread E F G v d n x m : @fframe_to_bytes (build F E) v = Ok d -> d_from_reader (@read_fframe (build F E)) d 0 = Ok (n, v) ->
  d_from_reader (@read_fframe (build G E)) d 0 = Ok (m, x) -> x <> v -> ~ @frame_understood E F G.
Proof. intros H1 H2 H3 H4 U. apply H4. exact (U v d n x m H1 H2 H3). Qed.
Ltac misread_with E F G v :=
  let d := eval vm_compute in (match @fframe_to_bytes (build F E) v with Ok d => d | _ => [] end) in
  let n := eval vm_compute in (match d_from_reader (@read_fframe (build F E)) d 0 with Ok (n, _) => n | _ => 0%nat end) in
  let x := eval vm_compute in (match d_from_reader (@read_fframe (build G E)) d 0 with Ok p => p | _ => (0%nat, v) end) in
  apply (misread E F G v d n (snd x) (fst x)); [vm_cast_no_check (@eq_refl _ (@Ok _ d))|vm_cast_no_check (@eq_refl _ (Ok (n, v)))|
    vm_cast_no_check (@eq_refl _ (Ok x))|vm_compute; congruence].
Lemma frames_misread E F G : F <> G -> ~ @frame_understood E F G.
Proof.
  intros D. destruct E as [f h r].
  destruct F, G; try (exfalso; apply D; reflexivity); destruct h, r;
    match goal with |- ~ @frame_understood ?E ?F ?G => let w := eval cbv [witness] in (witness F G) in misread_with E F G w end.
Qed.
