(** Canonical frames: the headers. *)
From Coq Require Import List NArith ZArith Bool Lia ZifyBool ZifyNat ZifyN Arith.
From Verif Require Import Base Deku Utils Types Physical Link Network Session Data Query
  Interface File Operation Action Command Frames WellFormed SpecLayout SpecDecode SpecCanonical SpecFrames LBits LReader
  LNumbers LFrames LDecode LCanon LCanonTypes LCanonOps LDecodeFrame LFrameLive SpecFrameDecode SpecFrameCanonical.
Import ListNotations.
Open Scope N_scope.

(** ** Fields as bytes *)
Definition opt_bytes {A} (enc : A -> list N) (o : option A) : list N := match o with Some x => enc x | None => [] end.
Lemma optional_bits {A} (enc : A -> list N) o : bits_of_fields (optional enc o) = bits_of_bytes (opt_bytes enc o).
Proof. destruct o; [apply bits_of_octets|reflexivity]. Qed.
Definition enc_hop (h : hopping) : list N := [64 * bit (hp_counter h) + 16 * code_address_type (hp_dest h)].
Lemma hop_bits o : bits_of_fields (hopping_fields o) = bits_of_bytes (opt_bytes enc_hop o).
Proof. destruct o as [[[] []]|]; reflexivity. Qed.
Definition enc_link (v : fframe) : list N :=
  enc_length (ff_length v) ++ [ff_subnet v; 64 * code_address_type (ff_type v) + ff_eirp v] ++ enc_address (ff_target v).
Definition enc_net (v : nframe) : list N :=
  opt_bytes enc_hop (nf_hopping v) ++ [enc_access_class (nf_access v)] ++ enc_address (nf_origin v).
Definition enc_trans (v : tframe) : list N :=
  [tf_dialog v; tf_transaction v] ++
  opt_bytes (fun x => [x]) (tf_target_rx v) ++ opt_bytes enc_varint (tf_listen v) ++
  opt_bytes enc_varint (tf_exec_delay v) ++ opt_bytes enc_varint (tf_congestion v) ++
  opt_bytes (fun a => [ack_start a; ack_stop a]) (tf_ack v).
Lemma byte_bits b : bits_of_fields [(8, b)] = bits_of_bytes [b].
Proof. reflexivity. Qed.
Lemma link_bits v : ff_eirp v < 64 -> bits_of_fields (link_fields v) = bits_of_bytes (enc_link v).
Proof.
  intros H. unfold link_fields, enc_link. rewrite !bits_of_fields_app, !bits_of_bytes_app, !bits_of_octets. do 2 f_equal.
  unfold bits_of_fields. cbn [flat_map fst snd bits_of_bytes]. f_equal. rewrite !app_nil_r.
  rewrite (N.mul_comm 64). change 64 with (2 ^ N.of_nat 6). change (N.to_nat 2) with 2%nat. change (N.to_nat 6) with 6%nat.
  symmetry. exact (bits_of_join 2 6 _ _ H).
Qed.
Lemma net_bits v : bits_of_fields (network_fields v) = bits_of_bytes (enc_net v).
Proof.
  unfold network_fields, enc_net. rewrite !bits_of_fields_app, !bits_of_bytes_app, bits_of_octets, hop_bits, byte_bits. reflexivity.
Qed.
Lemma trans_bits v : bits_of_fields (transport_fields v) = bits_of_bytes (enc_trans v).
Proof.
  unfold transport_fields, enc_trans. rewrite !bits_of_fields_app, !bits_of_bytes_app, !optional_bits. reflexivity.
Qed.

(** ** Pieces whose size is the size they are written in *)
Definition SzP {A} (n : nat) (D : dec A) (e : A -> list N) : Prop :=
  forall l v rest, D l = Some (v, rest) -> exists p, l = p ++ rest /\ (n + length p)%nat = length (e v).
Lemma Sz_bind {A B} n (D : dec A) (K : A -> dec B) e1 (e : B -> list N) :
  SzP 0 D e1 -> (forall x, SzP (n + length (e1 x)) (K x) e) -> SzP n (andthen D K) e.
Proof.
  intros H1 H2 l v rest H. unfold andthen in H. destruct (D l) as [[x l1]|] eqn:E1; [|discriminate].
  destruct (H1 _ _ _ E1) as (p & -> & L1). destruct (H2 x _ _ _ H) as (q & -> & L2). exists (p ++ q).
  rewrite app_assoc. split; [reflexivity|]. rewrite app_length. lia.
Qed.
Lemma Sz_give {A} n (v : A) (e : A -> list N) : length (e v) = n -> SzP n (give v) e.
Proof. intros <- l x rest H. injection H as <- <-. exists []. split; [reflexivity|]. cbn. lia. Qed.
Lemma Sz_one : SzP 0 one (fun b => [b]).
Proof. intros [|b l] v rest H; [discriminate|]. injection H as <- <-. exists [b]. split; reflexivity. Qed.
Lemma Sz_named {A B} n code all c (K : A -> dec B) e : (forall x, SzP n (K x) e) -> SzP n (andthen (named code all c) K) e.
Proof.
  intros H l v rest. unfold andthen, named. destruct (find _ all) as [x|]; [exact (H x l v rest)|discriminate].
Qed.
Lemma Sz_perhaps {A} c (D : dec A) e : SzP 0 D e -> SzP 0 (perhaps c D) (opt_bytes e).
Proof.
  intros H. unfold perhaps. destruct c; [|apply Sz_give; reflexivity]. eapply Sz_bind; [exact H|]. intros x. apply Sz_give. reflexivity.
Qed.
Lemma Sz_num k : SzP 0 (num k) (fun v => be_bytes (N.to_nat k) v).
Proof.
  intros l v rest H. unfold num in H. apply andthen_some in H as (t & l1 & H1 & H). injection H as <- <-.
  apply some_bytes_inv in H1 as (-> & L). exists t. split; [reflexivity|]. rewrite be_bytes_length. exact L.
Qed.
Lemma Sz_varint : SzP 0 dec_varint enc_varint.
Proof. unfold dec_varint. eapply Sz_bind; [exact Sz_one|]. intros b. apply Sz_give. reflexivity. Qed.
Lemma Sz_address t : SzP 0 (dec_address t) enc_address.
Proof.
  destruct t; cbn [dec_address].
  - eapply Sz_bind; [exact Sz_varint|]. intros v. apply Sz_give. reflexivity.
  - apply Sz_give. reflexivity.
  - eapply Sz_bind; [apply Sz_num|]. intros v. apply Sz_give. reflexivity.
  - eapply Sz_bind; [apply Sz_num|]. intros v. apply Sz_give. reflexivity.
Qed.

(** ** The headers, field by field *)
Lemma Can_perhaps {A} c (D S : dec A) e : Can D S e -> Can (perhaps c D) (perhaps c S) (opt_bytes e).
Proof.
  intros H. unfold perhaps. destruct c; [|apply Can_give; reflexivity]. eapply Can_tail; [exact H|]. reflexivity.
Qed.
Definition no_tframe : tframe := mkTFrame no_flags 0 0 None None None None None [].
Definition no_nframe : nframe := mkNFrame (mkNControl false false AtNoId NlsNone) None (mkAccessClass 0 0) NoId no_tframe.

Lemma control_byte c : c < 256 -> 64 * part 6 2 c + part 0 6 c = c.
Proof. intros Hc. exh c Hc. Qed.
Lemma Can_link : Can dec_link strict_link (fun x => enc_link (snd x no_nframe 0)).
Proof.
  unfold dec_link, strict_link. eapply Can_bind; [exact Can_length|]. intros n. apply Can_byte. intros s Hs.
  apply Can_byte. intros c Hc. apply Can_named. intros t Ht. eapply Can_tail; [apply Can_address|]. intros a.
  unfold enc_link. cbn [snd ff_length ff_subnet ff_type ff_eirp ff_target]. rewrite Ht, control_byte by exact Hc.
  cbn [app]. rewrite <- !app_assoc. reflexivity.
Qed.
Lemma Can_hopping : Can dec_hopping strict_hopping enc_hop.
Proof.
  unfold dec_hopping, strict_hopping.
  apply (Can_pad (fun b => 64 * part 6 1 b + 16 * part 4 2 b)); [intros b Hb; exh b Hb|intros b l Hb; same_parts b Hb; reflexivity|].
  intros b Hb. apply Can_named. intros t Ht. apply Can_give. unfold enc_hop. cbn [hp_counter hp_dest app]. rewrite Ht.
  assert (X : bit (flag 6 b) = part 6 1 b) by exh b Hb. rewrite X. reflexivity.
Qed.
Definition s_net (c : ncontrol) : dec (tframe -> nframe) :=
  let* h := perhaps (nc_hopping c) strict_hopping in
  let* k := one in
  let* a := strict_address (nc_origin_type c) in
  give (mkNFrame c h (mkAccessClass (part 4 4 k) (part 0 4 k)) a).
Definition e_net (f : tframe -> nframe) : list N := enc_net (f no_tframe).
Lemma Can_d_net c : Can (d_net c) (s_net c) e_net.
Proof.
  apply (Can_ext _ (let* h := perhaps (nc_hopping c) dec_hopping in let* k := one in
    let* a := dec_address (nc_origin_type c) in give (mkNFrame c h (mkAccessClass (part 4 4 k) (part 0 4 k)) a)) _ (s_net c)).
  - unfold s_net. eapply Can_bind; [apply Can_perhaps, Can_hopping|]. intros h. apply Can_byte. intros k Hk.
    eapply Can_tail; [apply Can_address|]. intros a. unfold e_net, enc_net. cbn [nf_hopping nf_access nf_origin].
    rewrite class_byte by exact Hk. cbn [app]. rewrite <- ?app_assoc. reflexivity.
  - intros l. unfold d_net, andthen, give. destruct (perhaps (nc_hopping c) dec_hopping l) as [[h l1]|]; [|reflexivity].
    destruct (one l1) as [[k l2]|]; reflexivity.
  - reflexivity.
Qed.
Lemma Sz_d_net c : SzP 0 (d_net c) e_net.
Proof.
  unfold d_net. eapply Sz_bind; [apply Sz_perhaps; eapply (Sz_bind 0 one _ _ enc_hop); [exact Sz_one|]; intros b; apply Sz_named; intros t; apply Sz_give; reflexivity|].
  intros h. eapply (Sz_bind _ _ _ (fun k => [enc_access_class k])).
  { eapply Sz_bind; [exact Sz_one|]. intros k. apply Sz_give. reflexivity. }
  intros k. eapply Sz_bind; [apply Sz_address|]. intros a. apply Sz_give. unfold e_net, enc_net.
  cbn [nf_hopping nf_access nf_origin]. rewrite !app_length. cbn [length]. lia.
Qed.
Definition e_trans (f : command -> tframe) : list N := enc_trans (f []).
Lemma Can_trans c : Can (dec_trans c) (strict_trans c) e_trans.
Proof.
  unfold dec_trans, strict_trans. apply Can_byte. intros d Hd. apply Can_byte. intros t Ht.
  eapply Can_bind; [apply Can_perhaps, Can_one|]. intros x.
  eapply Can_bind; [apply Can_perhaps, Can_varint|]. intros l.
  eapply Can_bind; [apply Can_perhaps, Can_varint|]. intros e.
  eapply Can_bind; [apply Can_perhaps, Can_varint|]. intros g.
  eapply Can_tail; [apply Can_perhaps|].
  - apply (Can_byte [] _ _ (fun a => [ack_start a; ack_stop a])). intros a Ha. apply Can_byte. intros b Hb. apply Can_give. reflexivity.
  - intros a. unfold e_trans, enc_trans. cbn [tf_dialog tf_transaction tf_target_rx tf_listen tf_exec_delay tf_congestion tf_ack].
    cbn [app]. rewrite <- !app_assoc. reflexivity.
Qed.
Lemma Sz_trans c : SzP 0 (dec_trans c) e_trans.
Proof.
  unfold dec_trans. eapply Sz_bind; [exact Sz_one|]. intros d. eapply Sz_bind; [exact Sz_one|]. intros t.
  eapply Sz_bind; [apply Sz_perhaps, Sz_one|]. intros x.
  eapply Sz_bind; [apply Sz_perhaps, Sz_varint|]. intros l.
  eapply Sz_bind; [apply Sz_perhaps, Sz_varint|]. intros e.
  eapply Sz_bind; [apply Sz_perhaps, Sz_varint|]. intros g.
  eapply (Sz_bind _ _ _ (opt_bytes (fun a => [ack_start a; ack_stop a]))).
  { apply Sz_perhaps. eapply (Sz_bind 0 one _ (fun b => [b])); [exact Sz_one|]. intros a. eapply Sz_bind; [exact Sz_one|]. intros b. apply Sz_give. reflexivity. }
  intros a. apply Sz_give. unfold e_trans, enc_trans.
  cbn [tf_dialog tf_transaction tf_target_rx tf_listen tf_exec_delay tf_congestion tf_ack].
  rewrite !app_length. cbn [length]. lia.
Qed.

(** ** Bytes one or seven bits late *)
Lemma late_bits (j : nat) X x tl : (1 <= j <= 7)%nat -> X = x :: tl -> bytes X ->
  bits_of_bytes X = bits_of j (x / 2 ^ N.of_nat (8 - j)) ++ bits_of_bytes (late (N.of_nat j) X) ++ bits_of (8 - j) (last X 0).
Proof.
  intros Hj. revert x tl. induction X as [|a X IH]; intros x tl H B; [discriminate|]. injection H as <- <-.
  apply Forall_cons_iff in B as [Ba B].
  assert (H8 : forall b, bits_of 8 b = bits_of j (b / 2 ^ N.of_nat (8 - j)) ++ bits_of (8 - j) b).
  { intros b. replace 8%nat with (j + (8 - j))%nat at 1 by lia. apply bits_of_app. }
  rewrite bits_of_bytes_cons, H8, <- app_assoc. f_equal. destruct X as [|b X].
  - cbn [late last bits_of_bytes app]. apply app_nil_r.
  - pose proof B as B2. apply Forall_cons_iff in B2 as [Bb _]. rewrite (IH b X eq_refl B).
    change (last (a :: b :: X) 0) with (last (b :: X) 0). cbn [late].
    rewrite bits_of_bytes_cons, <- app_assoc, app_assoc. f_equal.
    assert (HB : forall u y, y < 2 ^ N.of_nat j -> bits_of 8 (u * 2 ^ N.of_nat j + y) = bits_of (8 - j) u ++ bits_of j y).
    { intros u y Hy. rewrite <- bits_of_join by exact Hy. f_equal. lia. }
    replace (2 ^ (8 - N.of_nat j)) with (2 ^ N.of_nat (8 - j)) by (f_equal; lia).
    rewrite HB.
    + rewrite <- bits_of_mod. reflexivity.
    + apply N.div_lt_upper_bound; [apply N.pow_nonzero; discriminate|]. rewrite <- N.pow_add_r.
      replace (N.of_nat (8 - j) + N.of_nat j) with 8 by lia. exact Bb.
Qed.
Lemma late_first j k l : (k < length l)%nat -> firstn k (late j l) = late j (firstn (S k) l).
Proof.
  revert l. induction k as [|k IH]; intros l H.
  - destruct l as [|a [|b l]]; reflexivity.
  - destruct l as [|a [|b l]]; [cbn in H; lia|cbn in H; lia|].
    change (firstn (S k) (late j (a :: b :: l))) with
      ((a mod 2 ^ (8 - j) * 2 ^ j + b / 2 ^ (8 - j)) :: firstn k (late j (b :: l))).
    change (late j (firstn (S (S k)) (a :: b :: l))) with
      ((a mod 2 ^ (8 - j) * 2 ^ j + b / 2 ^ (8 - j)) :: late j (firstn (S k) (b :: l))).
    rewrite IH by (cbn [length] in *; lia). reflexivity.
Qed.

(** ** Both headers *)
Definition hdr_fields {E : Env} (n : nframe) : list (N * N) :=
  ncontrol_fields (nf_control n) ++ network_fields n ++ tcontrol_fields (tf_control (nf_frame n)) ++ transport_fields (nf_frame n).
Definition bits_same (f g : N -> list bool) : Prop := forall b, b < 256 -> f b = g b.
Lemma bits_same_check (f g : N -> list bool) :
  forallb (fun b => if list_eq_dec bool_dec (f b) (g b) then true else false) every_byte = true -> bits_same f g.
Proof.
  intros H b Hb. rewrite forallb_forall in H. specialize (H b (every_byte_in b Hb)).
  destruct (list_eq_dec bool_dec (f b) (g b)); [assumption|discriminate].
Qed.
Definition cleared (c : N) : N := c - 8 * part 3 1 c.
Lemma cleared_same c : c < 256 -> (part 3 1 c =? 0) = (cleared c =? c).
Proof. intros Hc. unfold cleared. exh c Hc. Qed.
Lemma cleared_byte c : c < 256 -> cleared c < 256.
Proof. unfold cleared. lia. Qed.
Lemma ncontrol_8 {E : Env} c t n : e_feat = Wizzilab -> c < 256 -> code_address_type t = part 4 2 c -> code_nls n = part 0 3 c ->
  bits_of_fields (ncontrol_fields (mkNControl (flag 7 c) (flag 6 c) t n)) = bits_of 8 (cleared c).
Proof.
  intros HF Hc Ht Hn. unfold ncontrol_fields, nls_width. rewrite HF. cbn [nc_no_origin nc_hopping nc_origin_type nc_nls]. rewrite Ht, Hn.
  revert c Hc Ht Hn. assert (X : bits_same (fun c => bits_of_fields [(1, bit (flag 7 c)); (1, bit (flag 6 c)); (2, part 4 2 c); (1, 0); (3, part 0 3 c)])
    (fun c => bits_of 8 (cleared c))) by (apply bits_same_check; vm_compute; reflexivity). intros c Hc _ _. exact (X c Hc).
Qed.
Lemma ncontrol_9 {E : Env} c y t n : e_feat <> Wizzilab -> c < 256 -> y < 2 -> code_address_type t = part 4 2 c ->
  code_nls n = 2 * part 0 3 c + y ->
  bits_of_fields (ncontrol_fields (mkNControl (flag 7 c) (flag 6 c) t n)) = bits_of 8 (cleared c) ++ bits_of 1 y.
Proof.
  intros HF Hc Hy Ht Hn. unfold ncontrol_fields. assert (W4 : nls_width = 4) by (unfold nls_width; destruct e_feat; congruence).
  rewrite W4. cbn [nc_no_origin nc_hopping nc_origin_type nc_nls]. rewrite Ht, Hn.
  assert (X : forall b, (b = 0 \/ b = 1) -> bits_same (fun c => bits_of_fields [(1, bit (flag 7 c)); (1, bit (flag 6 c)); (2, part 4 2 c); (1, 0); (4, 2 * part 0 3 c + b)])
    (fun c => bits_of 8 (cleared c) ++ bits_of 1 b)) by (intros b [-> | ->]; apply bits_same_check; vm_compute; reflexivity).
  exact (X y ltac:(lia) c Hc).
Qed.
Lemma tcontrol_7 c : c < 128 -> bits_of_fields (tcontrol_fields (tc_of c)) = bits_of 7 c.
Proof.
  intros Hc. assert (X : forall c, c < 128 -> (fun c => if c <? 128 then bits_of_fields (tcontrol_fields (tc_of c)) else []) c = (fun c => if c <? 128 then bits_of 7 c else []) c).
  { intros b Hb. refine (bits_same_check (fun c => if c <? 128 then bits_of_fields (tcontrol_fields (tc_of c)) else []) (fun c => if c <? 128 then bits_of 7 c else []) _ b _);
      [vm_compute; reflexivity|lia]. }
  specialize (X c Hc). cbv beta in X. assert (Q : (c <? 128) = true) by lia. rewrite Q in X. exact X.
Qed.

Lemma net_eq c nls l : dec_net c nls l =
    match find (fun v => code_address_type v =? part 4 2 c) address_types, find (fun v => code_nls v =? nls) all_nls with
    | Some t, Some n => d_net (mkNControl (flag 7 c) (flag 6 c) t n) l
    | _, _ => None
    end.
Proof.
  rewrite dec_net_eq. unfold andthen, named, give, reject.
  destruct (find (fun v => code_address_type v =? _) _); [|reflexivity]. destruct (find (fun v => code_nls v =? _) _); reflexivity.
Qed.
Lemma strict_net_eq c nls l : strict_net c nls l = if part 3 1 c =? 0 then
    match find (fun v => code_address_type v =? part 4 2 c) address_types, find (fun v => code_nls v =? nls) all_nls with
    | Some t, Some n => s_net (mkNControl (flag 7 c) (flag 6 c) t n) l
    | _, _ => None
    end else None.
Proof.
  unfold strict_net, only. destruct (part 3 1 c =? 0); [|reflexivity]. unfold andthen, named, give, reject.
  destruct (find (fun v => code_address_type v =? _) _); [|reflexivity]. destruct (find (fun v => code_nls v =? _) _); reflexivity.
Qed.
(** The network header: what is read is [q]; [e_net] is what is written for it. *)
Lemma net_canon c nls l : c < 256 -> bytes l ->
  match dec_net c nls l with
  | Some (net, rest) => bytes rest /\ exists q t n, l = q ++ rest /\ length q = length (e_net net) /\
      code_address_type t = part 4 2 c /\ code_nls n = nls /\
      (forall x, nf_control (net x) = mkNControl (flag 7 c) (flag 6 c) t n /\ enc_net (net x) = e_net net /\ nf_frame (net x) = x) /\
      (strict_net c nls l = Some (net, rest) /\ cleared c = c /\ q = e_net net \/
       strict_net c nls l = None /\ ~ (cleared c = c /\ q = e_net net))
  | None => strict_net c nls l = None
  end.
Proof.
  intros Hc Hl. rewrite net_eq, strict_net_eq, (cleared_same c Hc).
  destruct (find (fun v => code_address_type v =? part 4 2 c) address_types) as [t|] eqn:Ft; [|destruct (_ =? _); reflexivity].
  destruct (find (fun v => code_nls v =? nls) all_nls) as [n|] eqn:Fn; [|destruct (_ =? _); reflexivity].
  apply find_some in Ft as [_ Ft]. apply N.eqb_eq in Ft. apply find_some in Fn as [_ Fn]. apply N.eqb_eq in Fn.
  set (nc := mkNControl (flag 7 c) (flag 6 c) t n).
  pose proof (Can_d_net nc l Hl) as C. destruct (d_net nc l) as [[net rest]|] eqn:D.
  2: { rewrite C. destruct (_ =? _); reflexivity. }
  destruct C as (Br & t' & T & _ & C). cbn [app] in T. subst t'. split; [exact Br|].
  destruct (Sz_d_net nc l net rest D) as (q & Hq & Lq). cbn [Nat.add] in Lq. exists q, t, n.
  split; [exact Hq|]. split; [exact Lq|]. split; [exact Ft|]. split; [exact Fn|]. split.
  - intros x. unfold d_net in D. apply andthen_some in D as (h & l1 & _ & D). apply andthen_some in D as (k & l2 & _ & D).
    apply andthen_some in D as (a & l3 & _ & D). injection D as <- _. repeat split.
  - destruct (N.eqb_spec (cleared c) c) as [Q|Q].
    + destruct C as [(-> & C)|(-> & C)]; [left|right]; (split; [reflexivity|]).
      * split; [exact Q|]. rewrite Hq in C. apply app_inv_tail in C. exact C.
      * intros (_ & G). apply C. rewrite Hq, G. reflexivity.
    + right. split; [reflexivity|]. tauto.
Qed.
Lemma trans_canon c l : c < 128 -> bytes l ->
  match dec_trans c l with
  | Some (tr, rest) => bytes rest /\ exists q, l = q ++ rest /\ length q = length (e_trans tr) /\
      (forall m, tf_control (tr m) = tc_of c /\ enc_trans (tr m) = e_trans tr) /\
      (strict_trans c l = Some (tr, rest) /\ q = e_trans tr \/ strict_trans c l = None /\ q <> e_trans tr)
  | None => strict_trans c l = None
  end.
Proof.
  intros Hc Hl. pose proof (Can_trans c l Hl) as C. destruct (dec_trans c l) as [[tr rest]|] eqn:D; [|exact C].
  destruct C as (Br & t' & T & _ & C). cbn [app] in T. subst t'. split; [exact Br|].
  destruct (Sz_trans c l tr rest D) as (q & Hq & Lq). cbn [Nat.add] in Lq. exists q.
  split; [exact Hq|]. split; [exact Lq|]. split.
  - intros m. unfold dec_trans in D. do 7 (apply andthen_some in D as (? & ? & _ & D)). injection D as <- _. split; reflexivity.
  - destruct C as [(-> & C)|(-> & C)]; [left|right]; (split; [reflexivity|]).
    + rewrite Hq in C. apply app_inv_tail in C. exact C.
    + intros G. apply C. rewrite Hq, G. reflexivity.
Qed.

(** What is read is [p], its bits without the one that is lost are [hb]. *)
Definition head_can {E : Env} (l : list N) : Prop :=
  match dec_headers l with
  | Some (net, l1) => exists p hb w, l = p ++ l1 /\ (2 <= length p)%nat /\ bits_of_bytes p = hb ++ w /\ w = bits_of lost (last p 0) /\
      (forall m, length (bits_of_fields (hdr_fields (net m))) = length hb) /\
      (strict_headers l = Some (net, l1) /\ (forall m, bits_of_fields (hdr_fields (net m)) = hb) \/
       strict_headers l = None /\ forall m, bits_of_fields (hdr_fields (net m)) <> hb)
  | None => strict_headers l = None
  end.
Lemma app_same {A} (a b c d : list A) : length a = length c -> (a ++ b = c ++ d <-> a = c /\ b = d).
Proof.
  intros H. split; [|intros (-> & ->); reflexivity].
  revert c H. induction a as [|x a IH]; intros [|y c] H G; cbn in H; try discriminate; [auto|].
  cbn [app] in G. injection G as -> G. destruct (IH c ltac:(lia) G) as (-> & ->). auto.
Qed.
Lemma bytes_bits a b : bytes a -> bytes b -> (bits_of_bytes a = bits_of_bytes b <-> a = b).
Proof. intros Ha Hb. split; [apply bits_of_bytes_inj; assumption|intros ->; reflexivity]. Qed.
Lemma hdr_bits {E : Env} n net tr t7 m :
  (forall x, nf_control (net x) = n /\ enc_net (net x) = e_net net /\ nf_frame (net x) = x) ->
  (forall m, tf_control (tr m) = tc_of t7 /\ enc_trans (tr m) = e_trans tr) -> t7 < 128 ->
  bits_of_fields (hdr_fields (net (tr m))) =
    bits_of_fields (ncontrol_fields n) ++ bits_of_bytes (e_net net) ++ bits_of 7 t7 ++ bits_of_bytes (e_trans tr).
Proof.
  intros HN HT H7. destruct (HN (tr m)) as (N1 & N2 & N3). destruct (HT m) as (T1 & T2).
  unfold hdr_fields. rewrite !bits_of_fields_app, net_bits, trans_bits, N1, N2, N3, T1, T2, tcontrol_7 by exact H7. reflexivity.
Qed.
Lemma firstn_bytes k l : bytes l -> bytes (firstn k l).
Proof. intros H. rewrite <- (firstn_skipn k l) in H. apply Forall_app in H. apply H. Qed.
Lemma skipn_bytes k l : bytes l -> bytes (skipn k l).
Proof. intros H. rewrite <- (firstn_skipn k l) in H. apply Forall_app in H. apply H. Qed.

(** What is written is bytes. *)
Lemma Post_perhaps {A} c (D : dec A) (P : A -> Prop) (Q : option A -> Prop) : Post D P -> Q None -> (forall x, P x -> Q (Some x)) -> Post (perhaps c D) Q.
Proof.
  intros H HN HS. unfold perhaps. destruct c; [|apply Post_give; exact HN]. eapply Post_bind; [exact H|]. intros x Hx. apply Post_give. auto.
Qed.
Lemma Post_varint : Post dec_varint (fun v => bytes (enc_varint v)).
Proof.
  unfold dec_varint. eapply Post_bind; [exact Post_one|]. intros b Hb. apply Post_give. cbv beta. apply Forall_cons; [|constructor].
  unfold byte. assert (X : (match enc_varint (mkVarInt (b mod 32 * 4 ^ (b / 32)) false) with x :: _ => x | [] => 0 end <? 256) = true) by exh b Hb.
  apply N.ltb_lt in X. exact X.
Qed.
Lemma Post_address t : Post (dec_address t) (fun a => bytes (enc_address a)).
Proof.
  destruct t; cbn [dec_address].
  - eapply Post_bind; [exact Post_varint|]. intros v Hv. apply Post_give. exact Hv.
  - apply Post_give. constructor.
  - eapply Post_bind; [eapply Post_true; apply Can_num|]. intros v _. apply Post_give. apply be_bytes_bytes.
  - eapply Post_bind; [eapply Post_true; apply Can_num|]. intros v _. apply Post_give. apply be_bytes_bytes.
Qed.
Lemma hop_bytes h : bytes (enc_hop h).
Proof. destruct h as [[] []]; repeat constructor. Qed.
Lemma Post_net c : Post (d_net c) (fun f => bytes (e_net f)).
Proof.
  unfold d_net. apply (Post_bind _ _ (fun o => bytes (opt_bytes enc_hop o))).
  { apply (Post_perhaps _ _ (fun _ => True)); [eapply Post_true; exact Can_hopping|constructor|intros x _; apply hop_bytes]. }
  intros h Hh. apply (Post_bind _ _ (fun k => enc_access_class k < 256)).
  { eapply Post_bind; [exact Post_one|]. intros k Hk. apply Post_give. rewrite class_byte; exact Hk. }
  intros k Hk. eapply Post_bind; [apply Post_address|]. intros a Ha. apply Post_give. unfold e_net, enc_net. cbn [nf_hopping nf_access nf_origin].
  apply Forall_app. split; [exact Hh|]. cbn [app]. apply Forall_cons; assumption.
Qed.
Lemma Post_trans c : Post (dec_trans c) (fun f => bytes (e_trans f)).
Proof.
  unfold dec_trans. eapply Post_bind; [exact Post_one|]. intros d Hd. eapply Post_bind; [exact Post_one|]. intros t Ht.
  apply (Post_bind _ _ (fun o => bytes (opt_bytes (fun x => [x]) o))).
  { apply (Post_perhaps _ _ (fun b => b < 256)); [exact Post_one|constructor|intros x Hx; repeat constructor; exact Hx]. }
  intros x Hx.
  assert (V : forall b, Post (perhaps b dec_varint) (fun o => bytes (opt_bytes enc_varint o))).
  { intros b. eapply Post_perhaps; [exact Post_varint|constructor|intros v Hv; exact Hv]. }
  eapply Post_bind; [apply V|]. intros l Hl. eapply Post_bind; [apply V|]. intros e He. eapply Post_bind; [apply V|]. intros g Hg.
  apply (Post_bind _ _ (fun o => bytes (opt_bytes (fun a => [ack_start a; ack_stop a]) o))).
  { apply (Post_perhaps _ _ (fun a => bytes [ack_start a; ack_stop a])); [|constructor|intros a Ha; exact Ha].
    eapply Post_bind; [exact Post_one|]. intros a Ha. eapply Post_bind; [exact Post_one|]. intros b Hb. apply Post_give.
    apply Forall_cons; [exact Ha|]. apply Forall_cons; [exact Hb|constructor]. }
  intros a Ha. apply Post_give. unfold e_trans, enc_trans. cbn [tf_dialog tf_transaction tf_target_rx tf_listen tf_exec_delay tf_congestion tf_ack].
  cbn [app]. apply Forall_cons; [exact Hd|]. apply Forall_cons; [exact Ht|]. repeat (apply Forall_app; split); assumption.
Qed.
Lemma dec_net_bytes c nls l net rest : dec_net c nls l = Some (net, rest) -> bytes l -> bytes (e_net net).
Proof.
  intros D Hl. rewrite net_eq in D. destruct (find _ address_types) as [t|]; [|discriminate]. destruct (find _ all_nls) as [n|]; [|discriminate].
  exact (proj1 (Post_net _ _ _ _ Hl D)).
Qed.
Lemma dec_trans_bytes c l tr rest : dec_trans c l = Some (tr, rest) -> bytes l -> bytes (e_trans tr).
Proof. intros D Hl. exact (proj1 (Post_trans _ _ _ _ Hl D)). Qed.

Lemma part_lt lo w b : part lo w b < 2 ^ w.
Proof. unfold part. apply N.mod_lt, N.pow_nonzero. discriminate. Qed.
Lemma head_can_other {E : Env} l : e_feat <> Wizzilab -> bytes l -> head_can l.
Proof.
  intros HF Hl. assert (HL : lost = 0%nat) by (unfold lost; destruct e_feat; congruence).
  unfold head_can. rewrite HL.
  destruct l as [|c [|x tl]]; [unfold dec_headers, strict_headers; destruct e_feat; try reflexivity; congruence..|].
  assert (HD : dec_headers (c :: x :: tl) =
      match dec_net c (2 * part 0 3 c + part 7 1 x) (late 1 (x :: tl)) with
      | Some (net, rest) =>
          match skipn (length (late 1 (x :: tl)) - length rest) (x :: tl) with
          | y :: more => match dec_trans (part 0 7 y) more with Some (tr, rest') => Some (fun m => net (tr m), rest') | None => None end
          | [] => None
          end
      | None => None
      end) by (unfold dec_headers; destruct e_feat; [reflexivity|reflexivity|congruence]).
  assert (HS : strict_headers (c :: x :: tl) =
      match strict_net c (2 * part 0 3 c + part 7 1 x) (late 1 (x :: tl)) with
      | Some (net, rest) =>
          match skipn (length (late 1 (x :: tl)) - length rest) (x :: tl) with
          | y :: more => match strict_trans (part 0 7 y) more with Some (tr, rest') => Some (fun m => net (tr m), rest') | None => None end
          | [] => None
          end
      | None => None
      end) by (unfold strict_headers; destruct e_feat; [reflexivity|reflexivity|congruence]).
  rewrite HD, HS. clear HD HS.
  pose proof Hl as Hl2. apply Forall_cons_iff in Hl2 as [Hc Hl2].
  pose proof (bytes_late 1 _ ltac:(lia) Hl2) as BL.
  pose proof (net_canon c (2 * part 0 3 c + part 7 1 x) _ Hc BL) as C.
  destruct (dec_net c (2 * part 0 3 c + part 7 1 x) (late 1 (x :: tl))) as [[net rest]|] eqn:DN; [|rewrite C; reflexivity].
  destruct C as (Br & q & t & n & Hq & Lq & Ht & Hn & HN & C).
  pose proof (dec_net_bytes _ _ _ _ _ DN BL) as Bn. clear DN.
  assert (LL : (length (late 1 (x :: tl)) - length rest = length q)%nat) by (rewrite Hq, app_length; lia).
  assert (Lk : (length q <= length tl)%nat).
  { pose proof (late_length 1 (x :: tl)) as G. rewrite Hq, app_length in G. cbn [length Nat.pred] in G. lia. }
  destruct (skipn (length (late 1 (x :: tl)) - length rest) (x :: tl)) as [|y more] eqn:Y.
  { apply (f_equal (@length N)) in Y. rewrite skipn_length in Y. cbn [length] in Y. lia. }
  assert (X : x :: tl = firstn (length q) (x :: tl) ++ y :: more) by (rewrite <- Y, LL, firstn_skipn; reflexivity).
  assert (Bm : bytes more). { rewrite X in Hl2. apply Forall_app in Hl2 as [_ G]. apply Forall_cons_iff in G. apply G. }
  pose proof (trans_canon (part 0 7 y) more (part_lt 0 7 y) Bm) as C'.
  destruct (dec_trans (part 0 7 y) more) as [[tr rest']|] eqn:DT.
  2: { destruct C as [(-> & _)|(-> & _)]; [rewrite Y, C'|]; reflexivity. }
  destruct C' as (_ & q' & Hq' & Lq' & HT & C').
  pose proof (dec_trans_bytes _ _ _ _ DT Bm) as Bt. clear DT.
  set (u := firstn (S (length q)) (x :: tl)).
  assert (Hu : u = firstn (length q) (x :: tl) ++ [y]).
  { unfold u. rewrite X at 1. rewrite firstn_app. rewrite firstn_all2 by (rewrite firstn_length; lia).
    replace (S (length q) - length (firstn (length q) (x :: tl)))%nat with 1%nat by (rewrite firstn_length; cbn [length]; lia). reflexivity. }
  assert (Bu : bytes u) by (apply firstn_bytes; exact Hl2).
  assert (Hu1 : exists w, u = x :: w) by (eexists; reflexivity). destruct Hu1 as (w & Hu1).
  assert (Hlate : late 1 u = q).
  { unfold u. rewrite <- late_first by (cbn [length]; lia). rewrite Hq, firstn_app, firstn_all, Nat.sub_diag. apply app_nil_r. }
  assert (Hlast : last u 0 = y) by (rewrite Hu; apply last_last).
  pose proof (late_bits 1 u x w ltac:(lia) Hu1 Bu) as Ubits. change (N.of_nat 1) with 1 in Ubits.
  rewrite Hlate, Hlast in Ubits. change (8 - 1)%nat with 7%nat in Ubits.
  assert (Px : bits_of 1 (x / 2 ^ N.of_nat 7) = bits_of 1 (part 7 1 x)) by (unfold part; change (2 ^ 1) with (2 ^ N.of_nat 1); rewrite <- bits_of_mod; reflexivity).
  assert (Py : bits_of 7 y = bits_of 7 (part 0 7 y)) by (unfold part; rewrite N.div_1_r; change (2 ^ 7) with (2 ^ N.of_nat 7); rewrite <- bits_of_mod; reflexivity).
  rewrite Px, Py in Ubits. clear Px Py.
  assert (Bq : bytes q). { rewrite Hq in BL. apply Forall_app in BL. apply BL. }
  assert (Bq' : bytes q'). { rewrite Hq' in Bm. apply Forall_app in Bm. apply Bm. }
  pose proof (fun m => hdr_bits _ net tr (part 0 7 y) m HN HT (part_lt 0 7 y)) as HB.
  rewrite (ncontrol_9 c (part 7 1 x) t n HF Hc (part_lt 7 1 x) Ht Hn) in HB.
  exists (c :: u ++ q'), (bits_of 8 c ++ bits_of 1 (part 7 1 x) ++ bits_of_bytes q ++ bits_of 7 (part 0 7 y) ++ bits_of_bytes q'), [].
  split. { rewrite X, Hu, Hq'. cbn [app]. rewrite <- !app_assoc. reflexivity. }
  split. { rewrite Hu1. cbn [length app]. lia. }
  split. { rewrite bits_of_bytes_cons, bits_of_bytes_app, Ubits, app_nil_r, <- !app_assoc. reflexivity. }
  split. { reflexivity. }
  split. { intros m. rewrite HB, !app_length, !bits_of_length, !bits_of_bytes_length, Lq, Lq'. lia. }
  assert (EQ : forall m, bits_of_fields (hdr_fields (net (tr m))) =
     bits_of 8 c ++ bits_of 1 (part 7 1 x) ++ bits_of_bytes q ++ bits_of 7 (part 0 7 y) ++ bits_of_bytes q' <->
     cleared c = c /\ q = e_net net /\ q' = e_trans tr).
  { intros m. rewrite HB, <- !app_assoc. rewrite app_same by (rewrite !bits_of_length; reflexivity).
    rewrite app_same by (rewrite !bits_of_length; reflexivity).
    rewrite app_same by (rewrite !bits_of_bytes_length, Lq; reflexivity).
    rewrite app_same by (rewrite !bits_of_length; reflexivity).
    rewrite !bytes_bits by assumption. split.
    - intros (G1 & _ & -> & _ & ->). split; [|split; reflexivity].
      exact (bits_of_inj 8 _ _ (cleared_byte c Hc) Hc G1).
    - intros (-> & -> & ->). repeat split. }
  destruct C as [(-> & C1 & C2)|(-> & C)].
  - rewrite Y. destruct C' as [(-> & C3)|(-> & C3)].
    + left. split; [reflexivity|]. intros m. apply EQ. auto.
    + right. split; [reflexivity|]. intros m G. apply EQ in G. apply C3, G.
  - right. split; [reflexivity|]. intros m G. apply EQ in G. apply C. split; apply G.
Qed.
Lemma last_app {A} (a b : list A) d : b <> [] -> last (a ++ b) d = last b d.
Proof.
  intros H. destruct (exists_last H) as (b' & x & ->). rewrite app_assoc, !last_last. reflexivity.
Qed.
Lemma head_can_wizzilab {E : Env} l : e_feat = Wizzilab -> bytes l -> head_can l.
Proof.
  intros HF Hl. assert (HL : lost = 1%nat) by (unfold lost; rewrite HF; reflexivity).
  unfold head_can. rewrite HL. unfold dec_headers, strict_headers. rewrite HF. destruct l as [|c tl]; [reflexivity|].
  pose proof Hl as Hl2. apply Forall_cons_iff in Hl2 as [Hc Hl2].
  pose proof (net_canon c (part 0 3 c) tl Hc Hl2) as C.
  destruct (dec_net c (part 0 3 c) tl) as [[net more0]|] eqn:DN; [|rewrite C; reflexivity].
  destruct C as (Br & q & t & n & Hq & Lq & Ht & Hn & HN & C).
  pose proof (dec_net_bytes _ _ _ _ _ DN Hl2) as Bn. clear DN.
  destruct more0 as [|x more]; [destruct C as [(-> & _)|(-> & _)]; reflexivity|].
  pose proof (bytes_late 7 _ ltac:(lia) Br) as BL.
  pose proof (trans_canon (part 1 7 x) _ (part_lt 1 7 x) BL) as C'.
  destruct (dec_trans (part 1 7 x) (late 7 (x :: more))) as [[tr rest']|] eqn:DT.
  2: { destruct C as [(-> & _)|(-> & _)]; [rewrite C'|]; reflexivity. }
  destruct C' as (_ & q' & Hq' & Lq' & HT & C').
  pose proof (dec_trans_bytes _ _ _ _ DT BL) as Bt. clear DT.
  assert (LL : length more = (length q' + length rest')%nat).
  { pose proof (late_length 7 (x :: more)) as G. rewrite Hq', app_length in G. cbn [length Nat.pred] in G. lia. }
  set (u := firstn (S (length q')) (x :: more)).
  assert (Hu : x :: more = u ++ skipn (length (x :: more) - length rest') (x :: more)).
  { replace (length (x :: more) - length rest')%nat with (S (length q')) by (cbn [length]; lia). unfold u. rewrite firstn_skipn. reflexivity. }
  assert (Bu : bytes u) by (apply firstn_bytes; exact Br).
  assert (Hu1 : exists w, u = x :: w) by (eexists; reflexivity). destruct Hu1 as (w & Hu1).
  assert (Hlate : late 7 u = q').
  { unfold u. rewrite <- late_first by (cbn [length]; lia). rewrite Hq', firstn_app, firstn_all, Nat.sub_diag. apply app_nil_r. }
  pose proof (late_bits 7 u x w ltac:(lia) Hu1 Bu) as Ubits. change (N.of_nat 7) with 7 in Ubits.
  rewrite Hlate in Ubits. change (8 - 7)%nat with 1%nat in Ubits.
  assert (Px : bits_of 7 (x / 2 ^ N.of_nat 1) = bits_of 7 (part 1 7 x)) by (unfold part; change (2 ^ 7) with (2 ^ N.of_nat 7); rewrite <- bits_of_mod; reflexivity).
  rewrite Px in Ubits. clear Px.
  assert (Bq : bytes q). { rewrite Hq in Hl2. apply Forall_app in Hl2. apply Hl2. }
  assert (Bq' : bytes q'). { rewrite Hq' in BL. apply Forall_app in BL. apply BL. }
  pose proof (fun m => hdr_bits _ net tr (part 1 7 x) m HN HT (part_lt 1 7 x)) as HB.
  rewrite (ncontrol_8 c t n HF Hc Ht Hn) in HB.
  exists (c :: q ++ u), (bits_of 8 c ++ bits_of_bytes q ++ bits_of 7 (part 1 7 x) ++ bits_of_bytes q'), (bits_of 1 (last u 0)).
  split. { rewrite Hq, Hu at 1. cbn [app]. rewrite <- !app_assoc. reflexivity. }
  split. { rewrite Hu1. cbn [length app]. rewrite app_length. cbn [length]. lia. }
  split. { rewrite bits_of_bytes_cons, bits_of_bytes_app, Ubits, <- !app_assoc. reflexivity. }
  split. { change (c :: q ++ u) with ((c :: q) ++ u). rewrite last_app; [reflexivity|]. rewrite Hu1. discriminate. }
  split. { intros m. rewrite HB, !app_length, !bits_of_length, !bits_of_bytes_length, Lq, Lq'. lia. }
  assert (EQ : forall m, bits_of_fields (hdr_fields (net (tr m))) =
     bits_of 8 c ++ bits_of_bytes q ++ bits_of 7 (part 1 7 x) ++ bits_of_bytes q' <->
     cleared c = c /\ q = e_net net /\ q' = e_trans tr).
  { intros m. rewrite HB. rewrite app_same by (rewrite !bits_of_length; reflexivity).
    rewrite app_same by (rewrite !bits_of_bytes_length, Lq; reflexivity).
    rewrite app_same by (rewrite !bits_of_length; reflexivity).
    rewrite !bytes_bits by assumption. split.
    - intros (G1 & -> & _ & ->). split; [|split; reflexivity].
      exact (bits_of_inj 8 _ _ (cleared_byte c Hc) Hc G1).
    - intros (-> & -> & ->). repeat split. }
  destruct C as [(-> & C1 & C2)|(-> & C)].
  - destruct C' as [(-> & C3)|(-> & C3)].
    + left. split; [reflexivity|]. intros m. apply EQ. auto.
    + right. split; [reflexivity|]. intros m G. apply EQ in G. apply C3, G.
  - right. split; [reflexivity|]. intros m G. apply EQ in G. apply C. split; apply G.
Qed.
Lemma head_canon {E : Env} l : bytes l -> head_can l.
Proof.
  intros Hl. destruct e_feat eqn:F; [apply head_can_other|apply head_can_other|apply head_can_wizzilab]; try assumption; congruence.
Qed.
