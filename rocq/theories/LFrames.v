(** Frames: C12, C33, C34, C35. *)
From Coq Require Import List NArith ZArith Bool Lia ZifyBool ZifyNat ZifyN Arith.
From Verif Require Import Base Deku Utils Types Physical Link Network Session Data Query
  Interface File Operation Action Command Frames WellFormed SpecLayout SpecAction SpecApi SpecReturn SpecFrames
  LBits LReader LTypes LUtf8 LLayout LRound LRoundOps LAction LApi LNumbers LNice LNiceFile LNiceOps LCount
  LActionApi LReencode LCommandApi LFail LReturn LWrite LFiles.
Import ListNotations.
Open Scope N_scope.

(** ** C33: background frames *)
Lemma W_bframe {E : Env} v : wf_bframe v -> W (write_bframe v) (enc_bframe v).
Proof.
  intros (H1 & H2 & H3 & H4). unfold write_bframe, enc_bframe. cbn [app]. apply W_u8; [exact H1|].
  assert (T : write_uint 2 (code_address_type (bf_type v)) = write_address_type (bf_type v)) by (destruct (bf_type v); reflexivity).
  rewrite <- T. replace (64 * code_address_type (bf_type v) + bf_tag v)
    with (pack [(2, code_address_type (bf_type v)); (6, bf_tag v)]) by (unfold pack; cbn [fold_left fst snd]; change (2 ^ 6) with 64; lia).
  assert (HF : Forall fits [(2, code_address_type (bf_type v)); (6, bf_tag v)]).
  { apply Forall_cons; [destruct (bf_type v); reflexivity|]. apply Forall_cons; [exact H2|apply Forall_nil]. }
  exact (W_pack8 _ _ _ HF eq_refl (W_app _ _ _ _ (W_native 2 (bf_payload v)) (W_native 2 (bf_crc v)))).
Qed.
Lemma RT_bframe {E : Env} v : wf_bframe v -> RT (write_bframe v) read_bframe v.
Proof.
  intros (H1 & H2 & H3 & H4). destruct v as [s t g p c]. cbn [bf_subnet bf_type bf_tag bf_payload bf_crc] in *.
  unfold write_bframe, read_bframe. cbn [bf_subnet bf_type bf_tag bf_payload bf_crc].
  eapply RT_bind; [apply RT_u8; exact H1|]. eapply RT_bind; [apply RT_address_type|].
  eapply RT_bind; [apply RT_uint; exact H2|]. eapply RT_bind; [apply (RT_native 2 p H3)|].
  eapply RT_last; [apply (RT_native 2 c H4)|reflexivity].
Qed.
Lemma Nice_bframe {E : Env} : Nice 0 read_bframe wf_bframe.
Proof.
  unfold read_bframe. eapply Nice_bind; [apply Nice_u8|]. intros s Hs.
  eapply Nice_bind; [apply Nice_enum0|]. intros t _.
  eapply Nice_bind; [apply (Nice_uint_is 6 64); reflexivity|]. intros g Hg.
  eapply Nice_bind; [apply (Nice_native 2 65536); reflexivity|]. intros p Hp.
  eapply Nice_bind; [apply (Nice_native 2 65536); reflexivity|]. intros c Hc. apply Nice_ret.
  unfold wf_bframe. cbn [bf_subnet bf_type bf_tag bf_payload bf_crc]. auto.
Qed.
Lemma Count_bframe {E : Env} : Count 0 read_bframe.
Proof. unfold read_bframe, read_address_type. count. Qed.
Lemma Adv_bframe {E : Env} : Adv 48 read_bframe.
Proof. unfold read_bframe, read_address_type. adv_all. Qed.
Lemma bframe_exact {E : Env} v :
  (wf_bframe v -> transfers (write_bframe v) read_bframe (enc_bframe v) v) /\
  (comes_back (write_bframe v) read_bframe v <-> wf_bframe v).
Proof. exact_type @W_bframe @RT_bframe @Nice_bframe @Count_bframe. Qed.

Lemma native_2 {E : Env} a b : a < 256 -> b < 256 -> exists v, u16 v /\ enc_native 2 v = [a; b].
Proof.
  intros Ha Hb. assert (K : forall x y, x < 256 -> y < 256 -> 256 * x + y < 2 ^ 16 /\ be_bytes 2 (256 * x + y) = [x; y]).
  { intros x y Hx Hy. change (2 ^ 16) with 65536. split; [lia|]. cbn [be_bytes]. change (256 ^ N.of_nat 1) with 256. change (256 ^ N.of_nat 0) with 1.
    rewrite N.div_1_r. repeat f_equal; [|lia]. replace ((256 * x + y) / 256) with x by divlia. apply N.mod_small. exact Hx. }
  unfold enc_native. destruct e_host.
  - exists (256 * b + a). destruct (K b a Hb Ha) as (K1 & K2). split; [exact K1|]. rewrite K2. reflexivity.
  - exists (256 * a + b). exact (K a b Ha Hb).
Qed.
Lemma six {A} (d : list A) : length d = 6%nat -> exists a b c x y z, d = [a; b; c; x; y; z].
Proof.
  destruct d as [|a [|b [|c [|x [|y [|z [|? ?]]]]]]]; cbn [length]; intros H; try discriminate. eauto 8.
Qed.
Lemma address_code n : n < 4 -> exists t, code_address_type t = n.
Proof.
  intros H. assert (n = 0 \/ n = 1 \/ n = 2 \/ n = 3) as [-> | [-> | [-> | ->]]] by lia.
  - exists AtNbId. reflexivity. - exists AtNoId. reflexivity. - exists AtUId. reflexivity. - exists AtVId. reflexivity.
Qed.
Lemma bframe_of_bytes {E : Env} d : bytes d -> length d = 6%nat -> exists v, wf_bframe v /\ enc_bframe v = d.
Proof.
  intros Hb Hl. destruct (six d Hl) as (a & b & c & x & y & z & ->).
  repeat (apply Forall_cons_iff in Hb as (? & Hb)).
  destruct (native_2 c x) as (p & Hp & Ep); [assumption..|]. destruct (native_2 y z) as (q & Hq & Eq); [assumption..|].
  unfold byte in *. destruct (address_code (b / 64)) as (t & Ht); [divlia|].
  exists (mkBFrame a t (b mod 64) p q). unfold wf_bframe, enc_bframe. cbn [bf_subnet bf_type bf_tag bf_payload bf_crc].
  rewrite Ep, Eq, Ht. split; [|cbn [app]; repeat f_equal; divlia].
  split; [assumption|]. split; [divlia|]. auto.
Qed.
Lemma bframe_bytes {E : Env} d : bytes d ->
  (length d = 6%nat -> exists v, bframe_try_from d = Ok v /\ bframe_to_bytes v = Ok d) /\
  (length d < 6 -> bframe_try_from d = Err EIncomplete)%nat /\
  (6 < length d -> bframe_try_from d = Err ETooMuchData)%nat.
Proof.
  intros Hb. split; [|split]; intros Hl.
  - destruct (bframe_of_bytes d Hb Hl) as (v & Hv & <-). exists v. destruct (bframe_exact v) as (T & _).
    destruct (T Hv) as ((T1 & _) & T2 & _). split; [exact T2|exact T1].
  - unfold bframe_try_from. rewrite d_try_from_eq.
    assert (Hx : read_bframe (new_reader d) = Err EIncomplete); [|rewrite Hx; reflexivity].
    set (e := repeat 0 (6 - length d)). assert (He : length (d ++ e) = 6%nat) by (unfold e; rewrite app_length, repeat_length; lia).
    assert (Hbe : bytes (d ++ e)).
    { apply Forall_app. split; [exact Hb|]. apply Forall_forall. intros x Hx. apply repeat_spec in Hx. subst x. reflexivity. }
    destruct (bframe_of_bytes _ Hbe He) as (v & Hv & Ev). destruct (bframe_exact v) as (T & _). destruct (T Hv) as (_ & T2 & _).
    rewrite Ev in T2. unfold bframe_try_from in T2. rewrite d_try_from_eq in T2.
    pose proof (Nice_bframe (new_reader d) (new_RWf d)) as N0. destruct (read_bframe (new_reader d)) as [[v' r]|er|] eqn:E1.
    + exfalso. destruct (Adv_bframe _ _ _ (new_RWf d) E1) as (L & _). unfold view in L. cbn [new_reader left pos data app skipn] in L.
      rewrite bits_of_bytes_length in L. lia.
    + destruct N0 as (_ & X). destruct er; try reflexivity; specialize (X ltac:(discriminate) e);
        change (ext (new_reader d) e) with (new_reader (d ++ e)) in X; rewrite X in T2; discriminate.
    + contradiction.
  - unfold bframe_try_from. rewrite d_try_from_eq.
    assert (Hbe : bytes (firstn 6 d)) by (rewrite <- (firstn_skipn 6 d) in Hb; apply Forall_app in Hb; apply Hb).
    destruct (bframe_of_bytes (firstn 6 d) Hbe ltac:(rewrite firstn_length; lia)) as (v & Hv & Ev).
    destruct (bframe_exact v) as (T & _). destruct (T Hv) as ((_ & _ & HP) & _). destruct (HP [] (skipn 6 d) 0%nat) as (n & Hn).
    cbn [app length Nat.add] in Hn. rewrite Ev, firstn_skipn in Hn. change (mkRd d 0 [] 0) with (new_reader d) in Hn. rewrite Hn.
    destruct (counted _ _ _ _ (Count_A _ Count_bframe) Hn) as (_ & _ & B & _). rewrite B. cbn [pos]. rewrite div8, firstn_length.
    replace (Nat.min 6 (length d)) with 6%nat by lia. destruct (Nat.eqb_spec 6 (length d)); [lia|reflexivity].
Qed.
Lemma bframe_value {E : Env} v : wf_bframe v ->
  bframe_to_bytes v = Ok (enc_bframe v) /\ length (enc_bframe v) = 6%nat /\ bframe_try_from (enc_bframe v) = Ok v.
Proof.
  intros Hv. destruct (bframe_exact v) as (T & _). destruct (T Hv) as ((T1 & _) & T2 & _). split; [exact T1|].
  split; [|exact T2]. unfold enc_bframe, enc_native. destruct e_host; rewrite !app_length, ?rev_length, !be_bytes_length; reflexivity.
Qed.

(** ** C35: the control fields *)
Definition F (w : writer) (l : list (N * N)) : Prop := w = Ok (bits_of_fields l).
Lemma bits_of_fields_app a b : bits_of_fields (a ++ b) = bits_of_fields a ++ bits_of_fields b.
Proof. apply flat_map_app. Qed.
Lemma bits_of_fields_length l : length (bits_of_fields l) = total_width l.
Proof.
  induction l as [|[n v] l IH]; [reflexivity|]. unfold bits_of_fields, total_width in *. cbn [flat_map map list_sum fold_right fst snd].
  rewrite app_length, bits_of_length, IH. reflexivity.
Qed.
Lemma total_width_app a b : total_width (a ++ b) = (total_width a + total_width b)%nat.
Proof. unfold total_width. rewrite map_app, list_sum_app. reflexivity. Qed.
Lemma bits_of_octets l : bits_of_fields (octets l) = bits_of_bytes l.
Proof. induction l as [|b l IH]; [reflexivity|]. unfold bits_of_fields, octets in *. cbn [map flat_map bits_of_bytes fst snd]. rewrite IH. reflexivity. Qed.
Lemma octets_width l : total_width (octets l) = (8 * length l)%nat.
Proof. rewrite <- bits_of_fields_length, bits_of_octets. apply bits_of_bytes_length. Qed.
Lemma octets_app a b : octets (a ++ b) = octets a ++ octets b.
Proof. apply map_app. Qed.
Lemma F_app w1 w2 a b : F w1 a -> F w2 b -> F (w1 +++ w2) (a ++ b).
Proof. intros -> ->. unfold F. rewrite bits_of_fields_app. reflexivity. Qed.
Lemma F_nil : F wnil []. Proof. reflexivity. Qed.
Lemma F_W w l : W w l -> F w (octets l).
Proof. intros (-> & _). unfold F. rewrite bits_of_octets. reflexivity. Qed.
Lemma F_uint (k : nat) n v : n = N.of_nat k -> F (write_uint k v) [(n, v)].
Proof. intros ->. unfold F, write_uint, bits_of_fields. cbn [flat_map fst snd]. rewrite app_nil_r, Nat2N.id. reflexivity. Qed.
Lemma F_u8 v : F (write_u8 v) [(8, v)]. Proof. apply F_uint. reflexivity. Qed.
Lemma F_bool b : F (write_bool b) [(1, bit b)]. Proof. rewrite write_bool_uint. apply F_uint. reflexivity. Qed.
Lemma F_pad (k : nat) n : n = N.of_nat k -> F (write_pad k) [(n, 0)].
Proof. rewrite write_pad_uint. apply F_uint. Qed.
Lemma F_address_type t : F (write_address_type t) [(2, code_address_type t)].
Proof. destruct t; reflexivity. Qed.
Lemma F_nls {E : Env} n : F (write_nls_method n) [(nls_width, code_nls n)].
Proof. unfold write_nls_method, nls_bits, nls_width, is_wizzilab. destruct e_feat; destruct n; reflexivity. Qed.
Lemma F_cons w1 w2 f b : F w1 [f] -> F w2 b -> F (w1 +++ w2) (f :: b).
Proof. intros H1 H2. exact (F_app _ _ _ _ H1 H2). Qed.
Lemma F_ncontrol {E : Env} v : F (write_ncontrol v) (ncontrol_fields v).
Proof.
  unfold write_ncontrol, ncontrol_fields. apply F_cons; [apply F_bool|]. apply F_cons; [apply F_bool|].
  apply F_cons; [apply F_address_type|]. apply F_cons; [apply F_pad; reflexivity|]. apply F_nls.
Qed.
Lemma F_tcontrol v : F (write_tcontrol v) (tcontrol_fields v).
Proof. unfold write_tcontrol, tcontrol_fields. repeat (apply F_cons; [apply F_bool|]). apply F_bool. Qed.
Lemma RT_ncontrol {E : Env} v : RT (write_ncontrol v) read_ncontrol v.
Proof.
  destruct v as [a b t n]. unfold write_ncontrol, read_ncontrol. cbn [nc_no_origin nc_hopping nc_origin_type nc_nls].
  eapply RT_bind; [apply RT_bool|]. eapply RT_bind; [apply RT_bool|]. eapply RT_bind; [apply RT_address_type|].
  eapply RT_bind; [apply RT_pad|]. eapply RT_last; [apply RT_nls_method|reflexivity].
Qed.
Lemma RT_tcontrol v : RT (write_tcontrol v) read_tcontrol v.
Proof.
  destruct v as [a b c d e f g]. unfold write_tcontrol, read_tcontrol.
  cbn [tc_dialog_start tc_listen tc_exec_delay tc_ack_requested tc_ack_not_void tc_ack_record tc_agc].
  do 6 (eapply RT_bind; [apply RT_bool|]). eapply RT_last; [apply RT_bool|reflexivity].
Qed.
Definition ncontrol_width {E : Env} : nat := match e_feat with Wizzilab => 8 | _ => 9 end.
Lemma Adv_ncontrol {E : Env} : Adv ncontrol_width read_ncontrol.
Proof. unfold read_ncontrol, read_address_type, read_nls_method, nls_bits, is_wizzilab, ncontrol_width. destruct e_feat; adv_all. Qed.
Lemma Adv_tcontrol : Adv 7 read_tcontrol.
Proof. unfold read_tcontrol. adv_all. Qed.

Lemma ncontrol_size {E : Env} v : exists l, write_ncontrol v = Ok l /\ length l = ncontrol_width /\
  parses read_ncontrol l v.
Proof.
  destruct (RT_ncontrol v) as (l & Hl & HR). exists l. split; [exact Hl|].
  split; [|apply Reads_parses; exact HR]. pose proof (F_ncontrol v) as HF. unfold F in HF. assert (El : l = bits_of_fields (ncontrol_fields v)) by congruence. rewrite El.
  rewrite bits_of_fields_length. unfold ncontrol_width, ncontrol_fields, nls_width. destruct e_feat; reflexivity.
Qed.
Lemma tcontrol_size v : exists l, write_tcontrol v = Ok l /\ length l = 7%nat /\ parses read_tcontrol l v.
Proof.
  destruct (RT_tcontrol v) as (l & Hl & HR). exists l. split; [exact Hl|].
  split; [|apply Reads_parses; exact HR]. pose proof (F_tcontrol v) as HF. unfold F in HF. assert (El : l = bits_of_fields (tcontrol_fields v)) by congruence. rewrite El. reflexivity.
Qed.

(** ** The header of a foreground frame *)
Definition with_body (v : fframe) (m : command) (crc : N) : fframe :=
  let n := ff_frame v in let t := nf_frame n in
  mkFFrame (ff_length v) (ff_subnet v) (ff_type v) (ff_eirp v) (ff_target v)
    (mkNFrame (nf_control n) (nf_hopping n) (nf_access n) (nf_origin n)
      (mkTFrame (tf_control t) (tf_dialog t) (tf_transaction t) (tf_target_rx t) (tf_listen t) (tf_exec_delay t)
        (tf_congestion t) (tf_ack t) m)) crc.
Definition read_head {E : Env} : reader fframe :=
  l <- read_length ;; s <- read_u8 ;; t <- read_address_type ;; e <- read_uint 6 ;; a <- read_address t ;;
  nc <- read_ncontrol ;; h <- read_cond (nc_hopping nc) read_hopping ;; ac <- read_access_class ;;
  o <- read_address (nc_origin_type nc) ;;
  c <- read_tcontrol ;; d <- read_u8 ;; ti <- read_u8 ;;
  x <- read_cond (tc_agc c) read_u8 ;; li <- read_cond (tc_listen c) read_varint ;;
  ex <- read_cond (tc_exec_delay c) read_varint ;;
  g <- read_cond (tc_ack_requested c && tc_dialog_start c) read_varint ;;
  k <- read_cond (tc_ack_not_void c) read_ack ;;
  ret (mkFFrame l s t e a (mkNFrame nc h ac o (mkTFrame c d ti x li ex g k [])) 0).
Definition write_head {E : Env} (v : fframe) : writer :=
  let n := ff_frame v in let t := nf_frame n in
  write_length (ff_length v) +++ write_u8 (ff_subnet v) +++ write_address_type (ff_type v)
  +++ write_uint 6 (ff_eirp v) +++ write_address (ff_target v)
  +++ write_ncontrol (nf_control n) +++ write_opt write_hopping (nf_hopping n)
  +++ write_access_class (nf_access n) +++ write_address (nf_origin n)
  +++ write_tcontrol (tf_control t) +++ write_u8 (tf_dialog t) +++ write_u8 (tf_transaction t)
  +++ write_opt write_u8 (tf_target_rx t) +++ write_opt write_varint (tf_listen t)
  +++ write_opt write_varint (tf_exec_delay t) +++ write_opt write_varint (tf_congestion t)
  +++ write_opt write_ack (tf_ack t).
Lemma read_fframe_eq {E : Env} r :
  read_fframe r = bind read_head (fun h => m <- read_command (ff_length h) ;; c <- read_native 2 ;;
    ret (with_body h m c)) r.
Proof.
  unfold read_fframe, read_head, read_nframe, read_tframe, bind, ret.
  repeat lazymatch goal with
  | |- _ = match match ?m ?r with _ => _ end with _ => _ end =>
      lazymatch m with
      | read_command _ => fail
      | _ => destruct (m r) as [[? ?]| |]; cbn [nc_hopping nc_origin_type ff_length]; try reflexivity
      end
  end.
  destruct (read_command _ _) as [[? ?]| |]; reflexivity.
Qed.
Lemma write_fframe_eq {E : Env} v :
  write_fframe v = write_head v +++ write_command (command_of v) +++ write_native 2 (ff_crc v).
Proof. unfold write_fframe, write_head, write_nframe, write_tframe, command_of. rewrite !wseq_assoc. reflexivity. Qed.

Lemma F_opt {A} (w : A -> writer) enc o b (P : A -> Prop) : present o b P -> (forall x, P x -> W (w x) (enc x)) ->
  F (write_opt w o) (optional enc o).
Proof. intros H K. destruct o as [x|]; [|apply F_nil]. apply F_W, K. apply H. Qed.
Lemma F_hopping o : F (write_opt write_hopping o) (hopping_fields o).
Proof.
  destruct o as [h|]; [|apply F_nil]. cbn [write_opt hopping_fields]. unfold write_hopping.
  apply F_cons; [apply F_pad; reflexivity|]. apply F_cons; [apply F_bool|]. apply F_cons; [apply F_address_type|].
  apply F_pad. reflexivity.
Qed.
Lemma W_ack v : wf_ack v -> W (write_ack v) [ack_start v; ack_stop v].
Proof. intros (H1 & H2). unfold write_ack. apply W_u8; [exact H1|]. apply W_u8_last. exact H2. Qed.
Lemma F_access_class v : wf_access_class v -> F (write_access_class v) [(8, enc_access_class v)].
Proof.
  intros H. pose proof (W_access_class v wnil [] H W_nil) as K. rewrite wseq_nil_r in K. exact (F_W _ _ K).
Qed.
Lemma F_head {E : Env} v : wf_fframe v -> F (write_head v) (head_fields v).
Proof.
  intros (H1 & H2 & H3 & H4 & H5 & H6 & (G1 & G2 & G3 & G4 & (K1 & K2 & K3 & K4 & K5 & K6 & K7 & K8))).
  unfold write_head, head_fields, link_fields, network_fields, transport_fields. cbv zeta. rewrite <- !app_assoc.
  apply F_app; [apply F_W, W_length; exact H1|]. cbn [app]. apply F_cons; [apply F_u8|].
  apply F_cons; [apply F_address_type|]. apply F_cons; [apply F_uint; reflexivity|].
  apply F_app; [apply F_W, W_address; exact H5|]. apply F_app; [apply F_ncontrol|]. apply F_app; [apply F_hopping|].
  apply F_cons; [apply F_access_class; exact G2|]. apply F_app; [apply F_W, W_address; exact G4|].
  apply F_app; [apply F_tcontrol|]. apply F_cons; [apply F_u8|]. apply F_cons; [apply F_u8|].
  apply F_app; [apply (F_opt _ _ _ _ _ K3), W_u8_last|]. apply F_app; [apply (F_opt _ _ _ _ _ K4), W_varint|].
  apply F_app; [apply (F_opt _ _ _ _ _ K5), W_varint|]. apply F_app; [apply (F_opt _ _ _ _ _ K6), W_varint|].
  apply (F_opt _ _ _ _ _ K7), W_ack.
Qed.
Lemma F_frame {E : Env} v : wf_fframe v -> F (write_fframe v) (frame_fields v).
Proof.
  intros H. rewrite write_fframe_eq. unfold frame_fields. apply F_app; [apply F_head; exact H|].
  apply F_app; [apply F_W, W_command; apply H|apply F_W, W_native].
Qed.

Lemma RT_present {A} (w : A -> writer) (m : reader A) o b (P : A -> Prop) : present o b P ->
  (forall x, P x -> RT (w x) m x) -> RT (write_opt w o) (read_cond b m) o.
Proof.
  intros H K. apply RT_opt; [destruct o; apply H|]. intros x ->. apply K, H.
Qed.
Lemma RT_hopping v : RT (write_hopping v) read_hopping v.
Proof.
  destruct v as [c d]. unfold write_hopping, read_hopping. cbn [hp_counter hp_dest].
  eapply RT_bind; [apply RT_pad|]. eapply RT_bind; [apply RT_bool|]. eapply RT_bind; [apply RT_address_type|].
  eapply RT_last; [apply RT_pad|reflexivity].
Qed.
Lemma RT_ack v : wf_ack v -> RT (write_ack v) read_ack v.
Proof.
  intros (H1 & H2). destruct v as [a b]. unfold write_ack, read_ack. cbn [ack_start ack_stop] in *.
  eapply RT_bind; [apply RT_u8; exact H1|]. eapply RT_last; [apply RT_u8; exact H2|reflexivity].
Qed.
Lemma RT_head {E : Env} v : wf_fframe v -> RT (write_head v) read_head (with_body v [] 0).
Proof.
  intros (H1 & H2 & H3 & H4 & H5 & H6 & (G1 & G2 & G3 & G4 & (K1 & K2 & K3 & K4 & K5 & K6 & K7 & K8))).
  destruct v as [l s t e a [nc h ac o [c d ti x li ex g k m]] crc].
  cbn [ff_length ff_subnet ff_type ff_eirp ff_target ff_frame ff_crc nf_control nf_hopping nf_access nf_origin nf_frame
    tf_control tf_dialog tf_transaction tf_target_rx tf_listen tf_exec_delay tf_congestion tf_ack tf_command] in *.
  unfold write_head, read_head, with_body. cbv zeta.
  cbn [ff_length ff_subnet ff_type ff_eirp ff_target ff_frame ff_crc nf_control nf_hopping nf_access nf_origin nf_frame
    tf_control tf_dialog tf_transaction tf_target_rx tf_listen tf_exec_delay tf_congestion tf_ack tf_command].
  apply address_matches_kind in H4, G3. 
  eapply RT_bind; [apply RT_length; exact H1|]. eapply RT_bind; [apply RT_u8; exact H2|].
  eapply RT_bind; [apply RT_address_type|]. eapply RT_bind; [apply RT_uint; exact H3|].
  rewrite H4. eapply RT_bind; [apply RT_address; exact H5|]. eapply RT_bind; [apply RT_ncontrol|].
  eapply RT_bind; [apply (RT_present _ _ _ _ _ G1); intros; apply RT_hopping|].
  eapply RT_bind; [apply RT_access_class; exact G2|]. rewrite G3. eapply RT_bind; [apply RT_address; exact G4|].
  eapply RT_bind; [apply RT_tcontrol|]. eapply RT_bind; [apply RT_u8; exact K1|]. eapply RT_bind; [apply RT_u8; exact K2|].
  eapply RT_bind; [apply (RT_present _ _ _ _ _ K3), RT_u8|]. eapply RT_bind; [apply (RT_present _ _ _ _ _ K4), RT_varint|].
  eapply RT_bind; [apply (RT_present _ _ _ _ _ K5), RT_varint|]. eapply RT_bind; [apply (RT_present _ _ _ _ _ K6), RT_varint|].
  eapply RT_last; [apply (RT_present _ _ _ _ _ K7), RT_ack|reflexivity].
Qed.

Lemma Nice_ncontrol {E : Env} : Nice 0 read_ncontrol (fun _ => True).
Proof.
  unfold read_ncontrol. eapply Nice_bind; [apply Nice_bool|]. intros a _.
  eapply Nice_bind; [apply Nice_bool|]. intros b _.
  eapply Nice_bind; [apply Nice_enum0|]. intros t _. eapply Nice_bind; [apply Nice_skip0|]. intros [] _.
  eapply Nice_bind; [apply Nice_enum0|]. intros n _. apply Nice_ret. exact I.
Qed.
Lemma Nice_tcontrol : Nice 0 read_tcontrol (fun _ => True).
Proof.
  unfold read_tcontrol. do 7 (eapply Nice_bind; [apply Nice_bool|]; intros ? _). apply Nice_ret. exact I.
Qed.
Lemma Nice_hopping : Nice 0 read_hopping (fun _ => True).
Proof.
  unfold read_hopping. eapply Nice_bind; [apply Nice_skip0|]. intros [] _. eapply Nice_bind; [apply Nice_bool|]. intros c _.
  eapply Nice_bind; [apply Nice_enum0|]. intros t _. eapply Nice_bind; [apply Nice_skip0|]. intros [] _. apply Nice_ret. exact I.
Qed.
Lemma Nice_ack : Nice 0 read_ack wf_ack.
Proof.
  unfold read_ack. eapply Nice_bind; [apply Nice_u8|]. intros a Ha. eapply Nice_bind; [apply Nice_u8|]. intros b Hb.
  apply Nice_ret. split; assumption.
Qed.
Lemma wf_nil {E : Env} : wf_command [].
Proof. split; [apply Forall_nil|]. intros [|x pre] a post H; discriminate. Qed.
Lemma Nice_head {E : Env} : Nice 0 read_head (fun h => wf_fframe h /\ command_of h = []).
Proof.
  unfold read_head.
  eapply Nice_bind; [apply Nice_length|]. intros l Hl. eapply Nice_bind; [apply Nice_u8|]. intros s Hs.
  eapply Nice_bind; [apply Nice_enum0|]. intros t _. eapply Nice_bind; [apply (Nice_uint_is 6 64); reflexivity|]. intros e He.
  eapply Nice_bind; [apply Nice_address|]. intros a (Ha1 & Ha2). eapply Nice_bind; [apply Nice_ncontrol|]. intros nc _.
  eapply Nice_bind; [apply Nice_cond, Nice_hopping|]. intros h Hh. eapply Nice_bind; [apply Nice_access_class|]. intros ac Hac.
  eapply Nice_bind; [apply Nice_address|]. intros o (Ho1 & Ho2). eapply Nice_bind; [apply Nice_tcontrol|]. intros c _.
  eapply Nice_bind; [apply Nice_u8|]. intros d Hd. eapply Nice_bind; [apply Nice_u8|]. intros ti Hti.
  eapply Nice_bind; [apply Nice_cond, Nice_u8|]. intros x Hx. eapply Nice_bind; [apply Nice_cond, Nice_varint|]. intros li Hli.
  eapply Nice_bind; [apply Nice_cond, Nice_varint|]. intros ex Hex. eapply Nice_bind; [apply Nice_cond, Nice_varint|]. intros g Hg.
  eapply Nice_bind; [apply Nice_cond, Nice_ack|]. intros k Hk. apply Nice_ret. split; [|reflexivity].
  assert (C0 : u16 0) by reflexivity. pose proof wf_nil as Wn.
  unfold wf_fframe, wf_nframe, wf_tframe. cbv zeta.
  cbn [ff_length ff_subnet ff_type ff_eirp ff_target ff_frame ff_crc nf_control nf_hopping nf_access nf_origin nf_frame
    tf_control tf_dialog tf_transaction tf_target_rx tf_listen tf_exec_delay tf_congestion tf_ack tf_command].
  unfold present. repeat match goal with |- _ /\ _ => split end; auto.
Qed.
Definition head_rest {E : Env} : nat := match e_feat with Wizzilab => 7 | _ => 0 end.
Lemma Count_ack : Count 0 read_ack. Proof. unfold read_ack. count. Qed.
Lemma Count_hopping : Count 0 read_hopping. Proof. unfold read_hopping, read_address_type. count. Qed.
Lemma Count_ncontrol {E : Env} : Count ncontrol_width read_ncontrol. Proof. apply Count_Adv, Adv_ncontrol. Qed.
Lemma Count_tcontrol : Count 7 read_tcontrol. Proof. apply Count_Adv, Adv_tcontrol. Qed.
#[export] Hint Resolve Count_ack Count_hopping Count_ncontrol Count_tcontrol : cnt.
Lemma Count_head {E : Env} : Count head_rest read_head.
Proof.
  unfold read_head, read_address_type. eapply Count_weaken; [count_steps|].
  unfold ncontrol_width, head_rest. destruct e_feat; count_done.
Qed.

(** ** Widths *)
Lemma optional_width {A} (enc : A -> list N) o : exists k, total_width (optional enc o) = (8 * k)%nat.
Proof. destruct o as [x|]; [exists (length (enc x)); apply octets_width|exists 0%nat; reflexivity]. Qed.
Lemma link_width v : exists k, total_width (link_fields v) = (8 * k)%nat.
Proof.
  unfold link_fields. rewrite !total_width_app, !octets_width. change (total_width [_; _; _]) with 16%nat.
  exists (length (enc_length (ff_length v)) + (2 + length (enc_address (ff_target v))))%nat. lia.
Qed.
Lemma ncontrol_fields_width {E : Env} c : total_width (ncontrol_fields c) = ncontrol_width.
Proof. unfold ncontrol_fields, ncontrol_width, nls_width. destruct e_feat; reflexivity. Qed.
Lemma network_width v : exists k, total_width (network_fields v) = (8 * k)%nat.
Proof.
  unfold network_fields. rewrite !total_width_app, octets_width. change (total_width [_]) with 8%nat.
  destruct (nf_hopping v); [exists (1 + (1 + length (enc_address (nf_origin v))))%nat|exists (1 + length (enc_address (nf_origin v)))%nat];
    cbn [hopping_fields]; [change (total_width [_; _; _; _]) with 8%nat|change (total_width []) with 0%nat]; lia.
Qed.
Lemma transport_width v : exists k, total_width (transport_fields v) = (8 * k)%nat.
Proof.
  unfold transport_fields. rewrite !total_width_app. change (total_width [_; _]) with 16%nat.
  destruct (optional_width (fun x => [x]) (tf_target_rx v)) as (a & ->).
  destruct (optional_width enc_varint (tf_listen v)) as (b & ->).
  destruct (optional_width enc_varint (tf_exec_delay v)) as (c & ->).
  destruct (optional_width enc_varint (tf_congestion v)) as (d & ->).
  destruct (optional_width (fun a => [ack_start a; ack_stop a]) (tf_ack v)) as (e & ->).
  exists (2 + (a + (b + (c + (d + e)))))%nat. lia.
Qed.
Lemma head_width {E : Env} v : exists k, total_width (head_fields v) = (ncontrol_width + 7 + 8 * k)%nat.
Proof.
  unfold head_fields. cbv zeta. rewrite !total_width_app, ncontrol_fields_width.
  destruct (link_width v) as (a & ->). destruct (network_width (ff_frame v)) as (b & ->).
  destruct (transport_width (nf_frame (ff_frame v))) as (c & ->).
  change (total_width (tcontrol_fields (tf_control (nf_frame (ff_frame v))))) with 7%nat. exists (a + b + c)%nat. lia.
Qed.
Lemma head_aligned {E : Env} v : e_feat <> Wizzilab -> total_width (head_fields v) = (8 * command_start v)%nat.
Proof.
  intros H. unfold command_start. destruct (head_width v) as (k & ->). unfold ncontrol_width.
  destruct e_feat; [| |contradiction]; replace (9 + 7 + 8 * k)%nat with (8 * (2 + k))%nat by lia; rewrite div8; reflexivity.
Qed.
Lemma head_wizzilab {E : Env} v : e_feat = Wizzilab -> total_width (head_fields v) = (8 * command_start v + 7)%nat.
Proof.
  intros H. unfold command_start. destruct (head_width v) as (k & ->). unfold ncontrol_width. rewrite H.
  replace (8 + 7 + 8 * k)%nat with ((1 + k) * 8 + 7)%nat by lia.
  rewrite Nat.div_add_l by lia. change (7 / 8)%nat with 0%nat. lia.
Qed.

(** ** The action loop with a length *)
Definition goes_on (L : N) (p : nat) : Prop := L = 0 \/ N.of_nat p < L.
Lemma goes_on_dec L p : goes_on L p \/ (L <> 0 /\ L <= N.of_nat p).
Proof. unfold goes_on. lia. Qed.
Lemma valid_length_at L d p n : valid_length L (mkRd d p [] n) = Ok (orb (L =? 0) (N.of_nat p <? L), mkRd d p [] n).
Proof. unfold valid_length. destruct (L =? 0); reflexivity. Qed.
Lemma valid_length_go L d p n : goes_on L p -> valid_length L (mkRd d p [] n) = Ok (true, mkRd d p [] n).
Proof.
  intros H. rewrite valid_length_at. replace (orb (L =? 0) (N.of_nat p <? L)) with true; [reflexivity|].
  unfold goes_on in H. lia.
Qed.
Lemma loop_step {E : Env} fuel L acc a d p n t : readable a -> last_is_indirect acc = false -> (p <= length d)%nat ->
  goes_on L p -> skipn p d = enc_action a ++ t ->
  read_actions (S fuel) L acc (mkRd d p [] n)
  = read_actions fuel L (acc ++ [a]) (mkRd d (p + length (enc_action a)) [] (n + 8 + 8 * length (enc_action a))).
Proof.
  intros Ha Hl Hp Hg Hs. destruct (readable_first a Ha) as (b & u & E1).
  pose proof (At_start d p n Hp) as Hr.
  assert (Hs' : skipn p d = b :: (u ++ t)) by (rewrite Hs, E1; reflexivity).
  destruct (at_end_cons _ p b (u ++ t) Hr Hs') as (r1 & Ee & Er & Hr1).
  cbn [read_actions]. unfold bind at 1. rewrite valid_length_go by exact Hg. cbv iota. unfold bind at 1. rewrite Ee. cbv iota.
  rewrite Hl. assert (D : data r1 = d) by (subst r1; reflexivity). assert (B : bread r1 = n) by (subst r1; reflexivity).
  unfold bind. rewrite (proj2 Ha r1 p t Hr1) by (rewrite D; exact Hs). rewrite D, B. reflexivity.
Qed.
Lemma loop_many {E : Env} c : forall fuel L acc d p n t, Forall readable c ->
  Forall (fun a => is_indirect a = false) (acc ++ removelast c) -> (p <= length d)%nat ->
  (forall pre a post, c = pre ++ a :: post -> goes_on L (p + length (enc_command pre))) ->
  skipn p d = enc_command c ++ t -> (length c <= fuel)%nat ->
  read_actions fuel L acc (mkRd d p [] n)
  = read_actions (fuel - length c) L (acc ++ c) (mkRd d (p + length (enc_command c)) [] (n + LAction.counted c)).
Proof.
  induction c as [|a c IH]; intros fuel L acc d p n t Hw Hi Hp Hg Hs Hf.
  - cbn [length enc_command flat_map LAction.counted Nat.mul]. unfold LAction.counted. cbn [length enc_command flat_map Nat.mul].
    rewrite app_nil_r, !Nat.add_0_r, Nat.sub_0_r. reflexivity.
  - inversion Hw as [|? ? Ha Hc]; subst. cbn [length] in Hf. destruct fuel as [|fuel]; [lia|].
    cbn [enc_command flat_map] in Hs. fold (enc_command c) in Hs. rewrite <- app_assoc in Hs.
    assert (Hl : last_is_indirect acc = false).
    { destruct (destruct_last acc) as [->|(l & z & ->)]; [reflexivity|]. rewrite last_is_indirect_snoc.
      apply Forall_app in Hi as (Hi & _). apply Forall_app in Hi as (_ & Hi). inversion Hi. assumption. }
    rewrite (loop_step fuel L acc a d p n (enc_command c ++ t) Ha Hl Hp); [| |exact Hs].
    2: { specialize (Hg [] a c eq_refl). cbn [enc_command flat_map length] in Hg. rewrite Nat.add_0_r in Hg. exact Hg. }
    destruct (skipn_app_eq p d (enc_action a) _ Hp Hs) as (Hs1 & Hp1).
    destruct c as [|a2 c].
    { unfold LAction.counted. cbn [length enc_command flat_map Nat.sub app]. rewrite !app_nil_r, Nat.sub_0_r. f_equal. f_equal. lia. }
    rewrite (IH fuel L (acc ++ [a]) d _ _ t); [|exact Hc| |exact Hp1| |exact Hs1|lia].
    + rewrite <- app_assoc. unfold LAction.counted. cbn [enc_command flat_map]. fold (enc_command c). cbn [app length Nat.sub].
      rewrite !app_length. f_equal. f_equal; lia.
    + rewrite <- app_assoc. exact Hi.
    + intros pre x post He. specialize (Hg (a :: pre) x post). cbn [app enc_command flat_map] in Hg. fold (enc_command pre) in Hg.
      rewrite app_length in Hg. replace (p + length (enc_action a) + length (enc_command pre))%nat with (p + (length (enc_action a) + length (enc_command pre)))%nat by lia.
      apply Hg. rewrite He. reflexivity.
Qed.
Lemma loop_limit {E : Env} fuel L acc d p n : ~ goes_on L p ->
  read_actions (S fuel) L acc (mkRd d p [] n) = Ok (acc, mkRd d p [] n).
Proof.
  intros H. cbn [read_actions]. unfold bind. rewrite valid_length_at.
  replace (orb (L =? 0) (N.of_nat p <? L)) with false; [reflexivity|]. unfold goes_on in H. lia.
Qed.
Lemma loop_indirect {E : Env} fuel L acc d p n b t : goes_on L p -> skipn p d = b :: t -> (p <= length d)%nat ->
  last_is_indirect acc = true ->
  read_actions (S fuel) L acc (mkRd d p [] n) = Ok (acc, mkRd d (S p) (bits_of 8 b) n).
Proof.
  intros Hg Hs Hp Hl. destruct (at_end_cons _ p b t (At_start d p n Hp) Hs) as (r1 & Ee & Er & _).
  cbn [read_actions]. unfold bind at 1. rewrite valid_length_go by exact Hg. cbv iota. unfold bind at 1. rewrite Ee. cbv iota.
  rewrite Hl, Er. reflexivity.
Qed.
Lemma read_actions_prefix {E : Env} fuel : forall L acc r c r', RWf r -> read_actions fuel L acc r = Ok (c, r') ->
  exists new, c = acc ++ new.
Proof.
  induction fuel as [|fuel IH]; intros L acc r c r' Hr H; [discriminate|].
  cbn [read_actions] in H. unfold bind in H.
  assert (exists ok r1, valid_length L r = Ok (ok, r1) /\ RWf r1) as (ok & r1 & E1 & Hr1).
  { unfold valid_length. destruct (L =? 0).
    - do 2 eexists. split; [reflexivity|exact Hr].
    - unfold bind, stream_position, ret. do 2 eexists. split; [reflexivity|].
      destruct Hr as (R1 & R2 & R3). unfold RWf. cbn [data pos left length]. repeat split; lia. }
  assert (T : exists new, acc = acc ++ new) by (exists []; rewrite app_nil_r; reflexivity).
  rewrite E1 in H. destruct ok; [|injection H as <- _; exact T].
  destruct (at_end_spec r1 Hr1) as (e & r2 & E2 & Hr2 & _). rewrite E2 in H.
  destruct e; [injection H as <- _; exact T|]. destruct (last_is_indirect acc); [injection H as <- _; exact T|].
  pose proof (Nice_action r2 Hr2) as N8. destruct (read_action r2) as [[a r3]|er|]; try discriminate.
  destruct (IH L (acc ++ [a]) r3 c r' ltac:(apply N8) H) as (new & ->). exists ([a] ++ new). rewrite app_assoc. reflexivity.
Qed.
Lemma loop_overruns {E : Env} fuel L acc d p n b t c r' : goes_on L p -> skipn p d = b :: t -> (p <= length d)%nat ->
  last_is_indirect acc = false -> read_actions fuel L acc (mkRd d p [] n) = Ok (c, r') -> (length acc < length c)%nat.
Proof.
  intros Hg Hs Hp Hl H. destruct fuel as [|fuel]; [discriminate|].
  destruct (at_end_cons _ p b t (At_start d p n Hp) Hs) as (r1 & Ee & Er & Hr1).
  cbn [read_actions] in H. unfold bind at 1 in H. rewrite valid_length_go in H by exact Hg. cbv iota in H. unfold bind at 1 in H. rewrite Ee in H. cbv iota in H.
  rewrite Hl in H. unfold bind in H. pose proof (Nice_action r1 (proj1 Hr1)) as N8. destruct (read_action r1) as [[a r3]|er|]; try discriminate.
  destruct (read_actions_prefix _ _ _ _ _ _ ltac:(apply N8) H) as (new & ->). rewrite !app_length. cbn [length]. lia.
Qed.

(** ** Frames whose header ends on a byte boundary *)

(** A frame that is well formed apart from its command and whose actions are laid out as they
    should be; a frame whose actions are read back as well. *)
Definition laid {E : Env} (v : fframe) : Prop :=
  wf_fframe (with_body v [] (ff_crc v)) /\ Forall (fun a => W (write_action a) (enc_action a)) (command_of v).
Definition sound {E : Env} (v : fframe) : Prop :=
  laid v /\ Forall readable (command_of v) /\
  (forall pre a post, command_of v = pre ++ a :: post -> is_indirect a = true -> post = []).
Lemma wf_sound {E : Env} v : wf_fframe v -> sound v.
Proof.
  intros H. assert (Hw : Forall wf_action (command_of v)) by apply H. split; [split|split].
  - clear Hw. revert H. destruct v as [l s t e a [nc h ac o [c d ti x li ex g k m]] crc].
    unfold wf_fframe, wf_nframe, wf_tframe, with_body. cbv zeta.
    cbn [ff_length ff_subnet ff_type ff_eirp ff_target ff_frame ff_crc nf_control nf_hopping nf_access nf_origin nf_frame
      tf_control tf_dialog tf_transaction tf_target_rx tf_listen tf_exec_delay tf_congestion tf_ack tf_command].
    pose proof (@wf_nil E). tauto.
  - revert Hw. apply Forall_impl. intros a Ha. apply W_action. exact Ha.
  - apply wf_all_readable. exact Hw.
  - apply H.
Qed.
Lemma laid_head {E : Env} v : laid v -> F (write_head v) (head_fields v).
Proof. intros (H & _). apply F_head in H. destruct v as [l s t e a [nc h ac o [c d ti x li ex g k m]] crc]. exact H. Qed.
Lemma laid_RT {E : Env} v : laid v -> RT (write_head v) read_head (with_body v [] 0).
Proof. intros (H & _). apply RT_head in H. destruct v as [l s t e a [nc h ac o [c d ti x li ex g k m]] crc]. exact H. Qed.
Lemma laid_command {E : Env} v : laid v -> W (write_command (command_of v)) (enc_command (command_of v)).
Proof.
  intros (_ & H). induction (command_of v) as [|a c IH]; [exact W_nil|].
  apply Forall_cons_iff in H as (Ha & H). apply W_app; [exact Ha|exact (IH H)].
Qed.
Lemma laid_bytes {E : Env} v : laid v -> fframe_to_bytes v = Ok (enc_fframe v).
Proof.
  intros H. unfold fframe_to_bytes, to_bytes.
  assert (G : F (write_fframe v) (frame_fields v)).
  { rewrite write_fframe_eq. unfold frame_fields. apply F_app; [apply laid_head; exact H|].
    apply F_app; [apply F_W, laid_command; exact H|apply F_W, W_native]. }
  rewrite G. reflexivity.
Qed.
Definition header_bytes {E : Env} (v : fframe) : list N := bytes_of_bits (bits_of_fields (head_fields v)).
Lemma fframe_bytes {E : Env} v : wf_fframe v -> fframe_to_bytes v = Ok (enc_fframe v).
Proof. intros H. unfold fframe_to_bytes, to_bytes. rewrite (F_frame v H). reflexivity. Qed.
Lemma enc_native_bytes {E : Env} k v : bytes (enc_native k v).
Proof. apply (W_native k v). Qed.
Lemma enc_native_length {E : Env} k v : length (enc_native k v) = k.
Proof. unfold enc_native. destruct e_host; rewrite ?rev_length; apply be_bytes_length. Qed.
Lemma frame_bits {E : Env} v : bits_of_fields (frame_fields v)
  = bits_of_fields (head_fields v) ++ bits_of_bytes (enc_command (command_of v)) ++ bits_of_bytes (enc_native 2 (ff_crc v)).
Proof. unfold frame_fields. rewrite !bits_of_fields_app, !bits_of_octets. reflexivity. Qed.
Lemma laid_fframe_split {E : Env} v : e_feat <> Wizzilab -> laid v ->
  enc_fframe v = header_bytes v ++ enc_command (command_of v) ++ enc_native 2 (ff_crc v) /\
  length (header_bytes v) = command_start v /\ bits_of_bytes (header_bytes v) = bits_of_fields (head_fields v).
Proof.
  intros Hz Hv. pose proof (head_aligned v Hz) as Hw. rewrite <- bits_of_fields_length in Hw.
  assert (Hb : bits_of_bytes (header_bytes v) = bits_of_fields (head_fields v)).
  { unfold header_bytes. eapply bits_of_bytes_of_bits. exact Hw. }
  split; [|split; [unfold header_bytes; apply bytes_of_bits_length; exact Hw|exact Hb]].
  unfold enc_fframe. rewrite frame_bits, <- Hb, <- !bits_of_bytes_app. apply bytes_of_bits_of_bytes.
  apply Forall_app. split; [apply bytes_of_bits_bytes|]. apply Forall_app. split; [|apply enc_native_bytes].
  apply (laid_command v Hv).
Qed.
Lemma laid_fframe_length {E : Env} v : e_feat <> Wizzilab -> laid v -> length (enc_fframe v) = (command_end v + 2)%nat.
Proof.
  intros Hz Hv. destruct (laid_fframe_split v Hz Hv) as (-> & Hl & _). rewrite !app_length, Hl, enc_native_length.
  unfold command_end. lia.
Qed.
Lemma laid_head_read {E : Env} v suf : e_feat <> Wizzilab -> laid v ->
  read_head (new_reader (enc_fframe v ++ suf))
  = Ok (with_body v [] 0, mkRd (enc_fframe v ++ suf) (command_start v) [] (8 * command_start v)).
Proof.
  intros Hz Hv. destruct (laid_fframe_split v Hz Hv) as (Hs & Hl & Hb).
  destruct (laid_RT v Hv) as (bs & Hw & HR). pose proof (laid_head v Hv) as HF. unfold F in HF. rewrite Hw in HF.
  assert (El : bs = bits_of_fields (head_fields v)) by congruence. clear HF. subst bs.
  assert (Hv' : view (new_reader (enc_fframe v ++ suf)) = bits_of_fields (head_fields v)
    ++ bits_of_bytes (enc_command (command_of v) ++ enc_native 2 (ff_crc v) ++ suf)).
  { unfold view. cbn [new_reader left pos data app skipn]. rewrite Hs, <- Hb, <- !app_assoc, !bits_of_bytes_app. reflexivity. }
  rewrite (HR _ (new_RWf _)); [|eexists; exact Hv']. f_equal. f_equal.
  rewrite bits_of_fields_length, (head_aligned v Hz). rewrite adv_aligned; [reflexivity|apply new_RWf|reflexivity|].
  rewrite Hv', app_length, bits_of_fields_length, (head_aligned v Hz). lia.
Qed.
Lemma with_body_same v : with_body (with_body v [] 0) (command_of v) (ff_crc v) = v.
Proof. destruct v as [l s t e a [nc h ac o [c d ti x li ex g k m]] crc]. reflexivity. Qed.
Lemma with_body_command v m c : command_of (with_body v m c) = m.
Proof. reflexivity. Qed.

Lemma removelast_plain c : (forall pre a post, c = pre ++ a :: post -> is_indirect a = true -> post = []) ->
  Forall (fun a => is_indirect a = false) (removelast c).
Proof.
  intros H. destruct (destruct_last c) as [->|(l & z & ->)]; [apply Forall_nil|]. rewrite removelast_last.
  apply Forall_forall. intros a Ia. apply in_split in Ia as (l1 & l2 & ->). destruct (is_indirect a) eqn:Ei; [|reflexivity].
  specialize (H l1 a (l2 ++ [z])). rewrite <- app_assoc in H. specialize (H eq_refl Ei). destruct l2; discriminate.
Qed.
Lemma Forall_removelast {A} (P : A -> Prop) l : Forall P l -> Forall P (removelast l).
Proof.
  intros H. destruct (destruct_last l) as [->|(l' & z & ->)]; [apply Forall_nil|]. rewrite removelast_last.
  apply Forall_app in H. apply H.
Qed.
Lemma enc_native_cons {E : Env} v suf : exists b t, enc_native 2 v ++ suf = b :: t.
Proof.
  pose proof (enc_native_length 2 v) as H. destruct (enc_native 2 v) as [|b t]; [discriminate|]. exists b, (t ++ suf). reflexivity.
Qed.
(** Either every action starts in front of the limit or the loop stops before one of them. *)
Lemma starts_dec {E : Env} L p c :
  (forall pre a post, c = pre ++ a :: post -> goes_on L (p + length (enc_command pre))) \/
  exists pre a post, c = pre ++ a :: post /\ ~ goes_on L (p + length (enc_command pre)) /\
    forall pre' a' post', pre = pre' ++ a' :: post' -> goes_on L (p + length (enc_command pre')).
Proof.
  revert p. induction c as [|a c IH]; intros p.
  - left. intros [|x pre] a post H; discriminate.
  - destruct (goes_on_dec L p) as [G|G].
    2: { right. exists [], a, c. cbn [enc_command flat_map length]. rewrite Nat.add_0_r. split; [reflexivity|].
         split; [unfold goes_on; lia|]. intros [|x pre'] a' post' H; discriminate. }
    destruct (IH (p + length (enc_action a))%nat) as [H|(pre & x & post & -> & H & Hp)].
    + left. intros [|y pre] x post He; cbn [app] in He; injection He as -> ->.
      * cbn [enc_command flat_map length]. rewrite Nat.add_0_r. exact G.
      * cbn [enc_command flat_map]. fold (enc_command pre). rewrite app_length, Nat.add_assoc. eapply H. reflexivity.
    + right. exists (a :: pre), x, post. split; [reflexivity|]. cbn [enc_command flat_map]. fold (enc_command pre).
      rewrite app_length, Nat.add_assoc. split; [exact H|].
      intros [|y pre'] z post' He; cbn [app] in He; injection He as -> ->.
      * cbn [enc_command flat_map length]. rewrite Nat.add_0_r. exact G.
      * cbn [enc_command flat_map]. fold (enc_command pre'). rewrite app_length, Nat.add_assoc. eapply Hp. reflexivity.
Qed.

(** What the loop makes of the command of a frame. *)
Lemma sound_frame_loop {E : Env} v suf : e_feat <> Wizzilab -> sound v ->
  let d := enc_fframe v ++ suf in
  let R := read_command (ff_length v) (mkRd d (command_start v) [] (8 * command_start v)) in
  (loop_stops v /\ exists r, R = Ok (command_of v, r) /\ RWf r /\ view r = bits_of_bytes (enc_native 2 (ff_crc v) ++ suf) /\
     data r = d /\ BP r = (8 * command_end v)%nat /\ bread r = (8 * command_end v + 8 * length (command_of v))%nat) \/
  (~ loop_stops v /\ forall c r, R = Ok (c, r) -> length c <> length (command_of v)).
Proof.
  intros Hz Hv d R. destruct (laid_fframe_split v Hz (proj1 Hv)) as (Hs & Hl & _).
  pose proof (proj2 (proj2 Hv)) as Hc. pose proof (proj1 (proj2 Hv)) as Hrd.
  unfold R, read_command. cbn [data]. clear R.
  set (c := command_of v) in *. set (p := command_start v) in *. set (L := ff_length v).
  assert (Hd : d = header_bytes v ++ enc_command c ++ enc_native 2 (ff_crc v) ++ suf).
  { unfold d. rewrite Hs, <- !app_assoc. reflexivity. }
  assert (Hpd : (p <= length d)%nat) by (rewrite Hd, app_length; lia).
  assert (Hsk : skipn p d = enc_command c ++ enc_native 2 (ff_crc v) ++ suf).
  { rewrite Hd, skipn_app, <- Hl, Nat.sub_diag, skipn_all. reflexivity. }
  destruct (skipn_app_eq p d (enc_command c) _ Hpd Hsk) as (Hsq & Hqd).
  assert (Hq : (p + length (enc_command c) = command_end v)%nat) by reflexivity.
  destruct (enc_native_cons (ff_crc v) suf) as (b & t & Hbt).
  pose proof (enc_command_len c Hrd) as Hcl.
  assert (Hfuel : (length c <= length d)%nat) by lia.
  assert (HB : (8 * p + LAction.counted c = 8 * command_end v + 8 * length c)%nat) by (unfold LAction.counted; lia).
  assert (Last : forall pre a, c = pre ++ [a] -> (command_end v - length (enc_action a) = p + length (enc_command pre))%nat).
  { intros pre a He. rewrite <- Hq, He, enc_command_app, app_length. cbn [enc_command flat_map]. rewrite app_nil_r. lia. }
  destruct (starts_dec L p c) as [G|(pre & a & post & He & G & Gp)].
  - rewrite (loop_many c (S (length d)) L [] d p (8 * p) (enc_native 2 (ff_crc v) ++ suf) Hrd); [| |exact Hpd|exact G|exact Hsk|lia].
    2: { cbn [app]. apply removelast_plain. exact Hc. }
    cbn [app]. rewrite Hq, HB. replace (S (length d) - length c)%nat with (S (length d - length c)) by lia.
    assert (St : forall r, r = mkRd d (command_end v) [] (8 * command_end v + 8 * length c) ->
      RWf r /\ view r = bits_of_bytes (enc_native 2 (ff_crc v) ++ suf) /\
      data r = d /\ BP r = (8 * command_end v)%nat /\ bread r = (8 * command_end v + 8 * length c)%nat).
    { intros r ->. unfold RWf, view, BP. cbn [data pos left bread length app]. rewrite <- Hq, Hsq. repeat split; lia. }
    destruct (goes_on_dec L (command_end v)) as [Gq|Gq].
    + assert (Hno : last_is_indirect c = false -> ~ loop_stops v).
      { intros Hi Hst. unfold loop_stops in Hst. fold c in Hst. fold L in Hst. unfold goes_on in Gq.
        destruct (destruct_last c) as [Ec|(pre & z & Ec)].
        - rewrite Ec in Hst. cbn [rev] in Hst. lia.
        - rewrite Ec, last_is_indirect_snoc in Hi. rewrite Ec, rev_unit in Hst.
          destruct Hst as [Hst|(Hst & _)]; [|congruence]. rewrite (Last pre z Ec) in Hst. lia. }
      destruct (last_is_indirect c) eqn:Hi.
      * left. split.
        { unfold loop_stops. fold c. fold L. destruct (destruct_last c) as [Ec|(pre & z & Ec)].
          - rewrite Ec in Hi. discriminate.
          - rewrite Ec, last_is_indirect_snoc in Hi. rewrite Ec, rev_unit. right. split; [exact Hi|]. rewrite (Last pre z Ec).
            specialize (G pre z [] Ec). unfold goes_on in G. lia. }
        rewrite <- Hq. rewrite (loop_indirect _ L c d _ _ b t); [|rewrite Hq; exact Gq|rewrite Hsq; exact Hbt|exact Hqd|exact Hi].
        eexists. split; [reflexivity|]. rewrite Hq. unfold RWf, view, BP. cbn [data pos left bread]. rewrite bits_of_length.
        rewrite Hbt in Hsq. destruct (skipn_cons_nth _ _ _ _ Hsq) as (_ & Hsq' & Hlt). rewrite Hq in *. rewrite Hsq', Hbt.
        cbn [bits_of_bytes]. repeat split; lia.
      * right. split; [apply Hno; reflexivity|]. intros c' r H.
        apply (loop_overruns _ L c d (command_end v) _ b t c' r Gq) in H; [|rewrite <- Hq, Hsq; exact Hbt|rewrite <- Hq; exact Hqd|exact Hi]. lia.
    + left. split.
      { unfold loop_stops. fold c. fold L. destruct (destruct_last c) as [Ec|(pre & z & Ec)].
        - rewrite Ec. cbn [rev]. lia.
        - rewrite Ec, rev_unit. left. rewrite (Last pre z Ec). specialize (G pre z [] Ec). unfold goes_on in G. lia. }
      rewrite loop_limit by (unfold goes_on; lia). eexists. split; [reflexivity|]. apply St. reflexivity.
  - right. split.
    + intros Hst. unfold loop_stops in Hst. fold c in Hst. fold L in Hst. unfold goes_on in G.
      destruct (destruct_last post) as [Ep|(post' & z & Ep)].
      * subst post. rewrite He, rev_unit, (Last pre a He) in Hst. lia.
      * assert (Ec : c = (pre ++ a :: post') ++ [z]) by (rewrite He, Ep, <- app_assoc; reflexivity).
        rewrite Ec, rev_unit, (Last _ z Ec), enc_command_app, app_length in Hst. lia.
    + intros c' r H.
      assert (Hskp : skipn p d = enc_command pre ++ (enc_command (a :: post) ++ enc_native 2 (ff_crc v) ++ suf)).
      { rewrite Hsk, He, enc_command_app, <- app_assoc. reflexivity. }
      assert (Hlc : length c = (length pre + S (length post))%nat) by (rewrite He, app_length; reflexivity).
      rewrite (loop_many pre (S (length d)) L [] d p (8 * p) _) with (5 := Hskp) in H.
      * replace (S (length d) - length pre)%nat with (S (length d - length pre)) in H by lia.
        rewrite loop_limit in H by exact G. injection H as <- _. cbn [app]. lia.
      * rewrite He in Hrd. apply Forall_app in Hrd. apply Hrd.
      * cbn [app]. apply Forall_removelast. pose proof (removelast_plain c Hc) as Hi. rewrite He, removelast_app in Hi by discriminate.
        apply Forall_app in Hi. apply Hi.
      * exact Hpd.
      * exact Gp.
      * lia.
Qed.

Lemma sound_frame_exact {E : Env} v suf : e_feat <> Wizzilab -> sound v ->
  (loop_stops v -> exists r, read_fframe (new_reader (enc_fframe v ++ suf)) = Ok (v, r) /\ RWf r /\ view r = bits_of_bytes suf /\
     bread r = (8 * length (enc_fframe v) + 8 * length (command_of v))%nat) /\
  (~ loop_stops v -> forall r, read_fframe (new_reader (enc_fframe v ++ suf)) <> Ok (v, r)).
Proof.
  intros Hz Hv.
  assert (Eq : read_fframe (new_reader (enc_fframe v ++ suf)) =
    bind (read_command (ff_length v)) (fun m => c <- read_native 2 ;; ret (with_body (with_body v [] 0) m c))
      (mkRd (enc_fframe v ++ suf) (command_start v) [] (8 * command_start v))).
  { rewrite read_fframe_eq. unfold bind at 1. rewrite laid_head_read by (exact Hz || apply Hv). reflexivity. }
  rewrite Eq. clear Eq.
  pose proof (sound_frame_loop v suf Hz Hv) as H. cbv zeta in H.
  destruct H as [(Hs & r & E1 & Hr & Hw & Hd & HB & Hb)|(Hs & H)]; (split; [intros K|intros K]); try contradiction.
  - unfold bind. rewrite E1. assert (Hc : ff_crc v < 256 ^ N.of_nat 2) by apply (proj1 (proj1 Hv)).
    destruct (RT_native 2 (ff_crc v) Hc) as (bs & Hn & HR). destruct (W_native 2 (ff_crc v)) as (Hn' & _).
    assert (El : bs = bits_of_bytes (enc_native 2 (ff_crc v))) by congruence. subst bs. rewrite bits_of_bytes_app in Hw.
    rewrite (HR r Hr) by (eexists; exact Hw). rewrite with_body_same. unfold ret. eexists. split; [reflexivity|].
    rewrite bits_of_bytes_length, enc_native_length.
    assert (L : (8 * 2 <= length (view r))%nat) by (rewrite Hw, app_length, bits_of_bytes_length, enc_native_length; lia).
    split; [apply RWf_adv; assumption|]. split.
    + rewrite view_adv by assumption. rewrite Hw, skipn_app.
      replace (8 * 2)%nat with (length (bits_of_bytes (enc_native 2 (ff_crc v)))) by (rewrite bits_of_bytes_length, enc_native_length; reflexivity).
      rewrite skipn_all, Nat.sub_diag. reflexivity.
    + unfold adv. cbn [bread]. rewrite Hb, laid_fframe_length by (exact Hz || apply Hv). lia.
  - intros r Q. unfold bind in Q. destruct (read_command _ _) as [[m r1]| |]; try discriminate.
    destruct (read_native 2 r1) as [[k r2]| |]; try discriminate. unfold ret in Q.
    assert (Q1 : with_body (with_body v [] 0) m k = v) by congruence. apply (f_equal command_of) in Q1.
    rewrite with_body_command in Q1. apply (H m r1 eq_refl). rewrite Q1. reflexivity.
Qed.
(** For well-formed frames. *)
Lemma fframe_split {E : Env} v : e_feat <> Wizzilab -> wf_fframe v ->
  enc_fframe v = header_bytes v ++ enc_command (command_of v) ++ enc_native 2 (ff_crc v) /\
  length (header_bytes v) = command_start v /\ bits_of_bytes (header_bytes v) = bits_of_fields (head_fields v).
Proof. intros Hz Hv. exact (laid_fframe_split v Hz (proj1 (wf_sound v Hv))). Qed.
Lemma fframe_length {E : Env} v : e_feat <> Wizzilab -> wf_fframe v -> length (enc_fframe v) = (command_end v + 2)%nat.
Proof. intros Hz Hv. exact (laid_fframe_length v Hz (proj1 (wf_sound v Hv))). Qed.
Lemma head_read {E : Env} v suf : e_feat <> Wizzilab -> wf_fframe v ->
  read_head (new_reader (enc_fframe v ++ suf))
  = Ok (with_body v [] 0, mkRd (enc_fframe v ++ suf) (command_start v) [] (8 * command_start v)).
Proof. intros Hz Hv. exact (laid_head_read v suf Hz (proj1 (wf_sound v Hv))). Qed.
Lemma frame_loop {E : Env} v suf : e_feat <> Wizzilab -> wf_fframe v ->
  let d := enc_fframe v ++ suf in
  let R := read_command (ff_length v) (mkRd d (command_start v) [] (8 * command_start v)) in
  (loop_stops v /\ exists r, R = Ok (command_of v, r) /\ RWf r /\ view r = bits_of_bytes (enc_native 2 (ff_crc v) ++ suf) /\
     data r = d /\ BP r = (8 * command_end v)%nat /\ bread r = (8 * command_end v + 8 * length (command_of v))%nat) \/
  (~ loop_stops v /\ forall c r, R = Ok (c, r) -> length c <> length (command_of v)).
Proof. intros Hz Hv. exact (sound_frame_loop v suf Hz (wf_sound v Hv)). Qed.
Lemma frame_exact {E : Env} v suf : e_feat <> Wizzilab -> wf_fframe v ->
  (loop_stops v -> exists r, read_fframe (new_reader (enc_fframe v ++ suf)) = Ok (v, r) /\ RWf r /\ view r = bits_of_bytes suf /\
     bread r = (8 * length (enc_fframe v) + 8 * length (command_of v))%nat) /\
  (~ loop_stops v -> forall r, read_fframe (new_reader (enc_fframe v ++ suf)) <> Ok (v, r)).
Proof. intros Hz Hv. exact (sound_frame_exact v suf Hz (wf_sound v Hv)). Qed.
Lemma frame_reads_back {E : Env} v suf : e_feat <> Wizzilab -> wf_fframe v -> (reads_back v suf <-> loop_stops v).
Proof.
  intros Hz Hv. destruct (frame_exact v suf Hz Hv) as (H1 & H2). split.
  - intros (r & Hr & _). destruct (frame_loop v suf Hz Hv) as [(Hs & _)|(Hs & _)]; [exact Hs|]. exfalso. exact (H2 Hs r Hr).
  - intros Hs. destruct (H1 Hs) as (r & E1 & Hr & Hw & _). exists r. auto.
Qed.

(** ** C34 *)
Lemma enc_length_size v : wf_length v -> length (enc_length v) =
  if v <? 2 ^ 6 then 1%nat else if v <? 2 ^ 14 then 2%nat else if v <? 2 ^ 22 then 3%nat else 4%nat.
Proof. intros _. unfold enc_length. destruct (v <? 2 ^ 6), (v <? 2 ^ 14), (v <? 2 ^ 22); rewrite ?be_bytes_length; reflexivity. Qed.
Lemma rev_last {A} (l : list A) x t : rev l = x :: t -> l = rev t ++ [x].
Proof. intros H. apply (f_equal (@rev A)) in H. rewrite rev_involutive in H. exact H. Qed.
Lemma length_counts {E : Env} v : e_feat <> Wizzilab -> wf_fframe v -> N.to_nat (ff_length v) = bytes_after_length v ->
  (loop_stops v <->
   (ff_length v < 64 -> ends_indirect (command_of v)) /\
   (2 ^ 14 <= ff_length v -> last_longer 1 (command_of v)) /\
   (2 ^ 22 <= ff_length v -> last_longer 2 (command_of v))).
Proof.
  intros Hz Hv HL. unfold bytes_after_length in HL. rewrite (fframe_length v Hz Hv), (enc_length_size _ (proj1 Hv)) in HL.
  change (2 ^ 6) with 64 in HL. change (2 ^ 14) with 16384 in *. change (2 ^ 22) with 4194304 in *.
  assert (Hw : Forall wf_action (command_of v)) by apply Hv.
  unfold loop_stops, ends_indirect, last_longer. set (L := ff_length v) in *. clearbody L.
  assert (Hq : (command_start v <= command_end v)%nat) by (unfold command_end; lia).
  destruct (rev (command_of v)) as [|a t] eqn:Er.
  - assert (Ec : command_of v = []) by (apply (f_equal (@rev action)) in Er; rewrite rev_involutive in Er; exact Er).
    rewrite Ec. split.
    + intros H. split; [|split; intros _ pre a He; destruct pre; discriminate].
      intros Hl. exfalso. destruct (N.ltb_spec L 64); lia.
    + intros (H & _). destruct (N.ltb_spec L 64) as [G|G].
      * destruct (H G) as (pre & a & He & _). destruct pre; discriminate.
      * destruct (N.ltb_spec L 16384); [lia|]. destruct (N.ltb_spec L 4194304); lia.
  - apply rev_last in Er. rewrite Er in *. apply Forall_app in Hw as (_ & Hw). inversion Hw as [|? ? Ha _]; subst.
    pose proof (enc_action_len a (wf_readable a Ha)) as La.
    assert (Hqa : (length (enc_action a) <= command_end v)%nat).
    { unfold command_end. rewrite Er, enc_command_app, app_length. cbn [enc_command flat_map]. rewrite app_nil_r. lia. }
    assert (U : forall k, (forall pre x, rev t ++ [a] = pre ++ [x] -> k < length (enc_action x))%nat <-> (k < length (enc_action a))%nat).
    { intros k. split; [intros H; apply (H (rev t)); reflexivity|]. intros H pre x He. apply app_inj_tail in He as (_ & <-). exact H. }
    rewrite !U. 
    assert (V : (exists pre x, rev t ++ [a] = pre ++ [x] /\ is_indirect x = true) <-> is_indirect a = true).
    { split; [intros (pre & x & He & Hx); apply app_inj_tail in He as (_ & <-); exact Hx|]. intros H. exists (rev t), a. auto. }
    rewrite V. cbv zeta. destruct (is_indirect a); destruct (N.ltb_spec L 64); try (destruct (N.ltb_spec L 16384)); try (destruct (N.ltb_spec L 4194304));
      (split; [intros Q1|intros (Q1 & Q2 & Q3)]);
      lazymatch goal with
      | |- _ /\ _ => split; [intros; try reflexivity; exfalso|split; intros]; lia
      | |- _ => first [left; lia|right; split; [reflexivity|lia]|exfalso; specialize (Q1 ltac:(assumption)); discriminate]
      end.
Qed.

(** The derived entry points. *)
Lemma frame_api {E : Env} v suf : e_feat <> Wizzilab -> wf_fframe v -> loop_stops v ->
  fframe_try_from (enc_fframe v ++ suf)
  = (if Nat.eqb (length suf) (length (command_of v)) then Ok v else Err ETooMuchData) /\
  fframe_from_bytes (enc_fframe v ++ suf) 0
  = (if Nat.leb (length (command_of v)) (length suf) then Ok ((skipn (length (command_of v)) suf, 0%nat), v) else Panic).
Proof.
  intros Hz Hv Hs. destruct (proj1 (frame_exact v suf Hz Hv) Hs) as (r & E1 & _ & _ & B).
  unfold fframe_try_from, fframe_from_bytes. rewrite d_try_from_eq, d_from_bytes_0, E1, B.
  replace (8 * length (enc_fframe v) + 8 * length (command_of v))%nat with (8 * (length (enc_fframe v) + length (command_of v)))%nat by lia.
  rewrite div8, mod8, app_length. split.
  - destruct (Nat.eqb_spec (length suf) (length (command_of v))) as [Q|Q];
      destruct (Nat.eqb_spec (length (enc_fframe v) + length (command_of v)) (length (enc_fframe v) + length suf)); try reflexivity; lia.
  - destruct (Nat.leb_spec (length (command_of v)) (length suf));
      destruct (Nat.leb_spec (length (enc_fframe v) + length (command_of v)) (length (enc_fframe v) + length suf)); try lia; [|reflexivity].
    rewrite skipn_app, skipn_all2 by lia. cbn [app]. do 4 f_equal. lia.
Qed.

(** ** C12 *)
Definition Safe {A} (m : reader A) : Prop := forall r, RWf r ->
  match m r with Ok (_, r') => RWf r' /\ data r' = data r | Err e => e <> EFuel | Panic => False end.
Lemma Safe_bind {A B} (m : reader A) (f : A -> reader B) : Safe m -> (forall x, Safe (f x)) -> Safe (bind m f).
Proof.
  intros Hm Hf r Hr. unfold bind. specialize (Hm r Hr). destruct (m r) as [[x r1]|e|]; [|exact Hm|exact Hm].
  destruct Hm as (H1 & D1). specialize (Hf x r1 H1). destruct (f x r1) as [[y r2]|e|]; [|exact Hf|exact Hf].
  destruct Hf as (H2 & D2). split; [exact H2|congruence].
Qed.
Lemma Safe_Nice {A} k (m : reader A) P : Nice k m P -> Safe m.
Proof. intros H r Hr. specialize (H r Hr). destruct (m r) as [[x r1]|e|]; [|apply H|exact H]. destruct H as (_ & H1 & D & _). auto. Qed.
Lemma Safe_command {E : Env} L : Safe (read_command L).
Proof. intros r Hr. pose proof (read_command_safe L r Hr) as H. destruct (read_command L r) as [[x r1]|e|]; [|exact H|exact H]. destruct H as (H1 & D & _). auto. Qed.
Lemma Safe_ret {A} (x : A) : Safe (ret x).
Proof. intros r Hr. split; [exact Hr|reflexivity]. Qed.
Lemma Safe_cond {A} b (m : reader A) : Safe m -> Safe (read_cond b m).
Proof. intros H. unfold read_cond. destruct b; [apply Safe_bind; [exact H|]; intros|]; apply Safe_ret. Qed.
Lemma Safe_tframe {E : Env} L : Safe (read_tframe L).
Proof.
  unfold read_tframe. apply Safe_bind; [eapply Safe_Nice, Nice_tcontrol|]. intros c.
  apply Safe_bind; [eapply Safe_Nice, Nice_u8|]. intros d. apply Safe_bind; [eapply Safe_Nice, Nice_u8|]. intros t.
  apply Safe_bind; [apply Safe_cond; eapply Safe_Nice, Nice_u8|]. intros x.
  do 3 (apply Safe_bind; [apply Safe_cond; eapply Safe_Nice, Nice_varint|]; intros ?).
  apply Safe_bind; [apply Safe_cond; eapply Safe_Nice, Nice_ack|]. intros a.
  apply Safe_bind; [apply Safe_command|]. intros m. apply Safe_ret.
Qed.
Lemma Safe_nframe {E : Env} L : Safe (read_nframe L).
Proof.
  unfold read_nframe. apply Safe_bind; [eapply Safe_Nice, Nice_ncontrol|]. intros c.
  apply Safe_bind; [apply Safe_cond; eapply Safe_Nice, Nice_hopping|]. intros h.
  apply Safe_bind; [eapply Safe_Nice, Nice_access_class|]. intros a. apply Safe_bind; [eapply Safe_Nice, Nice_address|]. intros o.
  apply Safe_bind; [apply Safe_tframe|]. intros f. apply Safe_ret.
Qed.
Lemma Safe_fframe {E : Env} : Safe read_fframe.
Proof.
  unfold read_fframe. apply Safe_bind; [eapply Safe_Nice, Nice_length|]. intros l. apply Safe_bind; [eapply Safe_Nice, Nice_u8|]. intros s.
  apply Safe_bind; [eapply Safe_Nice, Nice_enum0|]. intros t. apply Safe_bind; [eapply Safe_Nice, Nice_uint|]. intros e.
  apply Safe_bind; [eapply Safe_Nice, Nice_address|]. intros a. apply Safe_bind; [apply Safe_nframe|]. intros f.
  apply Safe_bind; [eapply Safe_Nice, Nice_native; reflexivity|]. intros c. apply Safe_ret.
Qed.
Lemma Safe_bframe {E : Env} : Safe read_bframe.
Proof. eapply Safe_Nice, Nice_bframe. Qed.
Lemma d_try_from_safe {A} (m : reader A) d : Safe m -> d_try_from m d <> Panic /\ d_try_from m d <> Err EFuel.
Proof.
  intros H. rewrite d_try_from_eq. specialize (H _ (new_RWf d)). destruct (m (new_reader d)) as [[x r]|e|]; [|split; congruence|contradiction].
  destruct (Nat.eqb _ _); split; discriminate.
Qed.

(** Every accepted input, when the header ends on a byte boundary. *)
Lemma no_tx_status {E : Env} r p b t a r' : e_feat <> Wizzilab -> At r p -> skipn p (data r) = b :: t ->
  read_action r = Ok (a, r') -> is_tx_status a = false.
Proof.
  intros Hz Hr Hs H. destruct (read_action_parsed r p b t a r' Hr Hs H) as (Hin & Hop & _).
  destruct (is_tx_status a) eqn:Ht; [|reflexivity]. exfalso. destruct a; try discriminate. cbn [opcode_of] in Hop.
  rewrite <- Hop in Hin. unfold assigned_opcodes in Hin. destruct e_feat; [| |contradiction]; cbn in Hin; intuition discriminate.
Qed.
Lemma loop_count {E : Env} fuel : e_feat <> Wizzilab -> forall L acc d p n c r', (p <= length d)%nat ->
  read_actions fuel L acc (mkRd d p [] n) = Ok (c, r') ->
  exists new q, c = acc ++ new /\ (p <= q <= length d)%nat /\ At r' q /\ data r' = d /\
    bread r' = (n + 8 * length new + 8 * (q - p))%nat.
Proof.
  intros Hz. induction fuel as [|fuel IH]; intros L acc d p n c r' Hp H; [discriminate|].
  pose proof (At_start d p n Hp) as Hr.
  assert (Done : forall r2, At r2 p -> data r2 = d -> bread r2 = n -> exists new q, acc = acc ++ new /\ (p <= q <= length d)%nat /\
    At r2 q /\ data r2 = d /\ bread r2 = (n + 8 * length new + 8 * (q - p))%nat).
  { intros r2 A2 D2 B2. exists [], p. rewrite app_nil_r. cbn [length]. split; [reflexivity|]. split; [lia|]. split; [exact A2|]. split; [exact D2|lia]. }
  cbn [read_actions] in H. unfold bind at 1 in H. rewrite valid_length_at in H.
  destruct (orb (L =? 0) (N.of_nat p <? L)); [|injection H as <- <-; apply Done; [exact Hr|reflexivity|reflexivity]].
  unfold bind at 1 in H. destruct (skipn p d) as [|b t] eqn:Hs.
  - destruct (at_end_nil _ p Hr Hs) as (Ee & _). rewrite Ee in H. injection H as <- <-. apply Done; [exact Hr|reflexivity|reflexivity].
  - destruct (at_end_cons _ p b t Hr Hs) as (r1 & Ee & Er & Hr1). rewrite Ee in H.
    assert (D1 : data r1 = d) by (subst r1; reflexivity). assert (B1 : bread r1 = n) by (subst r1; reflexivity).
    destruct (last_is_indirect acc); [injection H as <- <-; apply Done; [exact Hr1|exact D1|exact B1]|].
    unfold bind in H. destruct (read_action r1) as [[a r2]| |] eqn:Ea; try discriminate.
    assert (Hs1 : skipn p (data r1) = b :: t) by (rewrite D1; exact Hs).
    pose proof (no_tx_status r1 p b t a r2 Hz Hr1 Hs1 Ea) as Hta.
    destruct (read_action_moved r1 p b t a r2 Hr1 Hs1 Ea Hta) as (q & Hq & Hr2 & D2 & B2).
    pose proof (read_action_left r1 p b t a r2 Hr1 Hs1 Ea Hta) as L2. rewrite (At_state r2 q Hr2 L2), D2, D1 in H.
    assert (Hqd : (q <= length d)%nat) by (rewrite <- D1, <- D2; apply Hr2).
    destruct (IH _ _ _ _ _ _ _ Hqd H) as (new & q' & -> & Hq' & A' & D' & B').
    exists (a :: new), q'. rewrite <- app_assoc. split; [reflexivity|]. split; [lia|]. split; [exact A'|]. split; [exact D'|].
    rewrite B'. cbn [length]. lia.
Qed.
Lemma frame_count {E : Env} d v r : e_feat <> Wizzilab -> read_fframe (new_reader d) = Ok (v, r) ->
  exists q, (q <= length d)%nat /\ view r = bits_of_bytes (skipn q d) /\ reader_state r /\
    bread r = (8 * (q + length (command_of v)))%nat.
Proof.
  intros Hz H. rewrite read_fframe_eq in H. unfold bind at 1 in H.
  destruct (read_head (new_reader d)) as [[h r1]| |] eqn:E1; try discriminate.
  pose proof (Count_head _ _ _ (new_RWf d) E1) as M.
  assert (M0 : moved 0 (new_reader d) r1) by (revert M; unfold head_rest; destruct e_feat; auto; contradiction). clear M.
  pose proof (moved_left _ _ (new_RWf d) eq_refl M0) as L1. destruct M0 as (W1 & D1 & _ & k & B1 & C1).
  cbn [new_reader data bread] in D1, C1. change (BP (new_reader d)) with 0%nat in B1. cbn [Nat.add] in *.
  assert (Er : r1 = mkRd d k [] (8 * k)).
  { destruct r1 as [x y z w]. cbn [left data bread] in *. subst. unfold BP in B1. cbn [pos left length] in B1. f_equal. lia. }
  assert (Hk : (k <= length d)%nat) by (destruct W1 as (W1 & _); rewrite Er in W1; exact W1).
  rewrite Er in H. unfold bind at 1, read_command in H. cbn [data] in H.
  destruct (read_actions _ _ _ _) as [[c r2]| |] eqn:E2; try discriminate.
  destruct (loop_count _ Hz _ _ _ _ _ _ _ Hk E2) as (new & q & Ec & Hq & A2 & D2 & B2). cbn [app] in Ec. subst new.
  unfold bind in H. destruct (read_native 2 r2) as [[crc r3]| |] eqn:E3; try discriminate. unfold ret in H.
  assert (Hv : v = with_body h c crc) by congruence. assert (Hr3 : r3 = r) by congruence. subst r3.
  destruct (Adv_native 2 _ _ _ (proj1 A2) E3) as (L3 & ->). rewrite Hv, with_body_command.
  assert (Hview : view r2 = bits_of_bytes (skipn q d)) by (rewrite <- D2; apply A2).
  assert (Hq2 : (q + 2 <= length d)%nat) by (rewrite Hview, bits_of_bytes_length, skipn_length in L3; lia).
  exists (q + 2)%nat. split; [exact Hq2|]. split.
  - rewrite view_adv by (apply A2 || assumption). rewrite Hview.
    replace (skipn (q + 2) d) with (skipn 2 (skipn q d)) by (rewrite skipn_skipn; f_equal; lia).
    rewrite <- (firstn_skipn 2 (skipn q d)) at 1. rewrite bits_of_bytes_app, skipn_app.
    assert (Hf : length (bits_of_bytes (firstn 2 (skipn q d))) = (8 * 2)%nat).
    { rewrite bits_of_bytes_length, firstn_length, skipn_length. lia. }
    rewrite skipn_all2 by lia. rewrite Hf, Nat.sub_diag. reflexivity.
  - split; [apply RWf_adv; [apply A2|exact L3]|]. unfold adv. cbn [bread]. lia.
Qed.
Lemma frame_entry {E : Env} d : e_feat <> Wizzilab ->
  (forall v r, read_fframe (new_reader d) = Ok (v, r) -> exists q, (q <= length d)%nat /\ view r = bits_of_bytes (skipn q d) /\
     fframe_try_from d = (if Nat.eqb (q + length (command_of v)) (length d) then Ok v else Err ETooMuchData) /\
     fframe_from_bytes d 0 = (if Nat.leb (q + length (command_of v)) (length d)
       then Ok ((skipn (q + length (command_of v)) d, 0%nat), v) else Panic)) /\
  (forall e, read_fframe (new_reader d) = Err e -> fframe_try_from d = Err e /\ fframe_from_bytes d 0 = Err e).
Proof.
  intros Hz. unfold fframe_try_from, fframe_from_bytes. rewrite d_try_from_eq, d_from_bytes_0. split.
  - intros v r H. destruct (frame_count d v r Hz H) as (q & Hq & Hw & _ & B). exists q. rewrite H, B, div8, mod8. auto.
  - intros e ->. auto.
Qed.
