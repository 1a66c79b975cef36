(** Frames against SpecFrameDecode.v. *)
From Coq Require Import List NArith ZArith Bool Lia ZifyBool ZifyNat ZifyN Arith.
From Verif Require Import Base Deku Utils Types Physical Link Network Session Data Query
  Interface File Operation Action Command Frames WellFormed LActionApi LReturn SpecLayout SpecDecode LBits LReader LLayout LNiceOps
  LDecode LDecodeTypes LDecodeOps LDecodeAct LDecodeCmd LDecodeTx LDecodeLoop SpecFrameDecode.
Import ListNotations.
Open Scope N_scope.

(** ** Bytes from later bits *)
Lemma N_of_bits_cut j x : (j <= length x)%nat ->
  N_of_bits (firstn j x) = N_of_bits x / 2 ^ N.of_nat (length x - j)
  /\ N_of_bits (skipn j x) = N_of_bits x mod 2 ^ N.of_nat (length x - j).
Proof.
  intros H. assert (X : N_of_bits x = N_of_bits (firstn j x) * 2 ^ N.of_nat (length x - j) + N_of_bits (skipn j x)).
  { rewrite <- (firstn_skipn j x) at 1. rewrite N_of_bits_app, skipn_length. reflexivity. }
  pose proof (N_of_bits_lt (skipn j x)) as L. rewrite skipn_length in L. rewrite X.
  assert (P : 2 ^ N.of_nat (length x - j) <> 0) by (apply N.pow_nonzero; discriminate).
  split; [rewrite N.div_add_l, N.div_small, N.add_0_r by assumption; reflexivity|].
  rewrite N.add_comm, N.mod_add, N.mod_small by assumption. reflexivity.
Qed.
Lemma octets_late j l : (1 <= j <= 7)%nat -> Nat.modulo (length l) 8 = 0%nat ->
  octets (skipn j l) = late (N.of_nat j) (octets l).
Proof.
  intros Hj. induction l as [l Hl|x l Hx IH] using octet_ind; intros M.
  - rewrite Nat.mod_small in M by exact Hl. destruct l; [|discriminate]. rewrite skipn_nil. reflexivity.
  - rewrite app_length, Hx in M. assert (M' : Nat.modulo (length l) 8 = 0%nat) by (clear - M; divlia).
    specialize (IH M'). rewrite skipn_short by lia. rewrite (octets_cons x) by exact Hx. destruct (Nat.ltb_spec (length l) 8) as [L|L].
    + assert (l = []) as -> by (rewrite Nat.mod_small in M' by exact L; destruct l; [reflexivity|discriminate]).
      rewrite app_nil_r. rewrite octets_short by (rewrite skipn_length; lia). reflexivity.
    + assert (Ey : exists y l', l = y ++ l' /\ length y = 8%nat)
        by (exists (firstn 8 l), (skipn 8 l); rewrite firstn_skipn, firstn_length; split; [reflexivity|lia]).
      destruct Ey as (y & l' & -> & Hy). rewrite skipn_short in IH by lia.
      rewrite (octets_cons y) in * by exact Hy. cbn [late]. cbn [late] in IH.
      rewrite <- (firstn_skipn j y) at 1. rewrite <- app_assoc, app_assoc.
      rewrite octets_cons by (rewrite app_length, skipn_length, firstn_length; lia). rewrite <- IH. f_equal.
      rewrite N_of_bits_app, firstn_length, Hy.
      destruct (N_of_bits_cut j x ltac:(lia)) as [_ ->]. destruct (N_of_bits_cut j y ltac:(lia)) as [-> _].
      rewrite Hx, Hy. replace (N.of_nat (8 - j)) with (8 - N.of_nat j) by lia.
      replace (Nat.min j 8) with j by lia. reflexivity.
Qed.
Lemma late_length j l : length (late j l) = Nat.pred (length l).
Proof. induction l as [|a [|b l] IH]; [reflexivity..|]. cbn [late length] in *. rewrite IH. reflexivity. Qed.

Lemma ret_left {A B} (v : A) (f : A -> reader B) r : bind (ret v) f r = f v r.
Proof. reflexivity. Qed.
Lemma bind_ok {A B} (m : reader A) (f : A -> reader B) r v r1 : m r = Ok (v, r1) -> bind m f r = f v r1.
Proof. intros H. unfold bind. rewrite H. reflexivity. Qed.
Lemma bind_err {A B} (m : reader A) (f : A -> reader B) r e : m r = Err e -> bind m f r = Err e.
Proof. intros H. unfold bind. rewrite H. reflexivity. Qed.

(** ** Headers *)
Definition g_link : reader (N * (nframe -> N -> fframe)) :=
  l <- read_length ;; s <- read_u8 ;; t <- read_address_type ;; e <- read_uint 6 ;;
  a <- read_address t ;; ret (l, mkFFrame l s t e a).
Definition g_ncontrol : reader (bool * bool * address_type * N) :=
  a <- read_bool ;; b <- read_bool ;; t <- read_address_type ;; skip_bits 1 ;;; n <- read_uint 3 ;; ret (a, b, t, n).
Definition g_net (c : ncontrol) : reader (tframe -> nframe) :=
  h <- read_cond (nc_hopping c) read_hopping ;; a <- read_access_class ;;
  o <- read_address (nc_origin_type c) ;; ret (mkNFrame c h a o).
Definition g_trans (c : tcontrol) : reader (command -> tframe) :=
  d <- read_u8 ;; t <- read_u8 ;;
  x <- read_cond (tc_agc c) read_u8 ;;
  l <- read_cond (tc_listen c) read_varint ;;
  e <- read_cond (tc_exec_delay c) read_varint ;;
  g <- read_cond (tc_ack_requested c && tc_dialog_start c) read_varint ;;
  a <- read_cond (tc_ack_not_void c) read_ack ;;
  ret (mkTFrame c d t x l e g a).
Definition g_headers {E : Env} : reader (command -> nframe) :=
  c <- read_ncontrol ;; net <- g_net c ;; k <- read_tcontrol ;; tr <- g_trans k ;; ret (fun m => net (tr m)).
Lemma read_fframe_parts {E : Env} r :
  read_fframe r = (x <- g_link ;; h <- g_headers ;; m <- read_command (fst x) ;; c <- read_native 2 ;; ret (snd x (h m) c)) r.
Proof.
  unfold read_fframe, read_nframe, read_tframe, g_link, g_headers, g_net, g_trans.
  rewrite !bind_bind. apply bind_ext. intros l r1. rewrite !bind_bind. apply bind_ext. intros s r2.
  rewrite !bind_bind. apply bind_ext. intros t r3. rewrite !bind_bind. apply bind_ext. intros e r4.
  rewrite !bind_bind. apply bind_ext. intros a r5. rewrite ret_left. cbn [fst snd].
  rewrite !bind_bind. apply bind_ext. intros c r6. rewrite !bind_bind. apply bind_ext. intros h r7.
  rewrite !bind_bind. apply bind_ext. intros k r8. rewrite !bind_bind. apply bind_ext. intros o r9.
  rewrite ?ret_left. rewrite !bind_bind. apply bind_ext. intros ? ?.
  do 7 (rewrite !bind_bind; apply bind_ext; intros ? ?).
  rewrite ?ret_left. rewrite !bind_bind. apply bind_ext. intros ? ?. rewrite ?ret_left. reflexivity.
Qed.

Lemma Dec_perhaps {A} c (m : reader A) D : Dec m D -> Dec (read_cond c m) (perhaps c D).
Proof. intros H. unfold read_cond, perhaps. apply Dec_if; [|apply Dec_ret]. apply Dec_bind; [exact H|]. intros v. apply Dec_ret. Qed.
Definition g_fcontrol : reader (address_type * N) := t <- read_address_type ;; e <- read_uint 6 ;; ret (t, e).
Lemma Dec_fcontrol : Dec g_fcontrol
  (let* c := one in let* t := named code_address_type address_types (part 6 2 c) in give (t, part 0 6 c)).
Proof. unfold g_fcontrol. group. Qed.
Lemma Dec_link : Dec g_link dec_link.
Proof.
  eapply Dec_ext with (m := l <- read_length ;; s <- read_u8 ;; x <- g_fcontrol ;; a <- read_address (fst x) ;;
    ret (l, mkFFrame l s (fst x) (snd x) a)).
  - eapply Dec_bind; [exact Dec_length|]. intros l. eapply Dec_bind; [exact Dec_u8|]. intros s.
    eapply Dec_bind; [exact Dec_fcontrol|]. intros x. eapply Dec_bind; [apply Dec_address|]. intros a. apply Dec_ret.
  - unfold g_link, g_fcontrol. rsame.
  - unfold dec_link. dsame.
Qed.
Lemma Dec_bframe {E : Env} : Dec read_bframe dec_bframe.
Proof.
  eapply Dec_ext with (m := s <- read_u8 ;; x <- g_fcontrol ;; p <- read_native 2 ;; c <- read_native 2 ;;
    ret (mkBFrame s (fst x) (snd x) p c)).
  - eapply Dec_bind; [exact Dec_u8|]. intros s. eapply Dec_bind; [exact Dec_fcontrol|]. intros x.
    eapply Dec_bind; [exact (Dec_native 2)|]. intros p. eapply Dec_bind; [exact (Dec_native 2)|]. intros c. apply Dec_ret.
  - unfold read_bframe, g_fcontrol. rsame.
  - unfold dec_bframe. dsame.
Qed.
Lemma Dec_hopping : Dec read_hopping dec_hopping.
Proof. unfold read_hopping, dec_hopping. group. Qed.
Lemma Dec_ncontrol : Dec g_ncontrol
  (let* c := one in let* t := named code_address_type address_types (part 4 2 c) in give (flag 7 c, flag 6 c, t, part 0 3 c)).
Proof. unfold g_ncontrol. group. Qed.
Definition d_net (c : ncontrol) : dec (tframe -> nframe) :=
  let* h := perhaps (nc_hopping c) dec_hopping in
  let* k := (let* k := one in give (mkAccessClass (part 4 4 k) (part 0 4 k))) in
  let* a := dec_address (nc_origin_type c) in give (mkNFrame c h k a).
Lemma Dec_net c : Dec (g_net c) (d_net c).
Proof.
  unfold g_net, d_net. apply Dec_bind; [apply Dec_perhaps, Dec_hopping|]. intros h.
  apply Dec_bind; [exact Dec_access_class|]. intros k. apply Dec_bind; [apply Dec_address|]. intros a. apply Dec_ret.
Qed.
Lemma dec_net_eq c nls l : dec_net c nls l =
  (let* t := named code_address_type address_types (part 4 2 c) in let* n := named code_nls all_nls nls in
   d_net (mkNControl (flag 7 c) (flag 6 c) t n)) l.
Proof. unfold dec_net, d_net. cbn [nc_hopping nc_origin_type]. revert l. dsame. Qed.
Definition tc_of (c : N) : tcontrol :=
  mkTControl (flag 6 c) (flag 5 c) (flag 4 c) (flag 3 c) (flag 2 c) (flag 1 c) (flag 0 c).
Lemma Dec_trans c : Dec (g_trans (tc_of c)) (dec_trans c).
Proof.
  unfold g_trans, dec_trans, tc_of. cbn [tc_agc tc_listen tc_exec_delay tc_ack_requested tc_dialog_start tc_ack_not_void].
  eapply Dec_bind; [exact Dec_u8|]. intros d. eapply Dec_bind; [exact Dec_u8|]. intros t.
  eapply Dec_bind; [apply Dec_perhaps, Dec_u8|]. intros x.
  do 3 (eapply Dec_bind; [apply Dec_perhaps, Dec_varint|]; intros ?).
  eapply Dec_bind; [apply Dec_perhaps|intros a; apply Dec_ret].
  unfold read_ack. apply Dec_bind; [exact Dec_u8|]. intros y. apply Dec_bind; [exact Dec_u8|]. intros z. apply Dec_ret.
Qed.
Lemma read_tcontrol_ok r : RWf r -> (7 <= length (view r))%nat ->
  read_tcontrol r = Ok (tc_of (N_of_bits (firstn 7 (view r))), adv r 7).
Proof.
  intros Hr L.
  assert (P : PB read_tcontrol (fun l => match cut 7 l with Some (x, t) => Some (tc_of (N_of_bits x), t) | None => None end)).
  { enough (G : exists P, PB read_tcontrol P /\ forall l, P l = match cut 7 l with Some (x, t) => Some (tc_of (N_of_bits x), t) | None => None end).
    { destruct G as (P & HP & HE). intros s Hs. specialize (HP s Hs). rewrite HE in HP. exact HP. }
    eexists. split; [unfold read_tcontrol; pb|]. intros l.
    do 7 (destruct l as [|[] l]; [vm_compute; reflexivity| |]); vm_compute; reflexivity. }
  specialize (P r Hr). cbv beta in P. rewrite cut_spec in P. destruct (Nat.leb_spec 7 (length (view r))); [|lia].
  destruct P as (k & Hk & Hs & ->). assert (k = 7)%nat as ->; [|reflexivity].
  apply (f_equal (@length bool)) in Hs. rewrite !skipn_length in Hs. lia.
Qed.
Lemma octet_control x : length x = 8%nat ->
  N_of_bits (firstn 1 x) = part 7 1 (N_of_bits x) /\ N_of_bits (firstn 7 (skipn 1 x)) = part 0 7 (N_of_bits x)
  /\ N_of_bits (firstn 7 x) = part 1 7 (N_of_bits x).
Proof.
  intros H. do 8 (destruct x as [|? x]; [discriminate|]). destruct x; [|discriminate]. clear H.
  repeat match goal with b : bool |- _ => destruct b end; vm_compute; repeat split.
Qed.

Definition lost {E : Env} : nat := match e_feat with Wizzilab => 1 | _ => 0 end.
Definition HeadAt {E : Env} (m : reader (command -> nframe)) (r : rd) : Prop :=
  match dec_headers (octets (view r)) with
  | Some (h, rest) => exists k, (1 <= k)%nat /\ (8 * k <= length (view r))%nat
      /\ rest = skipn k (octets (view r)) /\ m r = Ok (h, adv r (8 * k - lost))
  | None => exists e, m r = Err e
  end.

Lemma octets_view r : RWf r -> left r = [] -> length (view r) = (8 * length (octets (view r)))%nat.
Proof. intros H L. rewrite octets_length. pose proof (view_octets r H L) as M. clear - M. divlia. Qed.
Lemma octets_head l x tl : octets l = x :: tl -> exists y t, l = y ++ t /\ length y = 8%nat /\ x = N_of_bits y /\ tl = octets t.
Proof.
  intros H. assert (L : (8 <= length l)%nat).
  { apply (f_equal (@length N)) in H. rewrite octets_length in H. cbn [length] in H. clear - H. divlia. }
  exists (firstn 8 l), (skipn 8 l). rewrite firstn_skipn. assert (L8 : length (firstn 8 l) = 8%nat) by (rewrite firstn_length; lia).
  rewrite <- (firstn_skipn 8 l), octets_cons in H by exact L8. injection H as <- <-. repeat split. exact L8.
Qed.
Lemma named_nls c : match find (fun v => code_nls v =? c) all_nls with
                    | Some v => assoc c nls_method_tbl = Some v | None => assoc c nls_method_tbl = None end.
Proof.
  cbn [find all_nls code_nls assoc nls_method_tbl]. rewrite !(N.eqb_sym c).
  repeat match goal with |- context [?a =? c] => destruct (N.eqb_spec a c); try reflexivity end.
Qed.

(** With wizzilab: the control byte is followed by whole bytes up to the transport control field. *)
Lemma head_wizzilab {E : Env} r : e_feat = Wizzilab -> RWf r -> left r = [] -> HeadAt g_headers r.
Proof.
  intros HF Hr Hl. unfold HeadAt, dec_headers, lost. rewrite HF.
  pose proof (Dec_ncontrol r Hr) as HC. unfold DecAt, andthen, one in HC.
  assert (HN : g_headers r = (c <- g_ncontrol ;; n <- (match assoc (snd c) nls_method_tbl with Some n => ret n | None => fail EParse end) ;;
     net <- g_net (mkNControl (fst (fst (fst c))) (snd (fst (fst c))) (snd (fst c)) n) ;;
     k <- read_tcontrol ;; tr <- g_trans k ;; ret (fun m => net (tr m))) r).
  { unfold g_headers, read_ncontrol, g_ncontrol, read_nls_method, nls_bits, is_wizzilab, read_enum. rewrite HF. cbv iota.
    rewrite !bind_bind. apply bind_ext. intros a r1. rewrite !bind_bind. apply bind_ext. intros b r2.
    rewrite !bind_bind. apply bind_ext. intros t r3. rewrite !bind_bind. apply bind_ext. intros u r4.
    rewrite !bind_bind. apply bind_ext. intros n r5. rewrite ret_left. cbn [fst snd].
    destruct (assoc n nls_method_tbl); reflexivity. }
  rewrite HN. clear HN.
  destruct (octets (view r)) as [|c tl] eqn:EO; [destruct HC as [e HC]; exists e; apply (bind_err _ _ _ _ HC)|].
  assert (EN : forall nls l, dec_net c nls l = (let* t := named code_address_type address_types (part 4 2 c) in
     let* n := named code_nls all_nls nls in d_net (mkNControl (flag 7 c) (flag 6 c) t n)) l) by (intros; apply dec_net_eq).
  rewrite EN. clear EN. unfold andthen, named in *. destruct (find (fun v => code_address_type v =? part 4 2 c) address_types) as [t|].
  2: { destruct HC as [e HC]. cbv [reject]. exists e; apply (bind_err _ _ _ _ HC). }
  cbv [give] in HC. destruct HC as (k0 & Hk0 & Hs0 & HC).
  assert (k0 = 1)%nat as ->.
  { pose proof (octets_view r Hr Hl) as LV. rewrite EO in LV. apply (f_equal (@length N)) in Hs0. rewrite skipn_length in Hs0. cbn [length] in *. lia. }
  change (8 * 1)%nat with 8%nat in HC. rewrite (bind_ok _ _ _ _ _ HC). cbn [fst snd].
  pose proof (named_nls (part 0 3 c)) as NN. unfold give at 1. destruct (find (fun v => code_nls v =? part 0 3 c) all_nls) as [n|]; rewrite NN.
  2: { exists EParse. reflexivity. }
  rewrite ret_left. unfold give at 1. set (nc := mkNControl (flag 7 c) (flag 6 c) t n).
  assert (LV : length (view r) = (8 * S (length tl))%nat) by (rewrite (octets_view r Hr Hl), EO; reflexivity).
  assert (W1 : RWf (adv r 8)) by (apply RWf_adv; [exact Hr|lia]).
  assert (A1 : octets (view (adv r 8)) = tl).
  { rewrite view_adv by (try exact Hr; lia). change 8%nat with (8 * 1)%nat. rewrite octets_skip by lia. rewrite EO. reflexivity. }
  pose proof (Dec_net nc (adv r 8) W1) as HD. unfold DecAt in HD. rewrite A1 in HD.
  destruct (d_net nc tl) as [[net rest]|]; [|destruct HD as [e HD]; exists e; apply (bind_err _ _ _ _ HD)].
  destruct HD as (k & Hk & Hs & HD). rewrite view_adv, skipn_length in Hk by (try exact Hr; lia).
  rewrite adv_adv in HD by (try exact Hr; lia). rewrite (bind_ok _ _ _ _ _ HD).
  set (r2 := adv r (8 + 8 * k)) in *. assert (W2 : RWf r2) by (apply RWf_adv; [exact Hr|lia]).
  assert (L2 : left r2 = []).
  { unfold r2. replace (8 + 8 * k)%nat with (8 * S k)%nat by lia. rewrite adv_aligned; [reflexivity|exact Hr|exact Hl|lia]. }
  assert (V2 : view r2 = skipn (8 + 8 * k) (view r)) by (apply view_adv; [exact Hr|lia]).
  assert (O2 : octets (view r2) = rest).
  { rewrite V2. replace (8 + 8 * k)%nat with (8 * S k)%nat by lia. rewrite octets_skip, EO by lia. rewrite skipn_cons, Hs. reflexivity. }
  assert (LV2 : length (view r2) = (8 * length rest)%nat) by (rewrite (octets_view r2 W2 L2), O2; reflexivity).
  assert (LVE : length (view r2) = (length (view r) - (8 + 8 * k))%nat) by (rewrite V2, skipn_length; reflexivity).
  destruct rest as [|x more] eqn:ER.
  { exists EIncomplete. apply bind_err. unfold read_tcontrol. apply bind_err. unfold read_bool. apply bind_err.
    apply read_uint_err; [exact W2|]. cbn [length] in LV2. lia. }
  rewrite (bind_ok _ _ _ _ _ (read_tcontrol_ok r2 W2 ltac:(cbn [length] in LV2; lia))).
  destruct (octets_head _ _ _ O2) as (y & tt & VY & LY & -> & _).
  assert (HC7 : N_of_bits (firstn 7 (view r2)) = part 1 7 (N_of_bits y)).
  { rewrite VY, firstn_short by lia. apply (octet_control y LY). }
  rewrite HC7. set (r3 := adv r2 7). assert (W3 : RWf r3) by (apply RWf_adv; [exact W2|cbn [length] in LV2; lia]).
  pose proof (Dec_trans (part 1 7 (N_of_bits y)) r3 W3) as HT. unfold DecAt in HT.
  assert (V3 : octets (view r3) = late 7 (N_of_bits y :: more)).
  { unfold r3. rewrite view_adv by (try exact W2; cbn [length] in LV2; lia). rewrite octets_late; [|lia|apply view_octets; assumption].
    rewrite O2. reflexivity. }
  rewrite V3 in HT.
  destruct (dec_trans (part 1 7 (N_of_bits y)) (late 7 (N_of_bits y :: more))) as [[tr rest']|].
  2: { destruct HT as [e HT]. exists e. apply (bind_err _ _ _ _ HT). }
  destruct HT as (k' & Hk' & Hs' & HT). rewrite (bind_ok _ _ _ _ _ HT). unfold ret at 1.
  unfold r3 in Hk'. rewrite view_adv, skipn_length in Hk' by (try exact W2; cbn [length] in LV2; lia).
  exists (S k + S k')%nat. cbn [length] in *. split; [lia|]. split; [lia|]. split.
  - rewrite Hs', skipn_length, late_length. cbn [length Nat.pred].
    rewrite <- skipn_skipn, skipn_cons, <- Hs. f_equal. lia.
  - do 2 f_equal. unfold r3. rewrite (adv_adv r2 7) by (try exact W2; lia). unfold r2. rewrite adv_adv by (try exact Hr; lia). f_equal. lia.
Qed.

(** Without wizzilab: nine bits, then bytes one bit late, then seven bits. *)
Definition nc_of (x : list bool) : option ncontrol :=
  let c := N_of_bits (firstn 8 x) in
  match find (fun v => code_address_type v =? part 4 2 c) address_types,
        find (fun v => code_nls v =? 2 * part 0 3 c + N_of_bits (skipn 8 x)) all_nls with
  | Some t, Some n => Some (mkNControl (flag 7 c) (flag 6 c) t n)
  | _, _ => None
  end.
Lemma read_ncontrol_9 {E : Env} r : e_feat <> Wizzilab -> RWf r ->
  if Nat.leb 9 (length (view r)) then
    match nc_of (firstn 9 (view r)) with
    | Some c => read_ncontrol r = Ok (c, adv r 9)
    | None => exists e, read_ncontrol r = Err e
    end
  else exists e, read_ncontrol r = Err e.
Proof.
  intros HF Hr. assert (HB : nls_bits = 4%nat) by (unfold nls_bits, is_wizzilab; destruct e_feat; congruence).
  assert (P : PB read_ncontrol (fun l => match cut 9 l with Some (x, t) => option_map (fun c => (c, t)) (nc_of x) | None => None end)).
  { enough (G : exists P, PB read_ncontrol P /\ forall l, P l = match cut 9 l with Some (x, t) => option_map (fun c => (c, t)) (nc_of x) | None => None end).
    { destruct G as (P & HP & HE). intros s Hs. specialize (HP s Hs). rewrite HE in HP. exact HP. }
    unfold read_ncontrol, read_nls_method. rewrite HB.
    eexists. split; [pb|]. intros l.
    do 9 (destruct l as [|[] l]; [vm_compute; reflexivity| |]); vm_compute; reflexivity. }
  specialize (P r Hr). cbv beta in P. rewrite cut_spec in P. destruct (Nat.leb_spec 9 (length (view r))); [|exact P].
  destruct (nc_of (firstn 9 (view r))) as [c|]; cbn [option_map] in P; [|exact P].
  destruct P as (k & Hk & Hs & ->). assert (k = 9)%nat as ->; [|reflexivity].
  apply (f_equal (@length bool)) in Hs. rewrite !skipn_length in Hs. lia.
Qed.
Lemma head_other {E : Env} r : e_feat <> Wizzilab -> RWf r -> left r = [] -> HeadAt g_headers r.
Proof.
  intros HF Hr Hl. unfold HeadAt.
  assert (HL : lost = 0%nat) by (unfold lost; destruct e_feat; congruence). rewrite HL.
  assert (HS : dec_headers (octets (view r)) =
      match octets (view r) with
      | c :: ((x :: _) as tl) =>
          match dec_net c (2 * part 0 3 c + part 7 1 x) (late 1 tl) with
          | Some (net, rest) =>
              match skipn (length (late 1 tl) - length rest) tl with
              | y :: more =>
                  match dec_trans (part 0 7 y) more with
                  | Some (tr, rest') => Some (fun m => net (tr m), rest')
                  | None => None
                  end
              | [] => None
              end
          | None => None
          end
      | _ => None
      end) by (unfold dec_headers; destruct e_feat; [reflexivity|reflexivity|congruence]).
  rewrite HS. clear HS. pose proof (read_ncontrol_9 r HF Hr) as HC. pose proof (octets_view r Hr Hl) as LV. unfold g_headers.
  destruct (octets (view r)) as [|c [|x tl]] eqn:EO.
  1, 2: cbn [length] in LV; destruct (Nat.leb_spec 9 (length (view r))); [lia|]; destruct HC as [e HC]; exists e; apply (bind_err _ _ _ _ HC).
  cbn [length] in LV. destruct (Nat.leb_spec 9 (length (view r))) as [_|]; [|lia].
  destruct (octets_head _ _ _ EO) as (y & v1 & V1 & LY & -> & EO1). symmetry in EO1.
  destruct (octets_head _ _ _ EO1) as (z & v2 & V2 & LZ & -> & EO2).
  assert (NC : nc_of (firstn 9 (view r)) =
    match find (fun v => code_address_type v =? part 4 2 (N_of_bits y)) address_types,
          find (fun v => code_nls v =? 2 * part 0 3 (N_of_bits y) + part 7 1 (N_of_bits z)) all_nls with
    | Some t, Some n => Some (mkNControl (flag 7 (N_of_bits y)) (flag 6 (N_of_bits y)) t n)
    | _, _ => None
    end).
  { unfold nc_of. rewrite V1, V2. rewrite (firstn_app 9 y), LY. change (9 - 8)%nat with 1%nat.
    rewrite (firstn_all2 y) by lia. rewrite (firstn_short 8 y), (skipn_short 8 y) by lia.
    rewrite (firstn_all2 y), (skipn_all2 y) by lia. cbn [app]. rewrite firstn_short by lia.
    destruct (octet_control z LZ) as (-> & _). reflexivity. }
  rewrite NC in HC. clear NC.
  assert (EN : forall l, dec_net (N_of_bits y) (2 * part 0 3 (N_of_bits y) + part 7 1 (N_of_bits z)) l =
    match find (fun v => code_address_type v =? part 4 2 (N_of_bits y)) address_types,
          find (fun v => code_nls v =? 2 * part 0 3 (N_of_bits y) + part 7 1 (N_of_bits z)) all_nls with
    | Some t, Some n => d_net (mkNControl (flag 7 (N_of_bits y)) (flag 6 (N_of_bits y)) t n) l
    | _, _ => None
    end).
  { intros l. rewrite dec_net_eq. unfold andthen, named, give, reject.
    destruct (find (fun v => code_address_type v =? _) _); [|reflexivity]. destruct (find (fun v => code_nls v =? _) _); reflexivity. }
  rewrite EN. clear EN.
  destruct (find (fun v => code_address_type v =? part 4 2 (N_of_bits y)) address_types) as [t|];
    [destruct (find (fun v => code_nls v =? 2 * part 0 3 (N_of_bits y) + part 7 1 (N_of_bits z)) all_nls) as [n|]|];
    [|destruct HC as [e HC]; exists e; apply (bind_err _ _ _ _ HC)..].
  rewrite (bind_ok _ _ _ _ _ HC). set (nc := mkNControl (flag 7 (N_of_bits y)) (flag 6 (N_of_bits y)) t n).
  assert (W1 : RWf (adv r 9)) by (apply RWf_adv; [exact Hr|lia]).
  assert (LV1 : length v1 = (length (view r) - 8)%nat) by (rewrite V1, app_length; lia).
  assert (M1 : Nat.modulo (length v1) 8 = 0%nat) by (rewrite LV1, LV; clear; divlia).
  assert (V9 : view (adv r 9) = skipn 1 v1).
  { rewrite view_adv by (try exact Hr; lia). rewrite V1, (skipn_app 9 y), (skipn_all2 y), LY by lia. reflexivity. }
  assert (A1 : octets (view (adv r 9)) = late 1 (N_of_bits z :: tl)).
  { rewrite V9, octets_late by (lia || exact M1). rewrite EO1. reflexivity. }
  pose proof (Dec_net nc (adv r 9) W1) as HD. unfold DecAt in HD. rewrite A1 in HD.
  destruct (d_net nc (late 1 (N_of_bits z :: tl))) as [[net rest]|]; [|destruct HD as [e HD]; exists e; apply (bind_err _ _ _ _ HD)].
  destruct HD as (k & Hk & Hs & HD). rewrite V9, skipn_length in Hk.
  rewrite adv_adv in HD by (try exact Hr; lia). rewrite (bind_ok _ _ _ _ _ HD). clear HD.
  assert (EK : skipn (length (late 1 (N_of_bits z :: tl)) - length rest) (N_of_bits z :: tl) = octets (skipn (8 * k) v1)).
  { rewrite Hs, skipn_length, late_length. cbn [length Nat.pred]. rewrite octets_skip, EO1 by lia. f_equal. lia. }
  rewrite EK. set (v3 := skipn (8 * k) v1) in *.
  assert (LV3 : length v3 = (length v1 - 8 * k)%nat) by (unfold v3; apply skipn_length).
  destruct (octets v3) as [|w more] eqn:E3.
  { exfalso. apply (f_equal (@length N)) in E3. rewrite octets_length, LV3 in E3. cbn [length] in E3.
    clear - E3 Hk M1 LV1 LV. divlia. }
  destruct (octets_head _ _ _ E3) as (u & v4 & V4 & LU & -> & EM).
  set (r2 := adv r (9 + 8 * k)) in *. assert (W2 : RWf r2) by (apply RWf_adv; [exact Hr|lia]).
  assert (VR2 : view r2 = skipn 1 u ++ v4).
  { unfold r2. rewrite view_adv by (try exact Hr; lia). rewrite <- skipn_skipn, V1, (skipn_app 9 y), (skipn_all2 y), LY by lia.
    cbn [app]. change (9 - 8)%nat with 1%nat. rewrite skipn_skipn, Nat.add_comm, <- skipn_skipn.
    change (skipn 1 (skipn (8 * k) v1)) with (skipn 1 v3). rewrite V4. apply skipn_short. lia. }
  assert (L7 : (7 <= length (view r2))%nat) by (rewrite VR2, app_length, skipn_length; lia).
  rewrite (bind_ok _ _ _ _ _ (read_tcontrol_ok r2 W2 L7)).
  assert (HC7 : N_of_bits (firstn 7 (view r2)) = part 0 7 (N_of_bits u)).
  { rewrite VR2, firstn_short by (rewrite skipn_length; lia). apply (octet_control u LU). }
  rewrite HC7. set (r3 := adv r2 7). assert (W3 : RWf r3) by (apply RWf_adv; [exact W2|exact L7]).
  pose proof (Dec_trans (part 0 7 (N_of_bits u)) r3 W3) as HT. unfold DecAt in HT.
  assert (VR3 : view r3 = v4).
  { unfold r3. rewrite view_adv by (try exact W2; lia). rewrite VR2, skipn_app, skipn_length, LU.
    rewrite skipn_all2 by (rewrite skipn_length; lia). reflexivity. }
  rewrite VR3, <- EM in HT. destruct (dec_trans (part 0 7 (N_of_bits u)) more) as [[tr rest']|].
  2: { destruct HT as [e HT]. exists e. apply (bind_err _ _ _ _ HT). }
  destruct HT as (k' & Hk' & Hs' & HT). rewrite (bind_ok _ _ _ _ _ HT). unfold ret at 1.
  assert (L4 : length v3 = (8 + length v4)%nat) by (rewrite V4, app_length; lia).
  exists (2 + k + k')%nat. split; [lia|]. split; [lia|]. split.
  - rewrite <- EO, V1. replace (2 + k + k')%nat with (S (k + (1 + k'))) by lia. rewrite octets_cons by exact LY. rewrite skipn_cons.
    rewrite <- !skipn_skipn. rewrite <- octets_skip by lia. fold v3. rewrite E3, skipn_cons, skipn_O. exact Hs'.
  - do 2 f_equal. unfold r3. rewrite (adv_adv r2 7) by (try exact W2; lia). unfold r2. rewrite adv_adv by (try exact Hr; lia). f_equal. lia.
Qed.
Lemma head_ok {E : Env} r : RWf r -> left r = [] -> HeadAt g_headers r.
Proof.
  intros Hr Hl. destruct (e_feat) eqn:HF; [apply head_other|apply head_other|apply head_wizzilab]; try assumption; congruence.
Qed.

(** ** The command *)
Lemma octet_parts_1 x : length x = 8%nat -> N_of_bits (firstn 6 (skipn 1 x)) = part 1 6 (N_of_bits x).
Proof.
  intros H. do 8 (destruct x as [|? x]; [discriminate|]). destruct x; [|discriminate]. clear H.
  repeat match goal with b : bool |- _ => destruct b end; vm_compute; reflexivity.
Qed.
(** What [at_end] leaves when the bytes have not ended. *)
Definition peeked (d : list N) (p n : nat) (w : list bool) (b : N) : rd :=
  match w with [] => mkRd d (S p) (bits_of 8 b) n | _ => mkRd d p w n end.
Lemma peek_end d p n w :
  at_end (mkRd d p w n) =
  match skipn p d with
  | [] => Ok (match w with [] => true | _ => false end, mkRd d p w n)
  | b :: _ => Ok (false, peeked d p n w b)
  end.
Proof.
  unfold at_end, peeked. cbn [left data pos bread]. destruct w as [|x w]; [|destruct (skipn p d); reflexivity].
  destruct (nth_error d p) as [b|] eqn:Hn; [rewrite (nth_skipn _ _ _ Hn); reflexivity|].
  apply nth_error_None in Hn. rewrite skipn_all2 by exact Hn. reflexivity.
Qed.
Lemma nth_of_skipn {A} (d : list A) p b tl : skipn p d = b :: tl -> nth_error d p = Some b.
Proof.
  revert d. induction p as [|p IH]; intros [|x d] H; try discriminate; [injection H as -> _; reflexivity|exact (IH d H)].
Qed.
Lemma act_at {E : Env} d p n w b tl : bytes d -> skipn p d = b :: tl -> (length w <= 2)%nat -> (w = [] \/ 1 <= p)%nat ->
  OpAt (fun _ => read_action (peeked d p n w b)) (dec_operand (part (N.of_nat (length w)) 6 b)) (at_byte d p (n + 8)).
Proof.
  intros Hd Sk Lw H1.
  assert (Lp : (p < length d)%nat).
  { destruct (Nat.ltb_spec p (length d)) as [L|L]; [exact L|]. rewrite skipn_all2 in Sk by exact L. discriminate. }
  destruct w as [|x [|y [|]]]; [| | |cbn [length] in Lw; lia].
  - pose proof (entry_action d p n false _ Hd ltac:(lia) (entry_peeked d p n b (nth_of_skipn _ _ _ _ Sk))) as H. rewrite Sk in H. exact H.
  - assert (P1 : (1 <= p)%nat) by (destruct H1 as [H1|H1]; [discriminate|exact H1]).
    assert (Bb : b < 256).
    { rewrite <- (firstn_skipn p d), Sk in Hd. apply Forall_app in Hd as [_ Hd]. apply Forall_cons_iff in Hd. apply Hd. }
    destruct (bits8 b Bb) as [L8 N8]. pose proof (octet_parts_1 _ L8) as PP. rewrite N8 in PP.
    assert (Ws : RWf (mkRd d p [x] n)) by (unfold RWf; cbn [pos data left length]; lia).
    cbn [peeked length]. change (N.of_nat 1) with 1.
    assert (R : read_action (mkRd d p [x] n) = reader_of (part 1 6 b) (at_byte d p (n + 8))).
    { rewrite read_action_ok; [|exact Ws|rewrite view_length by exact Ws; cbn [left length data pos]; lia|cbn [pos]; lia].
      unfold view. cbn [left pos data]. rewrite Sk, bits_of_bytes_cons. cbn [app]. rewrite skipn_cons.
      rewrite skipn_short, firstn_short by (rewrite ?skipn_length; lia). rewrite PP. f_equal.
      unfold at_byte, need. cbn [left pos data bread length]. change (Nat.div (8 - 1 + 7) 8) with 1%nat. f_equal. lia. }
    pose proof (OpAt_operand (part 1 6 b) (at_byte d p (n + 8)) ltac:(unfold part; apply N.mod_lt; discriminate) (at_byte_wf d p _ ltac:(lia)) eq_refl) as O.
    unfold OpAt in *. rewrite R. exact O.
  - assert (P1 : (1 <= p)%nat) by (destruct H1 as [H1|H1]; [discriminate|exact H1]).
    pose proof (entry_action d p n true _ Hd ltac:(lia) (entry_pending d p n x y P1)) as H. rewrite Sk in H. exact H.
Qed.
Lemma after_act d p n a k : (p + k <= length d)%nat -> (1 <= k)%nat ->
  exists w n', adv (at_byte d p n) (last_bits a k) = mkRd d (p + k) w n' /\ length w = (if is_tx a then 2 else 0)%nat
    /\ (n' + (if is_tx a then 2 else 0) = n + 8 * k)%nat.
Proof.
  intros Hk H1. destruct (after_operand d p n a k Hk H1) as (n' & He & Hb & Hn).
  destruct (is_tx a) eqn:Ht.
  - clear Hb. revert He. generalize (adv (at_byte d p n) (last_bits a k)). intros s He.
    inversion He as [| |x y H2 H3 H4]. exists [x; y], n'. split; [reflexivity|]. split; [reflexivity|exact Hn].
  - unfold last_bits. rewrite Ht. rewrite adv_aligned; [|apply at_byte_wf; lia|reflexivity|rewrite at_byte_length; lia].
    exists [], (n + 8 * k)%nat. split; [reflexivity|]. split; [reflexivity|]. lia.
Qed.
Lemma valid_eq limit d p w n : valid_length limit (mkRd d p w n) =
  Ok ((limit =? 0) || (N.of_nat p <? limit), mkRd d p (if limit =? 0 then w else []) n).
Proof. unfold valid_length. destruct (limit =? 0); reflexivity. Qed.

Definition ends_at (d : list N) (p n : nat) (s : rd) : Prop := RWf s /\ view s = bits_of_bytes (skipn p d) /\ bread s = n.
Lemma ends_plain d p n : (p <= length d)%nat -> ends_at d p n (mkRd d p [] n).
Proof. intros H. split; [exact (at_byte_wf d p n H)|]. split; reflexivity. Qed.
Lemma ends_peeked d p n b tl : skipn p d = b :: tl -> ends_at d p n (peeked d p n [] b).
Proof.
  intros Sk. pose proof (nth_of_skipn _ _ _ _ Sk) as Hn. assert (p < length d)%nat by (apply nth_error_Some; rewrite Hn; discriminate).
  split; [|split]; [|unfold view; cbn [peeked left pos data]; rewrite (nth_skipn _ _ _ Hn), bits_of_bytes_cons; reflexivity|reflexivity].
  unfold RWf. cbn [peeked pos data left]. rewrite bits_of_length. lia.
Qed.

Lemma limited_stop {E : Env} d p n f limit acc : (p <= length d)%nat -> last_is_indirect acc = true ->
  exists s, read_actions (S f) limit acc (mkRd d p [] n) = Ok (acc, s) /\ ends_at d p n s.
Proof.
  intros Hp Ha. cbn [read_actions]. rewrite (bind_ok _ _ _ _ _ (valid_eq limit d p [] n)).
  replace (if limit =? 0 then [] else []) with (@nil bool) by (destruct (limit =? 0); reflexivity).
  destruct ((limit =? 0) || (N.of_nat p <? limit)).
  2: { exists (mkRd d p [] n). split; [reflexivity|apply ends_plain; exact Hp]. }
  pose proof (peek_end d p n []) as PE. destruct (skipn p d) as [|b tl] eqn:Sk; rewrite (bind_ok _ _ _ _ _ PE); rewrite ?Ha.
  - exists (mkRd d p [] n). split; [reflexivity|apply ends_plain; exact Hp].
  - exists (peeked d p n [] b). split; [reflexivity|]. exact (ends_peeked d p n b tl Sk).
Qed.

Lemma limited_ok {E : Env} d limit : bytes d -> forall m f g p n w acc,
  (length d - p <= m)%nat -> (m < f)%nat -> (length d - p <= g)%nat -> (p <= length d)%nat ->
  (length w <= 2)%nat -> (w = [] \/ 1 <= p)%nat -> last_is_indirect acc = false ->
  match dec_limited g limit (N.of_nat p) (N.of_nat (length w)) (skipn p d) with
  | Some (c, rest) => exists s k n', rest = skipn (p + k) d /\ (p + k <= length d)%nat
      /\ read_actions f limit acc (mkRd d p w n) = Ok (acc ++ c, s) /\ ends_at d (p + k) n' s
      /\ (n' + 2 * count_tx c = n + 8 * k + 8 * length c)%nat
  | None => exists e, read_actions f limit acc (mkRd d p w n) = Err e
  end.
Proof.
  intros Hd. induction m as [m IH] using (well_founded_induction lt_wf). intros f g p n w acc Hm Hf Hg Hp Lw Hw Hacc.
  destruct f as [|f]; [lia|]. cbn [read_actions]. rewrite (bind_ok _ _ _ _ _ (valid_eq limit d p w n)).
  assert (UN : dec_limited g limit (N.of_nat p) (N.of_nat (length w)) (skipn p d) =
    if (limit =? 0) || (N.of_nat p <? limit) then
      match g, skipn p d with
      | _, [] => if N.of_nat (length (if limit =? 0 then w else [])) =? 0 then Some ([], []) else None
      | O, _ => None
      | S k, b :: _ =>
        match dec_operand (part (N.of_nat (length (if limit =? 0 then w else []))) 6 b) (skipn p d) with
        | Some (a, rest) =>
            if is_indirect a then Some ([a], rest)
            else match dec_limited k limit (N.of_nat p + N.of_nat (length (skipn p d) - length rest)) (if is_tx a then 2 else 0) rest with
                 | Some (c, rest') => Some (a :: c, rest')
                 | None => None
                 end
        | None => None
        end
      end
    else Some ([], skipn p d)).
  { destruct g; cbn [dec_limited]; destruct (limit =? 0); reflexivity. }
  rewrite UN. clear UN. set (w' := if limit =? 0 then w else []).
  assert (Lw' : (length w' <= 2)%nat) by (unfold w'; destruct (limit =? 0); [exact Lw|cbn; lia]).
  assert (Hw' : (w' = [] \/ 1 <= p)%nat) by (unfold w'; destruct (limit =? 0); [exact Hw|left; reflexivity]).
  destruct ((limit =? 0) || (N.of_nat p <? limit)) eqn:HV.
  2: { exists (mkRd d p w' n), 0%nat, n. assert (w' = []) as -> by (unfold w'; destruct (limit =? 0); [discriminate|reflexivity]).
       rewrite Nat.add_0_r, app_nil_r. split; [reflexivity|]. split; [exact Hp|]. split; [reflexivity|]. split; [apply ends_plain; exact Hp|].
       cbn. lia. }
  pose proof (peek_end d p n w') as PE. destruct (skipn p d) as [|b tl] eqn:Sk.
  - rewrite (bind_ok _ _ _ _ _ PE). rewrite ?Hacc.
    replace (match g with O => _ | S _ => _ end) with (if N.of_nat (length w') =? 0 then Some (@nil action, @nil N) else None) by (destruct g; reflexivity).
    destruct w' as [|x w'']; cbn [length].
    + exists (mkRd d p [] n), 0%nat, n. rewrite Nat.add_0_r, app_nil_r, Sk. split; [reflexivity|]. split; [exact Hp|]. split; [reflexivity|].
      split; [apply ends_plain; exact Hp|]. cbn. lia.
    + destruct (N.eqb_spec (N.of_nat (S (length w''))) 0) as [Z|_]; [lia|].
      assert (Ws : RWf (mkRd d p (x :: w'') n)) by (destruct Hw' as [Hw'|Hw']; [discriminate|]; unfold RWf; cbn [pos data left length] in *; lia).
      assert (length (skipn p d) = 0)%nat by (rewrite Sk; reflexivity). rewrite skipn_length in H.
      destruct (read_action_err (mkRd d p (x :: w'') n) Ws) as [e He]; [rewrite view_length by exact Ws; cbn [left data pos length] in *; lia|].
      exists e. apply (bind_err _ _ _ _ He).
  - assert (Lp : (p < length d)%nat).
    { destruct (Nat.ltb_spec p (length d)) as [L|L]; [exact L|]. rewrite skipn_all2 in Sk by exact L. discriminate. }
    destruct g as [|g]; [lia|]. rewrite (bind_ok _ _ _ _ _ PE). rewrite ?Hacc.
    pose proof (act_at d p n w' b tl Hd Sk Lw' Hw') as EA. unfold OpAt in EA. rewrite at_byte_view, Sk in EA by exact Hd.
    destruct (dec_operand (part (N.of_nat (length w')) 6 b) (b :: tl)) as [[a rest]|].
    2: { destruct EA as [e EA]. exists e. apply (bind_err _ _ _ _ EA). }
    destruct EA as (k & Hk1 & Hk & Hs & Hr). rewrite at_byte_length in Hk. rewrite (bind_ok _ _ _ _ _ Hr).
    destruct (after_act d p (n + 8) a k ltac:(lia) Hk1) as (w2 & n2 & HA & Lw2 & Hn2). rewrite HA.
    assert (Hrest : rest = skipn (p + k) d) by (rewrite Hs, <- Sk, skipn_skipn; reflexivity).
    destruct (is_indirect a) eqn:Hi.
    + assert (Ht : is_tx a = false) by (destruct a; try discriminate; reflexivity). rewrite Ht in *.
      destruct w2; [|discriminate]. destruct f as [|f]; [lia|].
      destruct (limited_stop d (p + k) n2 f limit (acc ++ [a]) ltac:(lia) ltac:(rewrite last_indirect_snoc; exact Hi)) as (s & Hl & Hes).
      exists s, k, n2. split; [exact Hrest|]. split; [lia|]. split; [exact Hl|]. split; [exact Hes|].
      unfold count_tx. cbn [filter length]. rewrite Ht. cbn [length]. lia.
    + assert (Ep : N.of_nat p + N.of_nat (length (b :: tl) - length rest) = N.of_nat (p + k)).
      { rewrite Hrest, <- Sk, !skipn_length. lia. }
      rewrite Ep. clear Ep. assert (Et : (if is_tx a then 2 else 0) = N.of_nat (length w2)) by (rewrite Lw2; destruct (is_tx a); reflexivity).
      rewrite Et, Hrest. clear Et.
      assert (Lw2' : (length w2 <= 2)%nat) by (rewrite Lw2; destruct (is_tx a); lia).
      pose proof (IH (length d - (p + k))%nat ltac:(lia) f g (p + k)%nat n2 w2 (acc ++ [a]) ltac:(lia) ltac:(lia) ltac:(lia) ltac:(lia) Lw2'
        ltac:(right; lia) ltac:(rewrite last_indirect_snoc; exact Hi)) as R.
      destruct (dec_limited g limit (N.of_nat (p + k)) (N.of_nat (length w2)) (skipn (p + k) d)) as [[c rest']|]; [|exact R].
      destruct R as (s & k' & n' & Hr' & Hk' & Hl & Hes & Hn'). exists s, (k + k')%nat, n'. rewrite Nat.add_assoc.
      split; [exact Hr'|]. split; [exact Hk'|]. split; [rewrite Hl, <- app_assoc; reflexivity|]. split; [exact Hes|].
      unfold count_tx in *. cbn [filter length]. destruct (is_tx a); cbn [length]; lia.
Qed.

(** ** Frames *)
Lemma andthen_some {A B} (m : dec A) (f : A -> dec B) l x : andthen m f l = Some x ->
  exists v t, m l = Some (v, t) /\ f v t = Some x.
Proof. unfold andthen. destruct (m l) as [[v t]|]; [|discriminate]. intros H. exists v, t. split; [reflexivity|exact H]. Qed.
Ltac shape H := repeat (apply andthen_some in H as (? & ? & ? & H)); injection H as <- <-; reflexivity.
Lemma dec_link_shape d n f l : dec_link d = Some ((n, f), l) -> forall x c, ff_frame (f x c) = x.
Proof. intros H x c. unfold dec_link in H. repeat (apply andthen_some in H as (? & ? & ? & H)). injection H as <- <- <-. reflexivity. Qed.
Lemma dec_net_shape c nls l f l' : dec_net c nls l = Some (f, l') -> forall x, nf_frame (f x) = x.
Proof. intros H x. unfold dec_net in H. shape H. Qed.
Lemma dec_trans_shape c l f l' : dec_trans c l = Some (f, l') -> forall x, tf_command (f x) = x.
Proof. intros H x. unfold dec_trans in H. shape H. Qed.
Lemma dec_headers_shape {E : Env} l f l' : dec_headers l = Some (f, l') -> forall x, tf_command (nf_frame (f x)) = x.
Proof.
  intros H x. unfold dec_headers in H. destruct e_feat.
  3: { destruct l as [|c tl]; [discriminate|]. destruct (dec_net c (part 0 3 c) tl) as [[net [|y more]]|] eqn:EN; try discriminate.
       destruct (dec_trans (part 1 7 y) (late 7 (y :: more))) as [[tr rest]|] eqn:ET; [|discriminate]. injection H as <- <-.
       rewrite (dec_net_shape _ _ _ _ _ EN). apply (dec_trans_shape _ _ _ _ ET). }
  all: destruct l as [|c [|y tl]]; try discriminate;
    destruct (dec_net c (2 * part 0 3 c + part 7 1 y) (late 1 (y :: tl))) as [[net rest]|] eqn:EN; [|discriminate];
    destruct (skipn _ (y :: tl)) as [|z more]; [discriminate|];
    destruct (dec_trans (part 0 7 z) more) as [[tr rest']|] eqn:ET; [|discriminate]; injection H as <- <-;
    rewrite (dec_net_shape _ _ _ _ _ EN); apply (dec_trans_shape _ _ _ _ ET).
Qed.

Lemma after_head {E : Env} d p n k : (p + k <= length d)%nat -> (1 <= k)%nat ->
  exists w, adv (at_byte d p n) (8 * k - lost) = mkRd d (p + k) w (n + 8 * k - lost) /\ length w = lost.
Proof.
  intros Hk H1. assert (W : RWf (at_byte d p n)) by (apply at_byte_wf; lia).
  assert (LO : (lost <= 1)%nat) by (unfold lost; destruct e_feat; lia).
  assert (L : (8 * k - lost <= length (view (at_byte d p n)))%nat) by (rewrite at_byte_length; lia).
  pose proof (adv_left_length _ _ W L) as Ll.
  assert (Nk : need (at_byte d p n) (8 * k - lost) = k).
  { unfold need, at_byte. cbn [left length]. rewrite Nat.sub_0_r. clear - H1 LO. divlia. }
  rewrite Nk in Ll. cbn [at_byte left length] in Ll.
  exists (left (adv (at_byte d p n) (8 * k - lost))). split; [|lia].
  unfold adv. rewrite Nk. cbn [at_byte data pos left bread]. f_equal. lia.
Qed.

Lemma fframe_at {E : Env} d : bytes d ->
  match dec_fframe d with
  | Some (v, rest) => exists s, read_fframe (new_reader d) = Ok (v, s)
      /\ bread s = frame_bits (length d - length rest) v
      /\ exists j, (j <= length d)%nat /\ rest = skipn j d
  | None => exists e, read_fframe (new_reader d) = Err e
  end.
Proof.
  intros Hd. rewrite read_fframe_parts. unfold dec_fframe.
  pose proof (Dec_link (new_reader d) (RWf_new d)) as HL. unfold DecAt in HL. rewrite view_new, octets_bits in HL by exact Hd.
  destruct (dec_link d) as [[[limit link] l]|] eqn:EL; [|destruct HL as [e HL]; exists e; apply (bind_err _ _ _ _ HL)].
  destruct HL as (k & Hk & Hs & HL). rewrite bits_of_bytes_length in Hk. rewrite (bind_ok _ _ _ _ _ HL).
  cbn [fst snd]. clear HL. change (new_reader d) with (at_byte d 0 0).
  rewrite (adv_aligned (at_byte d 0 0)); [|apply at_byte_wf; lia|reflexivity|rewrite at_byte_length; lia].
  cbn [at_byte data pos bread]. rewrite !Nat.add_0_l. change (mkRd d k [] (8 * k)) with (at_byte d k (8 * k)).
  pose proof (head_ok (at_byte d k (8 * k)) (at_byte_wf d k _ ltac:(lia)) eq_refl) as HH. unfold HeadAt in HH.
  rewrite at_byte_view, <- Hs in HH by exact Hd.
  destruct (dec_headers l) as [[net l1]|] eqn:EH; [|destruct HH as [e HH]; exists e; apply (bind_err _ _ _ _ HH)].
  destruct HH as (k1 & H1 & Hk1 & Hs1 & HH). rewrite at_byte_length in Hk1. rewrite (bind_ok _ _ _ _ _ HH). clear HH.
  destruct (after_head d k (8 * k) k1 ltac:(lia) H1) as (w & HA & Lw). rewrite HA. clear HA.
  assert (E1 : l1 = skipn (k + k1) d) by (rewrite Hs1, Hs, skipn_skipn; reflexivity).
  assert (LO : (lost <= 1)%nat) by (unfold lost; destruct e_feat; lia).
  pose proof (limited_ok d limit Hd (length d) (S (length d)) (length l1) (k + k1)%nat (8 * k + 8 * k1 - lost)%nat w []
    ltac:(lia) ltac:(lia) ltac:(rewrite E1, skipn_length; lia) ltac:(lia) ltac:(lia) ltac:(right; lia) eq_refl) as R.
  assert (EP : N.of_nat (length d - length l1) = N.of_nat (k + k1)) by (rewrite E1, skipn_length; lia).
  assert (EW : (match e_feat with Wizzilab => 1 | _ => 0 end) = N.of_nat (length w)) by (rewrite Lw; unfold lost; destruct e_feat; reflexivity).
  rewrite EP, EW. clear EP EW. rewrite <- E1 in R. cbn [app] in R.
  change (read_actions (S (length d)) limit [] (mkRd d (k + k1) w (8 * k + 8 * k1 - lost)))
    with (read_command limit (mkRd d (k + k1) w (8 * k + 8 * k1 - lost))) in R.
  destruct (dec_limited (length l1) limit (N.of_nat (k + k1)) (N.of_nat (length w)) l1) as [[c l2]|];
    [|destruct R as [e R]; exists e; apply (bind_err _ _ _ _ R)].
  destruct R as (s & k2 & n' & Hs2 & Hk2 & R & (Ws & Vs & Bs) & Hn). rewrite (bind_ok _ _ _ _ _ R). clear R.
  pose proof (Dec_native 2 s Ws) as HN. unfold DecAt in HN. change (N.of_nat 2) with 2 in HN.
  rewrite Vs, <- Hs2 in HN.
  assert (B2 : bytes l2).
  { rewrite Hs2. rewrite <- (firstn_skipn (k + k1 + k2) d) in Hd. apply Forall_app in Hd. apply Hd. }
  rewrite octets_bits in HN by exact B2.
  destruct (host_num 2 l2) as [[crc rest]|]; [|destruct HN as [e HN]; exists e; apply (bind_err _ _ _ _ HN)].
  destruct HN as (k3 & Hk3 & Hs3 & HN). rewrite (bind_ok _ _ _ _ _ HN). clear HN. rewrite bits_of_bytes_length in Hk3.
  assert (LL2 : length l2 = (length d - (k + k1 + k2))%nat) by (rewrite Hs2; apply skipn_length).
  exists (adv s (8 * k3)). split; [reflexivity|]. split.
  - unfold frame_bits. rewrite (dec_link_shape _ _ _ _ EL), (dec_headers_shape _ _ _ EH). fold lost.
    rewrite Hs3, skipn_length, LL2. unfold adv. cbn [bread]. rewrite Bs. pose proof (count_tx_le c). lia.
  - exists (k + k1 + k2 + k3)%nat. split; [lia|]. rewrite Hs3, Hs2, skipn_skipn. reflexivity.
Qed.

Lemma decode_fframe {E : Env} d : bytes d ->
  match dec_fframe d with
  | Some (v, rest) =>
      let read := frame_bits (length d - length rest) v in
      (exists n, (n <= length d)%nat /\ rest = skipn n d)
      /\ fframe_from_bytes d 0 =
           (if Nat.leb (Nat.div read 8) (length d) then Ok ((skipn (Nat.div read 8) d, Nat.modulo read 8), v) else Panic)
      /\ fframe_try_from d = (if Nat.eqb (Nat.div read 8) (length d) then Ok v else Err ETooMuchData)
  | None => exists e, fframe_from_bytes d 0 = Err e /\ fframe_try_from d = Err e
  end.
Proof.
  intros Hd. pose proof (fframe_at d Hd) as H. unfold fframe_from_bytes, fframe_try_from. rewrite d_from_bytes_0, d_try_from_eq.
  destruct (dec_fframe d) as [[v rest]|].
  - destruct H as (s & -> & <- & Hj). cbv zeta. split; [exact Hj|]. split; reflexivity.
  - destruct H as [e ->]. exists e. split; reflexivity.
Qed.
Lemma decodes_bframe {E : Env} : decodes read_bframe dec_bframe.
Proof. apply DecA_decodes, Dec_A, Dec_bframe. Qed.

(** ** Frames of length 0 *)
Lemma limited_0 {E : Env} g : forall pos pending l c rest, dec_limited g 0 pos pending l = Some (c, rest) -> rest <> [] ->
  exists c' f, c = c' ++ [AIndirectForward f].
Proof.
  induction g as [|g IH]; intros pos pending l c rest H Hr; cbn [dec_limited] in H; change (0 =? 0) with true in H; cbn [orb] in H; cbv iota in H.
  - destruct l; [|discriminate]. destruct (pending =? 0); [|discriminate]. injection H as <- <-. congruence.
  - destruct l as [|b tl]; [destruct (pending =? 0); [|discriminate]; injection H as <- <-; congruence|].
    destruct (dec_operand _ _) as [[a rest1]|]; [|discriminate]. destruct (is_indirect a) eqn:Hi.
    + injection H as <- <-. destruct a; try discriminate. exists [], v. reflexivity.
    + destruct (dec_limited g 0 _ _ rest1) as [[c1 rest2]|] eqn:ED; [|discriminate]. injection H as <- <-.
      destruct (IH _ _ _ _ _ ED Hr) as (c' & f & ->). exists (a :: c'), f. reflexivity.
Qed.
Lemma fframe_0 {E : Env} d v rest : dec_fframe d = Some (v, rest) -> ff_length v = 0 ->
  exists c f, tf_command (nf_frame (ff_frame v)) = c ++ [AIndirectForward f].
Proof.
  unfold dec_fframe. intros H H0. destruct (dec_link d) as [[[limit link] l]|] eqn:EL; [|discriminate].
  destruct (dec_headers l) as [[net l1]|] eqn:EH; [|discriminate].
  destruct (dec_limited _ limit _ _ l1) as [[c l2]|] eqn:ED; [|discriminate].
  destruct (host_num 2 l2) as [[crc rest']|] eqn:EN; [|discriminate]. injection H as <- <-.
  rewrite (dec_link_shape _ _ _ _ EL), (dec_headers_shape _ _ _ EH).
  assert (limit = 0) as ->.
  { unfold dec_link in EL. repeat (apply andthen_some in EL as (? & ? & ? & EL)). injection EL as <- <- <-. exact H0. }
  apply (limited_0 _ _ _ _ _ _ ED). intros ->. discriminate.
Qed.
Lemma fframe_length_0 {E : Env} d v rest : bytes d -> fframe_from_bytes d 0 = Ok (rest, v) -> ff_length v = 0 ->
  exists c f, tf_command (nf_frame (ff_frame v)) = c ++ [AIndirectForward f].
Proof.
  intros Hd H H0. pose proof (decode_fframe d Hd) as D. destruct (dec_fframe d) as [[v' rest']|] eqn:ED.
  - destruct D as (_ & D & _). cbv zeta in D. rewrite D in H. destruct (Nat.leb _ _); [|discriminate].
    injection H as _ <-. exact (fframe_0 d v' rest' ED H0).
  - destruct D as (e & D & _). congruence.
Qed.
Lemma fframe_length_0_try {E : Env} d v : bytes d -> fframe_try_from d = Ok v -> ff_length v = 0 ->
  exists c f, tf_command (nf_frame (ff_frame v)) = c ++ [AIndirectForward f].
Proof.
  intros Hd H H0. pose proof (decode_fframe d Hd) as D. destruct (dec_fframe d) as [[v' rest']|] eqn:ED.
  - destruct D as (_ & _ & D). cbv zeta in D. rewrite D in H. destruct (Nat.eqb _ _); [|discriminate].
    injection H as <-. exact (fframe_0 d v' rest' ED H0).
  - destruct D as (e & _ & D). congruence.
Qed.

Lemma frame_0_accepted {E : Env} d v : bytes d -> ff_length v = 0 ->
  (exists rest, fframe_from_bytes d 0 = Ok (rest, v)) \/ fframe_try_from d = Ok v ->
  exists c f, tf_command (nf_frame (ff_frame v)) = c ++ [AIndirectForward f].
Proof. intros Hd H0 [[rest H]|H]; [exact (fframe_length_0 d v rest Hd H H0)|exact (fframe_length_0_try d v Hd H H0)]. Qed.
Lemma frame_0_refuted {E : Env} : exists v l, ff_length v = 0 /\ fframe_to_bytes v = Ok l /\
    forall s rest, bytes s -> fframe_from_bytes (l ++ s) 0 <> Ok (rest, v) /\ fframe_try_from (l ++ s) <> Ok v.
Proof.
  set (v := mkFFrame 0 1 AtNoId 2 NoId (mkNFrame (mkNControl false false AtNoId NlsNone) None (mkAccessClass 1 4) NoId
     (mkTFrame (mkTControl false false false false false false false) 6 7 None None None None None [])) 0).
  assert (H : exists l, fframe_to_bytes v = Ok l /\ bytes l).
  { destruct E as [[] [] []]; eexists; (split; [vm_compute; reflexivity|]); repeat constructor. }
  destruct H as (l & Hl & Bl). exists v, l. split; [reflexivity|]. split; [exact Hl|]. intros s rest Hs.
  assert (N : forall c f, tf_command (nf_frame (ff_frame v)) <> c ++ [AIndirectForward f]) by (intros [|? ?] f; discriminate).
  assert (B : bytes (l ++ s)) by (apply Forall_app; split; assumption).
  split; intros H; destruct (frame_0_accepted (l ++ s) v B eq_refl) as (c & f & He); try (exact (N c f He)); [left; exists rest; exact H|right; exact H].
Qed.
