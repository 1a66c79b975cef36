(** Lemmas for C86: what is set aside while parsing. *)
From Coq Require Import List NArith ZArith Bool Lia Arith ZifyBool ZifyNat ZifyN.
From Verif Require Import Base Deku Utils Types Physical Link Network Session Data Query Interface File
  Operation Action Command Frames WellFormed Reserve SpecReserve LBits LReader LTypes LApi LAction LNice LNiceFile LNiceOps
  LCount LCommandApi LFrames LLayout SpecAction LRound LActionApi SpecApi.
Import ListNotations.
Open Scope N_scope.

Lemma total_app a b : total (a ++ b) = total a + total b.
Proof. unfold total. induction a; cbn [app fold_right]; lia. Qed.
Lemma total_nil : total [] = 0.
Proof. reflexivity. Qed.
Lemma sizes_app a b : sizes (a ++ b) = sizes a ++ sizes b.
Proof. unfold sizes. rewrite map_app, filter_app. reflexivity. Qed.
Lemma sizes_cons a b : sizes (a :: b) = sizes [a] ++ sizes b.
Proof. exact (sizes_app [a] b). Qed.

Definition good (r : rd) (l : list N) (e : derr) : Prop :=
  N.of_nat (BP r) + 8 * total l <= 8 * N.of_nat (length (data r)) \/
  exists l' x, l = l' ++ [x] /\ N.of_nat (BP r) + 8 * total l' <= 8 * N.of_nat (length (data r)) /\
    (x <= 255 \/ e = EIncomplete).
Definition Note {A} (m : reader A) (nm : noted A) (P : A -> list N -> Prop) (r : rd) : Prop :=
  snd (nm r) = m r /\ Forall (fun n => n < 2 ^ 30) (fst (nm r)) /\
  match m r with
  | Ok (a, r') => P a (fst (nm r)) /\ RWf r' /\ data r' = data r /\
      N.of_nat (BP r) + 8 * total (fst (nm r)) <= N.of_nat (BP r')
  | Err e => good r (fst (nm r)) e
  | Panic => False
  end.

Lemma good_nil r e : RWf r -> good r [] e.
Proof. intros H. left. rewrite total_nil. pose proof (BP_bound r H). lia. Qed.
Lemma Note_bind {A B} (m : reader A) nm (f : A -> reader B) g P Q r :
  Note m nm P r ->
  (forall x r1 l, m r = Ok (x, r1) -> P x l -> RWf r1 -> data r1 = data r ->
     Note (f x) (g x) (fun y l' => Q y (l ++ l')) r1) ->
  Note (bind m f) (nbind nm g) Q r.
Proof.
  intros (H1 & H2 & H3) Hf. unfold Note, bind, nbind. destruct (nm r) as [l x]. cbn [fst snd] in *. subst x.
  destruct (m r) as [[x r1]|e|]; cbn [fst snd]; [| |contradiction].
  2: { split; [reflexivity|]. split; [exact H2|exact H3]. }
  destruct H3 as (HP & R1 & D1 & B1). destruct (Hf x r1 l eq_refl HP R1 D1) as (G1 & G2 & G3).
  destruct (g x r1) as [l' y]. cbn [fst snd] in *. subst y. split; [reflexivity|].
  split; [apply Forall_app; split; assumption|].
  destruct (f x r1) as [[y r2]|e|]; [| |contradiction].
  - destruct G3 as (HQ & R2 & D2 & B2). split; [exact HQ|]. split; [exact R2|]. split; [congruence|]. rewrite total_app. lia.
  - destruct G3 as [G|(l0 & z & -> & G & Z)]; unfold good; rewrite D1 in G.
    + left. rewrite total_app. lia.
    + right. exists (l ++ l0), z. split; [apply app_assoc|]. split; [rewrite total_app; lia|exact Z].
Qed.
Lemma Note_quiet {A} (m : reader A) (P : A -> Prop) r : RWf r -> NiceR 0 m P r ->
  Note m (quiet m) (fun a l => P a /\ l = []) r.
Proof.
  intros Hr H. unfold Note, quiet, NiceR in *. cbn [fst snd]. split; [reflexivity|]. split; [constructor|].
  destruct (m r) as [[a r']|e|]; [| |exact H].
  - destruct H as (HP & R & D & B & _). split; [split; [exact HP|reflexivity]|]. split; [exact R|]. split; [exact D|]. rewrite total_nil. lia.
  - apply good_nil. exact Hr.
Qed.
Lemma Note_weaken {A} (m : reader A) nm (P Q : A -> list N -> Prop) r : Note m nm P r -> (forall a l, P a l -> Q a l) ->
  Note m nm Q r.
Proof.
  intros (H1 & H2 & H3) H. split; [exact H1|]. split; [exact H2|]. destruct (m r) as [[a r']|e|]; auto.
  destruct H3 as (H3 & H4). split; [apply H; exact H3|exact H4].
Qed.
Lemma Note_ret {A} (v : A) (P : A -> list N -> Prop) r : RWf r -> P v [] -> Note (ret v) (quiet (ret v)) P r.
Proof.
  intros Hr H. eapply Note_weaken; [eapply (Note_quiet (ret v) (fun w => w = v)); [exact Hr|apply NiceR_ret; auto]|].
  intros a l (-> & ->). exact H.
Qed.
Lemma Note_fail {A} e (P : A -> list N -> Prop) r : RWf r -> Note (fail e) (quiet (fail e)) P r.
Proof. intros Hr. split; [reflexivity|]. split; [constructor|]. apply good_nil. exact Hr. Qed.

Ltac nq_with L := eapply Note_bind; [eapply Note_quiet; [eassumption|apply Nice_R; [apply L|assumption]]|
  let x := fresh "x" in let r1 := fresh "r" in let l := fresh "l" in let E := fresh "Ex" in let Hx := fresh "Hx" in
  let R := fresh "R" in let D := fresh "D" in intros x r1 l E (Hx & ->) R D; cbv beta].
Ltac nq := first [eapply Note_bind; [eapply Note_quiet; [eassumption|apply Nice_R; [solve [eauto 3 with nice]|assumption]]|
  let x := fresh "x" in let r1 := fresh "r" in let l := fresh "l" in let E := fresh "Ex" in let Hx := fresh "Hx" in
  let R := fresh "R" in let D := fresh "D" in intros x r1 l E (Hx & ->) R D; cbv beta]].
Ltac nb := eapply Note_bind; [|
  let x := fresh "x" in let r1 := fresh "r" in let l := fresh "l" in let E := fresh "Ex" in let Hx := fresh "Hx" in
  let R := fresh "R" in let D := fresh "D" in intros x r1 l E Hx R D; cbv beta in Hx |- *].
Ltac nr := apply Note_ret; [assumption|].

(** ** Vectors *)
Lemma list_moves {A} k n (m : reader A) P : Nice k m P -> Nice (n * k) (read_list n m) (fun l => Forall P l /\ length l = n).
Proof.
  intros H. induction n as [|n IH]; cbn [read_list Nat.mul].
  - apply Nice_ret. split; [constructor|reflexivity].
  - eapply Nice_bindk; [exact H|]. intros x Hx. replace (n * k)%nat with (n * k + 0)%nat by lia.
    eapply Nice_bindk; [exact IH|]. intros l (H1 & H2). apply Nice_ret. split; [constructor; assumption|cbn; congruence].
Qed.
Lemma vec_moves n r v r' : RWf r -> read_vec_u8 n r = Ok (v, r') ->
  RWf r' /\ data r' = data r /\ (BP r + 8 * N.to_nat n <= BP r')%nat /\ length v = N.to_nat n.
Proof.
  intros Hr H. unfold read_vec_u8 in H. destruct (N.leb _ _); [|discriminate].
  pose proof (list_moves 8 (N.to_nat n) read_u8 u8 (Nice_uint 8) r Hr) as G. rewrite H in G.
  destruct G as ((_ & G1) & G2 & G3 & G4 & _). split; [exact G2|]. split; [exact G3|]. split; [lia|exact G1].
Qed.
Lemma vec_err n r e : RWf r -> read_vec_u8 n r = Err e -> e = EIncomplete.
Proof.
  intros Hr H. unfold read_vec_u8 in H. destruct (N.leb _ _) eqn:L; [|congruence].
  revert r Hr H L. generalize (N.to_nat n). intros k r Hr H _.
  revert r Hr H. induction k as [|k IH]; intros r Hr H; cbn [read_list] in H; [discriminate|].
  unfold bind in H. pose proof (Nice_u8 r Hr) as U. destruct (read_u8 r) as [[x r1]|e'|] eqn:E1; [| |contradiction].
  - destruct U as (_ & R1 & _). destruct (read_list k read_u8 r1) as [[y r2]|e'|] eqn:E2; try discriminate.
    specialize (IH r1 R1). assert (e' = e) by congruence. subst e'. auto.
  - assert (e' = e) by congruence. subst e'. clear - E1 Hr. unfold read_u8 in E1.
    destruct (Nat.le_gt_cases 8 (length (view r))) as [L|L].
    + rewrite read_uint_ok in E1 by assumption. discriminate.
    + rewrite read_uint_err in E1 by assumption. congruence.
Qed.
Lemma sizes_one n : sizes [N.to_nat n] = (if n =? 0 then [] else [n]).
Proof. unfold sizes. cbn [map filter]. rewrite N2Nat.id. destruct (N.eqb_spec n 0), (N.ltb_spec 0 n); try reflexivity; lia. Qed.
Lemma note_total n : total (if n =? 0 then [] else [n]) = n.
Proof. unfold total. destruct (N.eqb_spec n 0); cbn [fold_right]; lia. Qed.
Lemma Note_vec n r : RWf r -> n < 2 ^ 30 ->
  Note (read_vec_u8 n) (n_vec n) (fun v l => l = sizes [length v] /\ length v = N.to_nat n) r.
Proof.
  intros Hr Hn. unfold Note, n_vec, note. cbn [fst snd]. split; [reflexivity|].
  split; [destruct (n =? 0); repeat constructor; exact Hn|].
  destruct (read_vec_u8 n r) as [[v r']|e|] eqn:Ev.
  - destruct (vec_moves _ _ _ _ Hr Ev) as (R & D & B & L). split; [split; [rewrite L; symmetry; apply sizes_one|exact L]|].
    split; [exact R|]. split; [exact D|]. rewrite note_total. lia.
  - rewrite (vec_err _ _ _ Hr Ev). destruct (N.eqb_spec n 0); [apply good_nil; exact Hr|].
    right. exists [], n. split; [reflexivity|]. split; [|right; reflexivity]. rewrite total_nil. pose proof (BP_bound r Hr). lia.
  - pose proof (Nice_vec n r Hr) as G. rewrite Ev in G. exact G.
Qed.
Lemma Note_cond_vec c n r : RWf r -> n < 2 ^ 30 -> Note (read_cond_vec c n) (n_cond_vec c n) (fun v l => l = sizes [length v]) r.
Proof.
  intros Hr Hn. unfold read_cond_vec, n_cond_vec. destruct c.
  - eapply Note_weaken; [apply Note_vec; assumption|]. intros a l (H & _). exact H.
  - apply Note_ret; [exact Hr|reflexivity].
Qed.
Ltac sz := cbv beta in *; rewrite ?sizes_app, ?app_nil_r; subst; cbn [app]; try reflexivity;
  repeat match goal with |- context [sizes (?a :: ?b :: ?c)] => rewrite (sizes_cons a (b :: c)) end;
  cbn [app]; rewrite ?app_nil_r, ?app_assoc; try reflexivity.

(** ** Queries *)
Lemma Note_cmp_zero r : RWf r -> Note read_cmp_zero n_cmp_zero (fun v l => l = sizes (query_vectors (QCmpZero v))) r.
Proof.
  intros Hr. unfold read_cmp_zero, n_cmp_zero. do 3 nq. nb; [apply Note_cond_vec; assumption|]. nq. nr. cbn [query_vectors cz_mask]. sz.
Qed.
Lemma Note_cmp_value r : RWf r -> Note read_cmp_value n_cmp_value (fun v l => l = sizes (query_vectors (QCmpValue v))) r.
Proof.
  intros Hr. unfold read_cmp_value, n_cmp_value. do 3 nq. nb; [apply Note_cond_vec; assumption|].
  nb; [apply Note_vec; assumption|]. destruct Hx3. nq. nr. cbn [query_vectors cv_mask cv_value]. sz.
Qed.
Lemma Note_cmp_other r : RWf r -> Note read_cmp_other n_cmp_other (fun v l => l = sizes (query_vectors (QCmpOther v))) r.
Proof.
  intros Hr. unfold read_cmp_other, n_cmp_other. do 3 nq. nb; [apply Note_cond_vec; assumption|]. nq. nq. nr. cbn [query_vectors co_mask]. sz.
Qed.
Lemma Note_bitmap_range r : RWf r -> Note read_bitmap_range n_bitmap_range (fun v l => l = sizes (query_vectors (QBitmapRange v))) r.
Proof.
  intros Hr. unfold read_bitmap_range, n_bitmap_range. do 5 nq. nb; [apply Note_vec; assumption|]. nq. nr. cbn [query_vectors br_mask].
  destruct Hx4. sz.
Qed.
Lemma Note_string_search r : RWf r -> Note read_string_search n_string_search (fun v l => l = sizes (query_vectors (QStringSearch v))) r.
Proof.
  intros Hr. unfold read_string_search, n_string_search. do 4 nq. nb; [apply Note_vec; assumption|].
  nb; [apply Note_vec; assumption|]. nq. nr. cbn [query_vectors ss_mask ss_value].
  destruct Hx3, Hx4. sz.
Qed.
Lemma Note_map {A B} (m : reader A) nm (f : A -> B) P (Q : B -> list N -> Prop) r : Note m nm P r ->
  (forall a l, P a l -> Q (f a) l) -> Note (v <- m ;; ret (f v)) (nbind nm (fun v => quiet (ret (f v)))) Q r.
Proof. intros H HQ. nb; [exact H|]. nr. rewrite app_nil_r. apply HQ. exact Hx. Qed.
Lemma Note_query r : RWf r -> Note read_query n_query (fun q l => l = sizes (query_vectors q)) r.
Proof.
  intros Hr. unfold read_query, n_query, query_readers. nq_with Nice_uint0. cbn [assoc app].
  destruct (x =? 0); [eapply Note_map; [eapply Note_quiet; [assumption|apply Nice_R; [apply Nice_non_void|assumption]]|]; intros a l (_ & ->); reflexivity|].
  destruct (x =? 1); [eapply Note_map; [apply Note_cmp_zero; assumption|auto]|].
  destruct (x =? 2); [eapply Note_map; [apply Note_cmp_value; assumption|auto]|].
  destruct (x =? 3); [eapply Note_map; [apply Note_cmp_other; assumption|auto]|].
  destruct (x =? 4); [eapply Note_map; [apply Note_bitmap_range; assumption|auto]|].
  destruct (x =? 7); [eapply Note_map; [apply Note_string_search; assumption|auto]|].
  apply Note_fail. assumption.
Qed.

(** ** Files *)
Lemma Nice_channel_status8 : Nice 8 read_channel_status wf_channel_status.
Proof.
  unfold read_channel_status. change 8%nat with (0 + (8 + 0))%nat. eapply Nice_bindk; [apply Nice_csi|]. intros i Hi.
  eapply Nice_bindk; [apply (Nice_uint 8)|]. intros n Hn. apply Nice_ret. split; assumption.
Qed.
Lemma Note_channels n r : RWf r -> u8 n ->
  Note (read_list (N.to_nat n) read_channel_status) (note n (read_list (N.to_nat n) read_channel_status))
    (fun v l => l = sizes [length v]) r.
Proof.
  intros Hr Hn. unfold u8 in Hn. unfold Note, note. cbn [fst snd]. split; [reflexivity|].
  split; [destruct (n =? 0); repeat constructor; lia|].
  pose proof (list_moves 8 (N.to_nat n) read_channel_status _ Nice_channel_status8 r Hr) as G.
  destruct (read_list _ _ r) as [[v r']|e|]; [| |exact G].
  - destruct G as ((_ & L) & R & D & B & _). split; [rewrite L; symmetry; apply sizes_one|].
    split; [exact R|]. split; [exact D|]. rewrite note_total. lia.
  - destruct (N.eqb_spec n 0); [apply good_nil; exact Hr|].
    right. exists [], n. split; [reflexivity|]. rewrite total_nil. pose proof (BP_bound r Hr). lia.
Qed.
Lemma Note_phy_status r : RWf r -> Note read_phy_status n_phy_status (fun v l => l = sizes [length (ps_channels v)]) r.
Proof.
  intros Hr. unfold read_phy_status, n_phy_status. do 5 nq. nb; [apply Note_channels; assumption|]. nr. cbn [ps_channels]. sz.
Qed.
Lemma Note_quiet_map {A B} (m : reader A) (f : A -> B) P (Q : B -> list N -> Prop) r : Nice 0 m P -> RWf r ->
  (forall a, P a -> Q (f a) []) -> Note (v <- m ;; ret (f v)) (quiet (v <- m ;; ret (f v))) Q r.
Proof.
  intros H Hr HQ. eapply Note_weaken.
  - eapply (Note_quiet _ (fun b => exists a, b = f a /\ P a)); [exact Hr|]. apply Nice_R; [|exact Hr]. eapply Nice_map; [exact H|eauto].
  - intros b l ((a & -> & Ha) & ->). auto.
Qed.
Lemma Note_vec_map {B} n (f : list N -> B) (Q : B -> list N -> Prop) r : RWf r -> n < 2 ^ 30 ->
  (forall v, Q (f v) (sizes [length v])) ->
  Note (l <- read_vec_u8 n ;; ret (f l)) (nbind (n_vec n) (fun l => quiet (ret (f l)))) Q r.
Proof. intros Hr Hn HQ. eapply Note_map; [apply Note_vec; assumption|]. intros a l (-> & _). apply HQ. Qed.
Lemma Note_file {E : Env} id n r : RWf r -> n < 2 ^ 30 -> Note (read_file id n) (n_file id n) (fun f l => l = sizes (file_vectors f)) r.
Proof.
  intros Hr Hn. destruct id; cbn [read_file n_file];
    try (apply Note_vec_map; [assumption|assumption|reflexivity]);
    try (eapply Note_map; [apply Note_phy_status; assumption|auto]);
    try (eapply Note_quiet_map; [|assumption|reflexivity]; solve [eauto 3 with nice]).
  eapply Note_quiet_map; [apply (Nice_native 16 (2 ^ 128)); reflexivity|assumption|reflexivity].
Qed.
Lemma Note_file_payload {E : Env} o r : RWf r -> wf_file_offset o ->
  Note (read_file_payload o) (n_file_payload o) (fun f l => l = sizes (file_vectors f)) r.
Proof.
  intros Hr (Ho & _). unfold read_file_payload, n_file_payload. nq. unfold Note.
  rewrite file_id_try_from_ok by exact Ho. exact (Note_file _ _ _ R Hx).
Qed.

(** ** Interfaces *)
Lemma Note_calm {A} (m : reader A) (P : A -> list N -> Prop) r : RWf r ->
  match m r with
  | Ok (a, r') => P a [] /\ RWf r' /\ data r' = data r /\ (BP r <= BP r')%nat
  | Err _ => True
  | Panic => False
  end -> Note m (quiet m) P r.
Proof.
  intros Hr H. unfold Note, quiet. cbn [fst snd]. split; [reflexivity|]. split; [constructor|].
  destruct (m r) as [[a r']|e|]; [| |exact H].
  - destruct H as (HP & R & D & B). split; [exact HP|]. split; [exact R|]. split; [exact D|]. rewrite total_nil. lia.
  - apply good_nil. exact Hr.
Qed.
Lemma Note_otaa r : RWf r -> Note read_otaa n_otaa (fun v l => l = sizes (config_vectors (IcOtaa v))) r.
Proof.
  intros Hr. unfold read_otaa, n_otaa. nq. do 3 (nb; [apply Note_vec; [assumption|reflexivity]|]). nr.
  cbv beta in *. cbn [config_vectors ot_dev_eui ot_app_eui ot_app_key]. destruct Hx0, Hx1, Hx2. sz.
Qed.
Lemma Note_abp {E : Env} r : RWf r -> Note read_abp n_abp (fun v l => l = sizes (config_vectors (IcAbp v))) r.
Proof.
  intros Hr. unfold read_abp, n_abp. nq. do 2 (nb; [apply Note_vec; [assumption|reflexivity]|]). nq. nq. nr.
  cbv beta in *. cbn [config_vectors ab_nwk_key ab_app_key]. destruct Hx0, Hx1. sz.
Qed.
Lemma Note_interface_config {E : Env} r : RWf r -> left r = [] ->
  Note read_interface_config n_interface_config (fun c l => l = sizes (config_vectors c)) r.
Proof.
  intros Hr Hl. unfold read_interface_config, n_interface_config. nq. cbn [assoc app].
  destruct (N.eqb_spec x 0); [nr; reflexivity|].
  destruct (N.eqb_spec x 1); [nr; reflexivity|].
  destruct (N.eqb_spec x 2); [eapply Note_map; [apply Note_abp; assumption|auto]|].
  destruct (N.eqb_spec x 3); [eapply Note_map; [apply Note_otaa; assumption|auto]|].
  destruct (N.eqb_spec x 0xD7).
  { eapply Note_map; [eapply Note_quiet; [assumption|apply Nice_R; [apply Nice_dash7_config|assumption]]|]. intros a l (_ & ->). reflexivity. }
  eapply Note_map.
  - apply (Note_calm (read_id_field x) (fun _ l => l = [])); [exact R|]. rewrite (id_field_aligned r x r0 Hr Hl Ex).
    split; [reflexivity|]. split; [exact R|]. split; [reflexivity|lia].
  - intros a l ->. reflexivity.
Qed.
Lemma Note_itf_status_op {E : Env} r : RWf r -> left r = [] ->
  Note read_itf_status_op n_itf_status_op (fun v l => l = sizes (status_vectors (StatusInterface v))) r.
Proof.
  intros Hr Hl. unfold read_itf_status_op, n_itf_status_op.
  eapply Note_bind; [eapply Note_quiet; [exact Hr|apply NiceA_interface_type; assumption]|]. intros t r1 l Et (_ & ->) R1 D1. cbn [app].
  nq. destruct t; cbn [read_interface_status n_interface_status].
  - eapply Note_map; [apply Note_ret with (P := fun v l => v = IsHost /\ l = []); auto|]. intros a l (-> & ->). reflexivity.
  - eapply Note_map; [apply Note_ret with (P := fun v l => v = IsSerial /\ l = []); auto|]. intros a l (-> & ->). reflexivity.
  - eapply Note_map; [apply Note_fail with (P := fun _ _ => False); assumption|]. contradiction.
  - eapply Note_map; [apply Note_fail with (P := fun _ _ => False); assumption|]. contradiction.
  - eapply Note_map; [eapply Note_quiet_map with (Q := fun s l => (exists v, s = IsDash7 v) /\ l = []);
      [apply Nice_dash7_status|assumption|eauto]|]. intros a l ((v & ->) & ->). reflexivity.
  - eapply Note_map; [apply Note_vec_map with (Q := fun s l => exists v, s = IsOther v /\ l = sizes [length v]);
      [assumption|assumption|eauto]|]. intros a l (v & -> & ->). reflexivity.
Qed.
Lemma Note_itf_final_op r : RWf r -> Note read_itf_final_op n_itf_final_op (fun v l => l = sizes (status_vectors (StatusInterfaceFinal v))) r.
Proof.
  intros Hr. unfold read_itf_final_op, n_itf_final_op. nq. nq. cbn [app].
  unfold read_interface_final_status, n_interface_final_status. destruct (N.eqb_spec x 0xD7) as [->|].
  - eapply Note_map; [eapply Note_quiet_map with (Q := fun s l => (exists v, s = FinDash7 v) /\ l = []);
      [apply Nice_final_status_code|assumption|eauto]|]. intros a l ((v & ->) & ->). reflexivity.
  - eapply Note_map; [apply Note_vec_map with (Q := fun s l => exists v, s = FinOther v /\ l = sizes [length v]);
      [assumption|assumption|eauto]|]. intros a l (v & -> & ->). reflexivity.
Qed.
Lemma Note_interface_tx_status {E : Env} i n r : RWf r -> n < 2 ^ 30 ->
  Note (read_interface_tx_status i n) (n_interface_tx_status i n)
    (fun v l => l = sizes match v with TxOther l => [length l] | TxDash7 _ => [] end) r.
Proof.
  intros Hr Hn. unfold read_interface_tx_status, n_interface_tx_status. destruct (N.eqb_spec i 0xD7) as [->|].
  - eapply Note_quiet_map; [apply Nice_dash7_tx_status|assumption|reflexivity].
  - apply Note_vec_map; [assumption|assumption|reflexivity].
Qed.

(** ** Operands *)
Lemma Nice_opcode : Nice 0 read_opcode (fun _ => True).
Proof. eapply Nice_weaken; [apply (Nice_uint 6)|lia|auto]. Qed.
Lemma Note_file_data {E : Env} r : RWf r -> Note read_file_data n_file_data (fun v l => l = sizes (file_vectors (fd_data v))) r.
Proof.
  intros Hr. unfold read_file_data, n_file_data. nq_with Nice_header. nq_with Nice_opcode. nq.
  eapply Note_map; [apply Note_file_payload; assumption|]. auto.
Qed.
Lemma Note_action_query r : RWf r -> Note read_action_query n_action_query (fun v l => l = sizes (query_vectors (aq_query v))) r.
Proof.
  intros Hr. unfold read_action_query, n_action_query. nq_with Nice_header. nq_with Nice_opcode.
  eapply Note_map; [apply Note_query; assumption|]. auto.
Qed.
Lemma aligned_two {A B} (m : reader A) (n : reader B) r x r1 y r2 : Adv 2 m -> Adv 6 n -> RWf r -> left r = [] ->
  m r = Ok (x, r1) -> n r1 = Ok (y, r2) -> left r2 = [].
Proof.
  intros H1 H2 Hr Hl E1 E2. destruct (H1 _ _ _ Hr E1) as (L1 & ->).
  destruct (H2 _ _ _ (RWf_adv _ _ Hr L1) E2) as (L2 & ->). rewrite view_adv, skipn_length in L2 by assumption.
  rewrite adv_adv by assumption. change (2 + 6)%nat with (8 * 1)%nat. rewrite adv_aligned; [reflexivity|assumption|assumption|lia].
Qed.
Lemma aligned_three {A B C} (m : reader A) (n : reader B) (o : reader C) r x r1 y r2 z r3 :
  Adv 1 m -> Adv 1 n -> Adv 6 o -> RWf r -> left r = [] ->
  m r = Ok (x, r1) -> n r1 = Ok (y, r2) -> o r2 = Ok (z, r3) -> left r3 = [].
Proof.
  intros H1 H2 H3 Hr Hl E1 E2 E3. eapply (aligned_two (x <- m ;; y <- n ;; ret (x, y)) o r (x, y) r2 z r3); try assumption.
  - apply Adv_two; assumption.
  - unfold bind. rewrite E1, E2. reflexivity.
Qed.
Lemma Note_status_operand {E : Env} r : RWf r -> left r = [] ->
  Note read_status_operand n_status_operand (fun v l => l = sizes (status_vectors (so_status v))) r.
Proof.
  intros Hr Hl. unfold read_status_operand, n_status_operand, read_status_type.
  nq_with (@Nice_enum0 status_type). nq_with Nice_opcode.
  assert (Hl2 : left r1 = []).
  { eapply (aligned_two _ _ r x r0 x0 r1); [apply Adv_enum|apply Adv_uint|assumption|assumption|exact Ex|exact Ex0]. }
  eapply Note_map with (P := fun s l => l = sizes (status_vectors s)); [|auto].
  destruct x; cbn [read_status n_status].
  - eapply Note_map; [eapply Note_quiet; [assumption|apply Nice_R; [apply Nice_action_status|assumption]]|]. intros a l (_ & ->). reflexivity.
  - eapply Note_map; [apply Note_itf_status_op; assumption|auto].
  - destruct is_wizzilab; [|apply Note_fail; assumption]. eapply Note_map; [apply Note_itf_final_op; assumption|auto].
Qed.
Lemma Note_forward {E : Env} r : RWf r -> left r = [] ->
  Note read_forward n_forward (fun v l => l = sizes (config_vectors (fw_config v))) r.
Proof.
  intros Hr Hl. unfold read_forward, n_forward. nq. nq. nq_with Nice_opcode.
  eapply Note_map; [apply Note_interface_config; [assumption|]|auto].
  eapply (aligned_three (skip_bits 1) read_bool read_opcode r x r0 x0 r1 x1 r2);
    [apply Adv_skip|apply Adv_bool|apply Adv_uint|assumption|assumption|exact Ex|exact Ex0|exact Ex1].
Qed.
Lemma Note_tx_status_op {E : Env} r : RWf r ->
  Note read_tx_status_op n_tx_status_op (fun v l => l = sizes match txo_status v with TxOther l => [length l] | TxDash7 _ => [] end) r.
Proof.
  intros Hr. unfold read_tx_status_op, n_tx_status_op. nq_with (@Nice_enum0 unit). nq. nq_with Nice_opcode. nq. nq.
  eapply Note_map; [apply Note_interface_tx_status; assumption|auto].
Qed.

(** ** Actions *)
Definition operand_codes : list N := [4; 5; 32; 8; 9; 11; 34; 50; 38].
Lemma no_vectors a : ~ In (opcode_of a) operand_codes -> action_vectors a = [].
Proof. unfold operand_codes. destruct a; cbn [opcode_of action_vectors]; intros H; try reflexivity; exfalso; apply H; cbn [In]; tauto. Qed.
Lemma Note_operand {E : Env} code r b : RWf r -> left r = [] -> nth_error (data r) (pos r) = Some b ->
  Note (match assoc code action_readers with Some m => m | None => fail EInvalidParam end) (n_operand code)
    (fun a l => l = sizes (action_vectors a)) r.
Proof.
  intros Hr Hl Hb. unfold n_operand.
  assert (Quiet : ~ In code operand_codes \/ (is_wizzilab = false /\ code = 38) ->
    Note (match assoc code action_readers with Some m => m | None => fail EInvalidParam end)
      (quiet (match assoc code action_readers with Some m => m | None => fail EInvalidParam end))
      (fun a l => l = sizes (action_vectors a)) r).
  { intros Hc. destruct (assoc code action_readers) as [m|] eqn:Ha; [|apply Note_fail; exact Hr].
    assert (Hc2 : ~ In code operand_codes).
    { destruct Hc as [Hc|(Hw & ->)]; [exact Hc|]. exfalso. unfold action_readers in Ha. rewrite Hw in Ha.
      cbv [assoc app N.eqb Pos.eqb] in Ha. discriminate. }
    destruct (arms _ _ (assoc_In _ _ _ Ha)) as (_ & Hm). specialize (Hm b r Hr Hl Hb).
    eapply Note_weaken; [eapply Note_quiet; [exact Hr|eapply NiceR_weaken; [exact Hm|lia|intros v Hv; exact Hv]]|].
    cbv beta. intros a l ((Ho & _) & ->). rewrite no_vectors by (rewrite Ho; exact Hc2). reflexivity. }
  cbn [assoc app].
  destruct (N.eqb_spec code 4) as [->|N4]; [eapply Note_map; [apply Note_file_data; assumption|auto]|].
  destruct (N.eqb_spec code 5) as [->|N5]; [eapply Note_map; [apply Note_file_data; assumption|auto]|].
  destruct (N.eqb_spec code 32) as [->|N32]; [eapply Note_map; [apply Note_file_data; assumption|auto]|].
  destruct (N.eqb_spec code 8) as [->|N8]; [eapply Note_map; [apply Note_action_query; assumption|auto]|].
  destruct (N.eqb_spec code 9) as [->|N9]; [eapply Note_map; [apply Note_action_query; assumption|auto]|].
  destruct (N.eqb_spec code 11) as [->|N11]; [eapply Note_map; [apply Note_action_query; assumption|auto]|].
  destruct (N.eqb_spec code 34) as [->|N34].
  { assert (Ea : assoc 34 action_readers = Some (v <- read_status_operand ;; ret (AStatus v))).
    { unfold action_readers. destruct is_wizzilab; reflexivity. }
    rewrite Ea. eapply Note_map; [apply Note_status_operand; assumption|auto]. }
  destruct (N.eqb_spec code 50) as [->|N50].
  { assert (Ea : assoc 50 action_readers = Some (v <- read_forward ;; ret (AForward v))).
    { unfold action_readers. destruct is_wizzilab; reflexivity. }
    rewrite Ea. eapply Note_map; [apply Note_forward; assumption|auto]. }
  destruct is_wizzilab eqn:Hw; cbn [assoc].
  - destruct (N.eqb_spec code 38) as [->|N38].
    + assert (Ea : assoc 38 action_readers = Some (v <- read_tx_status_op ;; ret (ATxStatus v))).
      { unfold action_readers. rewrite Hw. reflexivity. }
      rewrite Ea. eapply Note_map; [apply Note_tx_status_op; assumption|auto].
    + apply Quiet. left. unfold operand_codes. cbn [In]. intuition congruence.
  - apply Quiet. destruct (N.eqb_spec code 38) as [->|N38]; [right; auto|].
    left. unfold operand_codes. cbn [In]. intuition congruence.
Qed.

Lemma n_action_any {E : Env} r : RWf r -> (8 <= length (view r))%nat ->
  n_action r = n_operand (N_of_bits (firstn 6 (skipn 2 (view r)))) (mkRd (data r) (pos (adv r 8) - 1) [] (bread r + 8)).
Proof.
  intros Hr Hl. unfold n_action, nbind, quiet, skip_bits, bind. rewrite read_bits_ok by (assumption || lia).
  unfold ret. unfold read_opcode. rewrite read_uint_ok.
  2: { apply RWf_adv; [assumption|lia]. } 2: { rewrite view_adv, skipn_length by (assumption || lia). lia. }
  rewrite adv_adv by (assumption || lia). cbn [Nat.add]. rewrite view_adv by (assumption || lia).
  unfold seek_back1. pose proof (need_bounds r 8) as B. destruct Hr as (R1 & R2 & R3).
  destruct (pos (adv r 8)) as [|q] eqn:Ep.
  { exfalso. unfold adv in Ep. cbn [pos] in Ep. lia. }
  replace (S q - 1)%nat with q by lia. cbn [app]. change (data (adv r 8)) with (data r). change (bread (adv r 8)) with (bread r + 8)%nat.
  destruct (n_operand _ _). reflexivity.
Qed.
Lemma n_action_short {E : Env} r : RWf r -> (length (view r) < 8)%nat -> n_action r = ([], Err EIncomplete).
Proof.
  intros Hr L. unfold n_action, nbind, quiet, skip_bits, bind.
  destruct (Nat.le_gt_cases 2 (length (view r))) as [L2|L2].
  - rewrite read_bits_ok by (assumption || lia). unfold ret, read_opcode. rewrite read_uint_err; [reflexivity| |].
    + apply RWf_adv; [assumption|lia].
    + rewrite view_adv, skipn_length by (assumption || lia). lia.
  - rewrite read_bits_err by assumption. reflexivity.
Qed.
Lemma good_before r r' l e : (BP r <= BP r')%nat -> data r' = data r -> good r' l e -> good r l e.
Proof.
  intros B D [G|(l' & x & -> & G & X)]; unfold good; rewrite D in G; [left; lia|]. right. exists l', x. split; [reflexivity|].
  split; [lia|exact X].
Qed.
Lemma Note_action {E : Env} r : RWf r -> Note read_action n_action (fun a l => l = sizes (action_vectors a)) r.
Proof.
  intros Hr. unfold Note. destruct (Nat.le_gt_cases 8 (length (view r))) as [L8|L].
  2: { rewrite n_action_short, read_action_short by assumption. split; [reflexivity|]. split; [constructor|]. apply good_nil. exact Hr. }
  rewrite n_action_any, read_action_any by assumption.
  pose proof (need_bounds r 8) as B. pose proof (need_fits r 8 Hr L8) as F.
  assert (Ep : pos (adv r 8) = (pos r + need r 8)%nat) by reflexivity.
  assert (Hp : (1 <= pos (adv r 8) <= length (data r))%nat) by (destruct Hr as (Q1 & Q2 & Q3); lia).
  set (q := (pos (adv r 8) - 1)%nat) in *. set (r2 := mkRd (data r) q [] (bread r + 8)). set (code := N_of_bits _).
  assert (R2 : RWf r2) by (unfold RWf, r2; cbn [data pos left length]; lia).
  destruct (nth_error (data r2) (pos r2)) as [b|] eqn:Hb; [|apply nth_error_None in Hb; unfold r2 in Hb; cbn [data pos] in Hb; lia].
  destruct (Note_operand code r2 b R2 eq_refl Hb) as (N1 & N2 & N3).
  assert (BQ : (BP r <= BP r2)%nat).
  { unfold BP, r2. cbn [pos left length]. destruct Hr as (Q1 & Q2 & Q3). lia. }
  assert (Em : forall x : option (reader action), match x with Some m => m r2 | None => Err EInvalidParam end =
    (match x with Some m => m | None => fail EInvalidParam end) r2) by (intros []; reflexivity).
  rewrite Em. split; [exact N1|]. split; [exact N2|].
  destruct ((match assoc code action_readers with Some m => m | None => fail EInvalidParam end) r2) as [[a r']|e|]; [| |exact N3].
  - destruct N3 as (H1 & H2 & H3 & H4). split; [exact H1|]. split; [exact H2|]. split; [exact H3|]. lia.
  - eapply good_before; [exact BQ|reflexivity|exact N3].
Qed.

(** ** Commands *)
Lemma Note_actions {E : Env} fuel : forall len acc r, RWf r -> (8 * length (data r) < BP r + 8 * fuel)%nat ->
  Note (read_actions fuel len acc) (n_actions fuel len acc)
    (fun c l => exists new, c = acc ++ new /\ l = sizes (command_vectors new)) r.
Proof.
  induction fuel as [|fuel IH]; intros len acc r Hr Hf.
  - pose proof (BP_bound r Hr). lia.
  - cbn [read_actions n_actions].
    assert (Done : forall r2, RWf r2 -> Note (ret acc) (quiet (ret acc))
      (fun c l => exists new, c = acc ++ new /\ l = sizes (command_vectors new)) r2).
    { intros r2 H2. apply Note_ret; [exact H2|]. exists []. rewrite app_nil_r. auto. }
    eapply Note_bind with (P := fun _ l => l = []).
    { apply Note_calm; [exact Hr|]. unfold valid_length. destruct (len =? 0).
      - cbn [ret]. split; [reflexivity|]. split; [exact Hr|]. split; [reflexivity|lia].
      - unfold bind, stream_position, ret. destruct Hr as (R1 & R2 & R3). unfold RWf, BP. cbn [data pos left length]. repeat split; lia. }
    intros ok r1 l Eok -> R1 D1. cbv beta. cbn [app].
    assert (B1 : (BP r <= BP r1)%nat).
    { unfold valid_length in Eok. destruct (len =? 0).
      - unfold ret in Eok. assert (r = r1) by congruence. subst. lia.
      - unfold bind, stream_position, ret in Eok. assert (Er : r1 = mkRd (data r) (pos r) [] (bread r)) by congruence.
        rewrite Er. unfold BP. cbn [pos left length]. lia. }
    destruct ok; [|apply Done; exact R1].
    eapply Note_bind with (P := fun _ l => l = []).
    { apply Note_calm; [exact R1|]. destruct (at_end_spec r1 R1) as (e & r2 & E2 & Hr2 & D2 & B2 & _). rewrite E2.
      split; [reflexivity|]. split; [exact Hr2|]. split; [exact D2|lia]. }
    intros e r2 l Ee -> R2 D2. cbv beta. cbn [app].
    assert (B2 : BP r2 = BP r1).
    { destruct (at_end_spec r1 R1) as (e' & r2' & E2 & Hr2 & D2' & B2 & _). rewrite E2 in Ee. assert (r2' = r2) by congruence. congruence. }
    destruct e; [apply Done; exact R2|]. destruct (last_is_indirect acc); [apply Done; exact R2|].
    eapply Note_bind; [apply Note_action; exact R2|]. intros a r3 l Ea -> R3 D3. cbv beta.
    assert (B3 : (BP r2 + 8 <= BP r3)%nat).
    { pose proof (Nice_action r2 R2) as N8. rewrite Ea in N8. apply N8. }
    assert (D : data r3 = data r) by congruence.
    eapply Note_weaken; [apply IH; [exact R3|rewrite D; lia]|].
    intros c l (new & -> & ->). exists (a :: new). rewrite <- app_assoc. split; [reflexivity|].
    unfold command_vectors. cbn [flat_map]. rewrite sizes_app. reflexivity.
Qed.
Lemma Note_command {E : Env} len r : RWf r -> Note (read_command len) (n_command len) (fun c l => l = sizes (command_vectors c)) r.
Proof.
  intros Hr. destruct (Note_actions (S (length (data r))) len [] r Hr ltac:(lia)) as (H1 & H2 & H3).
  unfold Note, read_command, n_command. split; [exact H1|]. split; [exact H2|].
  destruct (read_actions _ _ _ r) as [[c r']|e|]; [|exact H3|exact H3].
  destruct H3 as ((new & -> & H3) & H4). split; [exact H3|exact H4].
Qed.

(** ** Frames *)
Lemma Note_tframe {E : Env} len r : RWf r ->
  Note (read_tframe len) (n_tframe len) (fun f l => l = sizes (command_vectors (tf_command f))) r.
Proof.
  intros Hr. unfold read_tframe, n_tframe. nq_with Nice_tcontrol. nq. nq.
  eapply Note_bind; [eapply Note_quiet; [eassumption|apply Nice_R; [apply Nice_cond, Nice_u8|assumption]]|].
  intros o1 s1 l Eo1 (_ & ->) S1 D1'. cbv beta.
  eapply Note_bind; [eapply Note_quiet; [eassumption|apply Nice_R; [apply Nice_cond, Nice_varint|assumption]]|].
  intros o2 s2 l Eo2 (_ & ->) S2 D2'. cbv beta.
  eapply Note_bind; [eapply Note_quiet; [eassumption|apply Nice_R; [apply Nice_cond, Nice_varint|assumption]]|].
  intros o3 s3 l Eo3 (_ & ->) S3 D3'. cbv beta.
  eapply Note_bind; [eapply Note_quiet; [eassumption|apply Nice_R; [apply Nice_cond, Nice_varint|assumption]]|].
  intros o4 s4 l Eo4 (_ & ->) S4 D4'. cbv beta.
  eapply Note_bind; [eapply Note_quiet; [eassumption|apply Nice_R; [apply Nice_cond, Nice_ack|assumption]]|].
  intros o5 s5 l Eo5 (_ & ->) S5 D5'. cbv beta. cbn [app].
  eapply Note_map; [apply Note_command; assumption|auto].
Qed.
Lemma Note_nframe {E : Env} len r : RWf r ->
  Note (read_nframe len) (n_nframe len) (fun f l => l = sizes (command_vectors (tf_command (nf_frame f)))) r.
Proof.
  intros Hr. unfold read_nframe, n_nframe. nq_with @Nice_ncontrol.
  eapply Note_bind; [eapply Note_quiet; [eassumption|apply Nice_R; [apply Nice_cond, Nice_hopping|assumption]]|].
  intros o1 s1 l Eo1 (_ & ->) S1 D1'. cbv beta. nq. nq. cbn [app]. eapply Note_map; [apply Note_tframe; assumption|auto].
Qed.
Lemma Note_fframe {E : Env} r : RWf r ->
  Note read_fframe n_fframe (fun f l => l = sizes (command_vectors (tf_command (nf_frame (ff_frame f))))) r.
Proof.
  intros Hr. unfold read_fframe, n_fframe, read_address_type. nq. nq. nq_with (@Nice_enum0 address_type). nq_with Nice_uint0. nq.
  nb; [apply Note_nframe; assumption|].
  eapply Note_bind; [eapply Note_quiet; [eassumption|apply Nice_R; [apply (Nice_native 2 (2 ^ 16)); reflexivity|assumption]]|].
  intros c s l' Ec (_ & ->) S D'. cbv beta in *. nr. cbn [ff_frame]. sz.
Qed.

(** ** The notes change nothing *)
Definition Same {A} (m : reader A) (nm : noted A) : Prop := forall r, snd (nm r) = m r.
Lemma Same_quiet {A} (m : reader A) : Same m (quiet m).
Proof. intros r. reflexivity. Qed.
Lemma Same_note {A} n (m : reader A) : Same m (note n m).
Proof. intros r. reflexivity. Qed.
Lemma Same_vec n : Same (read_vec_u8 n) (n_vec n).
Proof. apply Same_note. Qed.
Lemma Same_bind {A B} (m : reader A) nm (f : A -> reader B) g : Same m nm -> (forall x, Same (f x) (g x)) ->
  Same (bind m f) (nbind nm g).
Proof.
  intros H1 H2 r. unfold bind, nbind. specialize (H1 r). destruct (nm r) as [l y]. cbn [snd] in H1. rewrite <- H1.
  destruct y as [[x r1]|e|]; [|reflexivity|reflexivity]. specialize (H2 x r1). destruct (g x r1). exact H2.
Qed.
Create HintDb same.
#[local] Hint Resolve Same_quiet Same_note Same_vec : same.
Ltac same := repeat first [solve [eauto 2 with same] | apply Same_bind; [|intros]].
Lemma Same_cond_vec c n : Same (read_cond_vec c n) (n_cond_vec c n).
Proof. destruct c; [apply Same_vec|apply Same_quiet]. Qed.
#[local] Hint Resolve Same_cond_vec : same.
Lemma Same_query : Same read_query n_query.
Proof.
  unfold read_query, n_query, query_readers. apply Same_bind; [apply Same_quiet|]. intros x. cbn [assoc].
  repeat match goal with |- Same (match (if ?b then _ else _) with _ => _ end) _ => destruct b end;
    unfold read_cmp_zero, n_cmp_zero, read_cmp_value, n_cmp_value, read_cmp_other, n_cmp_other, read_bitmap_range, n_bitmap_range,
      read_string_search, n_string_search; same.
Qed.
Lemma Same_file {E : Env} id n : Same (read_file id n) (n_file id n).
Proof. destruct id; cbn [read_file n_file]; unfold read_phy_status, n_phy_status; same. Qed.
Lemma Same_file_data {E : Env} : Same read_file_data n_file_data.
Proof.
  unfold read_file_data, n_file_data, read_file_payload, n_file_payload. do 3 (apply Same_bind; [apply Same_quiet|intros]).
  apply Same_bind; [|intros; apply Same_quiet]. apply Same_bind; [apply Same_quiet|]. intros n.
  intros r. destruct (file_id_try_from _); [apply Same_file|reflexivity|reflexivity].
Qed.
Lemma Same_action_query : Same read_action_query n_action_query.
Proof. unfold read_action_query, n_action_query. pose proof Same_query. same. Qed.
Lemma Same_config {E : Env} : Same read_interface_config n_interface_config.
Proof.
  unfold read_interface_config, n_interface_config. apply Same_bind; [apply Same_quiet|]. intros x. cbn [assoc].
  repeat match goal with |- Same (match (if ?b then _ else _) with _ => _ end) _ => destruct b end;
    unfold read_otaa, n_otaa, read_abp, n_abp; same.
Qed.
Lemma Same_status {E : Env} t : Same (read_status t) (n_status t).
Proof.
  destruct t; cbn [read_status n_status].
  - same.
  - unfold read_itf_status_op, n_itf_status_op. apply Same_bind; [|intros; apply Same_quiet]. do 2 (apply Same_bind; [apply Same_quiet|intros]).
    apply Same_bind; [|intros; apply Same_quiet]. destruct x; cbn [read_interface_status n_interface_status]; same.
  - destruct is_wizzilab; [|apply Same_quiet]. unfold read_itf_final_op, n_itf_final_op.
    apply Same_bind; [|intros; apply Same_quiet]. do 2 (apply Same_bind; [apply Same_quiet|intros]). apply Same_bind; [|intros; apply Same_quiet].
    unfold n_interface_final_status, read_interface_final_status. destruct (x =? 0xD7); same.
Qed.
Lemma Same_tx_status {E : Env} i n : Same (read_interface_tx_status i n) (n_interface_tx_status i n).
Proof. unfold n_interface_tx_status, read_interface_tx_status. destruct (i =? 0xD7); same. Qed.
#[local] Hint Resolve Same_query Same_file_data Same_action_query Same_config Same_status Same_tx_status : same.
Lemma Same_operand {E : Env} code :
  Same (match assoc code action_readers with Some m => m | None => fail EInvalidParam end) (n_operand code).
Proof.
  unfold n_operand.
  cbn [assoc app].
  destruct (N.eqb_spec code 4) as [->|N4]; [apply Same_bind; [apply Same_file_data|intros; apply Same_quiet]|].
  destruct (N.eqb_spec code 5) as [->|N5]; [apply Same_bind; [apply Same_file_data|intros; apply Same_quiet]|].
  destruct (N.eqb_spec code 32) as [->|N32]; [apply Same_bind; [apply Same_file_data|intros; apply Same_quiet]|].
  destruct (N.eqb_spec code 8) as [->|N8]; [apply Same_bind; [apply Same_action_query|intros; apply Same_quiet]|].
  destruct (N.eqb_spec code 9) as [->|N9]; [apply Same_bind; [apply Same_action_query|intros; apply Same_quiet]|].
  destruct (N.eqb_spec code 11) as [->|N11]; [apply Same_bind; [apply Same_action_query|intros; apply Same_quiet]|].
  destruct (N.eqb_spec code 34) as [->|N34].
  { assert (Ea : assoc 34 action_readers = Some (v <- read_status_operand ;; ret (AStatus v))).
    { unfold action_readers. destruct is_wizzilab; reflexivity. }
    rewrite Ea. unfold read_status_operand, n_status_operand. same. }
  destruct (N.eqb_spec code 50) as [->|N50].
  { assert (Ea : assoc 50 action_readers = Some (v <- read_forward ;; ret (AForward v))).
    { unfold action_readers. destruct is_wizzilab; reflexivity. }
    rewrite Ea. unfold read_forward, n_forward. same. }
  destruct is_wizzilab eqn:Hw; cbn [assoc]; [|apply Same_quiet].
  destruct (N.eqb_spec code 38) as [->|N38]; [|apply Same_quiet].
  assert (Ea : assoc 38 action_readers = Some (v <- read_tx_status_op ;; ret (ATxStatus v))).
  { unfold action_readers. rewrite Hw. reflexivity. }
  rewrite Ea. unfold read_tx_status_op, n_tx_status_op. same.
Qed.
Lemma Same_action {E : Env} : Same read_action n_action.
Proof. unfold read_action, n_action. do 3 (apply Same_bind; [apply Same_quiet|intros]). apply Same_operand. Qed.
Lemma Same_actions {E : Env} fuel : forall len acc, Same (read_actions fuel len acc) (n_actions fuel len acc).
Proof.
  induction fuel as [|fuel IH]; intros len acc; cbn [read_actions n_actions]; [apply Same_quiet|].
  apply Same_bind; [apply Same_quiet|]. intros []; [|apply Same_quiet]. apply Same_bind; [apply Same_quiet|]. intros []; [apply Same_quiet|].
  destruct (last_is_indirect acc); [apply Same_quiet|]. apply Same_bind; [apply Same_action|]. intros. apply IH.
Qed.
Lemma Same_command {E : Env} len : Same (read_command len) (n_command len).
Proof. intros r. apply Same_actions. Qed.
#[local] Hint Resolve Same_command : same.
Lemma Same_fframe {E : Env} : Same read_fframe n_fframe.
Proof. unfold read_fframe, n_fframe, read_nframe, n_nframe, read_tframe, n_tframe. same. Qed.
Lemma reserve_same {E : Env} r :
  snd (n_action r) = read_action r /\ (forall n, snd (n_command n r) = read_command n r) /\ snd (n_fframe r) = read_fframe r.
Proof. split; [apply Same_action|]. split; [intros; apply Same_command|apply Same_fframe]. Qed.

(** ** Entry points *)
Lemma new_BP d : BP (new_reader d) = 0%nat.
Proof. reflexivity. Qed.
Lemma noted_bound {A} (m : reader A) nm P d : Note m nm P (new_reader d) ->
  Forall (fun n => n < 2 ^ 30) (fst (nm (new_reader d))) /\ total (fst (nm (new_reader d))) < N.of_nat (length d) + 2 ^ 30.
Proof.
  intros (_ & H2 & H3). split; [exact H2|]. destruct (m (new_reader d)) as [[a r]|e|]; [| |contradiction].
  - destruct H3 as (_ & R & D & B). pose proof (BP_bound r R) as C. rewrite D in C. cbn [new_reader data] in C.
    rewrite new_BP in B. lia.
  - unfold good in H3. rewrite new_BP in H3. cbn [new_reader data] in H3.
    destruct H3 as [H3|(l' & x & E & H3 & _)]; [lia|]. rewrite E in *. rewrite total_app.
    apply Forall_app in H2 as (_ & H2). inversion H2; subst. unfold total at 2. cbn [fold_right]. lia.
Qed.
Lemma noted_ok {A} (m : reader A) nm P d a r : Note m nm P (new_reader d) -> m (new_reader d) = Ok (a, r) ->
  P a (fst (nm (new_reader d))) /\ total (fst (nm (new_reader d))) <= N.of_nat (length d).
Proof.
  intros (_ & _ & H3) E. rewrite E in H3. destruct H3 as (HP & R & D & B). split; [exact HP|].
  pose proof (BP_bound r R) as C. rewrite D in C. cbn [new_reader data] in C. rewrite new_BP in B. lia.
Qed.
Lemma noted_err {A} (m : reader A) nm P d e : Note m nm P (new_reader d) -> m (new_reader d) = Err e ->
  filled_but_last (length d) (fst (nm (new_reader d))) e.
Proof.
  intros (_ & _ & H3) E. rewrite E in H3. unfold good in H3. rewrite new_BP in H3. cbn [new_reader data] in H3.
  destruct H3 as [H3|(l' & x & -> & H3 & X)]; [left; lia|]. right. exists l', x. split; [reflexivity|]. split; [lia|exact X].
Qed.
Lemma reserve_bound {E : Env} d l : l = action_reserved d \/ l = command_reserved d \/ l = fframe_reserved d ->
  Forall (fun n => n < 2 ^ 30) l /\ total l < N.of_nat (length d) + 2 ^ 30.
Proof.
  intros [-> | [-> | ->]].
  - exact (noted_bound _ _ _ _ (Note_action _ (new_RWf d))).
  - exact (noted_bound _ _ _ _ (Note_command 0 _ (new_RWf d))).
  - exact (noted_bound _ _ _ _ (Note_fframe _ (new_RWf d))).
Qed.
Lemma reserve_action {E : Env} d :
  (forall rest a, action_from_bytes d 0 = Ok (rest, a) ->
     action_reserved d = sizes (action_vectors a) /\ total (action_reserved d) <= N.of_nat (length d)) /\
  (forall e, action_from_bytes d 0 = Err e -> filled_but_last (length d) (action_reserved d) e).
Proof.
  unfold action_from_bytes. rewrite u_from_bytes_0. pose proof (Note_action _ (new_RWf d)) as H.
  destruct (read_action (new_reader d)) as [[v r]|e'|] eqn:Ev; split; intros; try congruence.
  - assert (v = a) by congruence. subst v. exact (noted_ok _ _ _ _ _ _ H Ev).
  - assert (e' = e) by congruence. subst e'. exact (noted_err _ _ _ _ _ H Ev).
Qed.
Lemma reserve_command {E : Env} d :
  (forall rest c, command_from_bytes d 0 = Ok (rest, c) ->
     command_reserved d = sizes (command_vectors c) /\ total (command_reserved d) <= N.of_nat (length d)) /\
  (forall e, command_from_bytes d 0 = Err e -> filled_but_last (length d) (command_reserved d) e).
Proof.
  unfold command_from_bytes. rewrite u_from_bytes_0. pose proof (Note_command 0 _ (new_RWf d)) as H.
  destruct (read_command 0 (new_reader d)) as [[v r]|e'|] eqn:Ev; split; intros; try congruence.
  - assert (v = c) by congruence. subst v. exact (noted_ok _ _ _ _ _ _ H Ev).
  - assert (e' = e) by congruence. subst e'. exact (noted_err _ _ _ _ _ H Ev).
Qed.
Lemma reserve_frame {E : Env} d :
  (forall rest f, fframe_from_bytes d 0 = Ok (rest, f) ->
     fframe_reserved d = sizes (command_vectors (tf_command (nf_frame (ff_frame f)))) /\
     total (fframe_reserved d) <= N.of_nat (length d)) /\
  (forall e, fframe_from_bytes d 0 = Err e -> filled_but_last (length d) (fframe_reserved d) e).
Proof.
  unfold fframe_from_bytes, d_from_bytes, start. cbn [Nat.eqb]. pose proof (Note_fframe _ (new_RWf d)) as H.
  destruct (read_fframe (new_reader d)) as [[v r]|e'|] eqn:Ev; unfold rbind; cbn [fst snd]; split; intros; try congruence.
  - destruct (Nat.leb _ _); [|discriminate]. assert (v = f) by congruence. subst v. exact (noted_ok _ _ _ _ _ _ H Ev).
  - destruct (Nat.leb _ _); discriminate.
  - assert (e' = e) by congruence. subst e'. exact (noted_err _ _ _ _ _ H Ev).
Qed.
Definition greedy : list N := [0x20; 0x40; 0; 0xFF; 0xFF; 0xFF; 0xFF].
Lemma greedy_bytes : bytes greedy.
Proof. unfold bytes, greedy, byte. repeat constructor; lia. Qed.
Lemma reserve_greedy {E : Env} : action_reserved greedy = [2 ^ 30 - 1] /\ action_from_bytes greedy 0 = Err EIncomplete.
Proof. destruct E as [f h w]. destruct f, w; split; vm_compute; reflexivity. Qed.
Lemma reserve_refuted {E : Env} :
  exists d, bytes d /\ length d = 7%nat /\ action_reserved d = [2 ^ 30 - 1] /\ action_from_bytes d 0 = Err EIncomplete.
Proof. exists greedy. split; [exact greedy_bytes|]. split; [reflexivity|apply reserve_greedy]. Qed.
