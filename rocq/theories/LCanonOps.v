(** Canonical input: payloads preceded by a length, statuses, operands. *)
From Coq Require Import List NArith ZArith Bool Lia ZifyBool ZifyNat ZifyN Arith.
From Verif Require Import Base Deku Utils Types Physical Link Network Session Data Query
  Interface File Operation Action Command WellFormed SpecLayout SpecDecode SpecCanonical LBits LReader
  LNumbers LDecode LCanon LCanonTypes.
Import ListNotations.
Open Scope N_scope.

(** ** What holds of the values a decoder gives *)
Definition Post {A} (D : dec A) (P : A -> Prop) : Prop :=
  forall l v rest, bytes l -> D l = Some (v, rest) -> P v /\ bytes rest.
Lemma Post_bind {A B} (D : dec A) (K : A -> dec B) P Q :
  Post D P -> (forall x, P x -> Post (K x) Q) -> Post (andthen D K) Q.
Proof.
  intros H1 H2 l v rest Hl H. unfold andthen in H. destruct (D l) as [[x l1]|] eqn:E1; [|discriminate].
  destruct (H1 l x l1 Hl E1) as [Px B1]. exact (H2 x Px l1 v rest B1 H).
Qed.
Lemma Post_give {A} (v : A) (P : A -> Prop) : P v -> Post (give v) P.
Proof. intros H l w rest Hl G. injection G as <- <-. split; assumption. Qed.
Lemma Post_reject {A} (P : A -> Prop) : Post reject P.
Proof. intros l w rest Hl G. discriminate. Qed.
Lemma Post_if {A} (c : bool) (D1 D2 : dec A) P : Post D1 P -> Post D2 P -> Post (if c then D1 else D2) P.
Proof. destruct c; auto. Qed.
Lemma Post_one : Post one (fun b => b < 256).
Proof. intros [|b l] v rest Hl G; [discriminate|]. injection G as <- <-. apply Forall_cons_iff in Hl. exact Hl. Qed.
Lemma Post_some n : Post (some_bytes n) (fun l => length l = N.to_nat n).
Proof. intros l v rest Hl G. apply some_bytes_inv in G as [-> L]. apply Forall_app in Hl as [_ Hl]. split; assumption. Qed.
Lemma Post_true {A} (D S : dec A) e : Can D S e -> Post D (fun _ => True).
Proof. intros H l v rest Hl G. specialize (H l Hl). rewrite G in H. split; [exact I|apply H]. Qed.
Lemma Post_times {A} n (D : dec A) : Post D (fun _ => True) -> Post (times n D) (fun l => length l = n).
Proof.
  intros H. induction n as [|n IH]; cbn [times]; [apply Post_give; reflexivity|].
  eapply Post_bind; [exact H|]. intros x _. eapply Post_bind; [exact IH|]. intros xs Hx. apply Post_give.
  cbv beta in *. cbn [length]. lia.
Qed.
Lemma Post_text n : Post (text n) (fun l => length l = N.to_nat n).
Proof. eapply Post_bind; [apply Post_some|]. intros s Hs. destruct (utf8_valid s); [apply Post_give; exact Hs|apply Post_reject]. Qed.
Lemma Post_named {A} code all c : Post (@named A code all c) (fun _ => True).
Proof. unfold named. destruct (find _ _); [apply Post_give; exact I|apply Post_reject]. Qed.

Lemma flat_length {A} (e : A -> list N) k l : (forall x, length (e x) = k) -> length (flat_map e l) = (length l * k)%nat.
Proof. intros H. induction l as [|x l IH]; [reflexivity|]. cbn [flat_map length]. rewrite app_length, H, IH. lia. Qed.
Lemma enc_native_size {E : Env} k v : length (enc_native k v) = k.
Proof. unfold enc_native. destruct e_host; rewrite ?rev_length; apply be_bytes_length. Qed.
Lemma enc_channel_size v : length (enc_channel v) = 3%nat. Proof. reflexivity. Qed.
Lemma enc_sub_profile_size v : length (enc_sub_profile v) = 2%nat. Proof. reflexivity. Qed.
Lemma enc_sub_band_size v : length (enc_sub_band v) = 7%nat. Proof. reflexivity. Qed.
Lemma enc_channel_status_size v : length (enc_channel_status v) = 3%nat. Proof. reflexivity. Qed.
Lemma address_size a : (length (enc_address a) <= 8)%nat.
Proof. destruct a; cbn; lia. Qed.

Ltac post := repeat first
  [ apply Post_give | apply Post_reject
  | eapply Post_bind; [first [apply Post_one|apply Post_some|apply Post_text|apply Post_named
      |eapply Post_true; first [apply Can_num|apply Can_signed|apply Can_host|apply Can_channel
        |apply Can_channel_header|apply Can_varint|apply Can_qos|apply Can_address]
      |apply Post_times; eapply Post_true; first [apply Can_sub_profile|apply Can_sub_band|apply Can_channel_status]]|]; intros ?x ?Hx; cbv beta in * ].
Definition small_file {E : Env} (f : file) : Prop :=
  match f with FOther _ => False | _ => (length (enc_file f) <= 800)%nat end.
Lemma Post_file {E : Env} id n : Post (dec_file id n) (fun f => small_file f \/
  exists l, f = FOther l /\ length l = N.to_nat n).
Proof.
  unfold dec_file. repeat apply Post_if.
  all: try (post; left; unfold small_file; cbn; rewrite ?app_length; cbn; lia).
  - post. left. cbn [small_file enc_file ps_up ps_rx ps_tx ps_duty ps_count ps_channels].
    rewrite !app_length, !be_bytes_length, (flat_length _ 3) by apply enc_channel_status_size. cbn [length]. lia.
  - post. left. cbn [small_file enc_file]. rewrite enc_native_size. lia.
  - apply Post_bind with (P := fun p => (length (enc_access_profile p) <= 800)%nat).
    + unfold dec_access_profile. post. unfold enc_access_profile. cbn [ap_header ap_sub_profiles ap_sub_bands length].
      rewrite app_length, (flat_length _ 2), (flat_length _ 7) by (apply enc_sub_profile_size || apply enc_sub_band_size). lia.
    + intros p Hp. apply Post_give. left. exact Hp.
  - post. right. eauto.
Qed.

(** ** Payloads preceded by their length *)
Lemma dec_length_bound : Post dec_length (fun n => n < 2 ^ 30).
Proof.
  intros l v rest Hl H. destruct l as [|b l]; [discriminate|]. rewrite dec_length_cons in H.
  apply Forall_cons_iff in Hl as [Hb Hl]. unfold byte in Hb.
  destruct (some_bytes (b / 64) l) as [[t r]|] eqn:E1; [|discriminate]. injection H as <- <-.
  apply some_bytes_inv in E1 as [-> L]. apply Forall_app in Hl as [Ht Hr]. split; [|exact Hr].
  pose proof (N_of_be_lt t Ht) as Bt. rewrite L, N2Nat.id in Bt.
  assert (b / 64 < 4) by divlia. assert (b mod 64 <= 63) by divlia.
  apply N.lt_le_trans with (64 * 256 ^ (b / 64)); [nia|].
  assert (256 ^ (b / 64) <= 256 ^ 3) by (apply N.pow_le_mono_r; lia).
  change (256 ^ 3) with 16777216 in *. change (2 ^ 30) with 1073741824. lia.
Qed.
Lemma dec_length_min l n rest : bytes l -> dec_length l = Some (n, rest) ->
  (length (enc_length n) + length rest <= length l)%nat.
Proof.
  intros Hl H. destruct l as [|b l]; [discriminate|]. rewrite dec_length_cons in H.
  apply Forall_cons_iff in Hl as [Hb Hl]. unfold byte in Hb.
  destruct (some_bytes (b / 64) l) as [[t r]|] eqn:E1; [|discriminate]. injection H as <- <-.
  apply some_bytes_inv in E1 as [-> L]. apply Forall_app in Hl as [Ht Hr].
  pose proof (N_of_be_lt t Ht) as Bt. rewrite L, N2Nat.id in Bt.
  assert (V : b mod 64 * 256 ^ (b / 64) + N_of_be t < 64 * 256 ^ (b / 64)).
  { assert (b mod 64 <= 63) by divlia. nia. }
  assert (HK : b / 64 < 4) by divlia. rewrite enc_length_size. cbn [length]. rewrite app_length, L.
  generalize dependent (b mod 64 * 256 ^ (b / 64) + N_of_be t). intros v V.
  assert (b / 64 = 0 \/ b / 64 = 1 \/ b / 64 = 2 \/ b / 64 = 3) as [K|[K|[K|K]]] by lia; rewrite K in V |- *.
  - change (64 * 256 ^ 0) with 64 in V. change (2 ^ 6) with 64. rewrite (proj2 (N.ltb_lt _ _) V). lia.
  - change (64 * 256 ^ 1) with 16384 in V. change (2 ^ 14) with 16384. rewrite (proj2 (N.ltb_lt _ _) V). destruct (v <? 2 ^ 6); lia.
  - change (64 * 256 ^ 2) with 4194304 in V. change (2 ^ 22) with 4194304. rewrite (proj2 (N.ltb_lt _ _) V).
    destruct (v <? 2 ^ 6), (v <? 2 ^ 14); lia.
  - destruct (v <? 2 ^ 6), (v <? 2 ^ 14), (v <? 2 ^ 22); lia.
Qed.
Lemma Can_prefixed {B} (D2 S2 : N -> dec B) e2 :
  (forall n, Can (D2 n) (S2 n) e2) ->
  (forall n l v rest, bytes l -> n < 2 ^ 30 -> D2 n l = Some (v, rest) ->
     N.of_nat (length (e2 v)) < 2 ^ 30 /\ forall r, D2 (N.of_nat (length (e2 v))) (e2 v ++ r) = Some (v, r)) ->
  Can (let* n := dec_length in D2 n) (let* n := strict_length in exactly n (S2 n)) (fun v => enc_prefixed (e2 v)).
Proof.
  intros H2 HR l Hl. pose proof (Can_length l Hl) as H1. unfold andthen, exactly.
  destruct (dec_length l) as [[n l1]|] eqn:E1; [|rewrite H1; reflexivity].
  destruct (dec_length_bound l n l1 Hl E1) as [Bn _].
  destruct H1 as (B1 & t1 & T1 & R1 & C1). cbn [app] in T1. subst t1. specialize (H2 n l1 B1).
  destruct (D2 n l1) as [[v rest]|] eqn:E2.
  2:{ destruct C1 as [(-> & _)|(-> & _)]; [rewrite H2; reflexivity|reflexivity]. }
  destruct H2 as (B2 & t2 & T2 & R2 & C2). cbn [app] in T2. subst t2.
  destruct (HR n l1 v rest B1 Bn E2) as (L & RT).
  split; [exact B2|]. exists (enc_prefixed (e2 v)). split; [reflexivity|]. unfold enc_prefixed. split.
  { intros r. rewrite <- app_assoc, dec_enc_length by exact L. apply RT. }
  assert (G : forall s, l = (enc_length (N.of_nat (length (e2 v))) ++ e2 v) ++ s ->
             n = N.of_nat (length (e2 v)) /\ l1 = e2 v ++ s).
  { intros s Hs. rewrite <- app_assoc in Hs. rewrite Hs, dec_enc_length in E1 by exact L. injection E1 as <- <-.
    split; reflexivity. }
  destruct C1 as [(-> & C1)|(-> & C1)].
  - destruct C2 as [(-> & C2)|(-> & C2)].
    + destruct (N.eqb_spec (N.of_nat (length l1)) (N.of_nat (length rest) + n)) as [Q|Q].
      * left. split; [reflexivity|]. rewrite C2, app_length in Q. rewrite C1, C2, <- app_assoc.
        do 2 f_equal. lia.
      * right. split; [reflexivity|]. intros K. destruct (G _ K) as [Kn Kl]. apply Q. rewrite Kl, Kn, app_length. lia.
    + right. split; [reflexivity|]. intros K. destruct (G _ K) as [_ Kl]. auto.
  - right. split; [reflexivity|]. intros K. destruct (G _ K) as [Kn Kl]. apply C1. rewrite Kl, Kn, app_assoc. exact K.
Qed.
Lemma exactly_give {A} n (v : A) l : exactly n (give v) l = only (n =? 0) (give v) l.
Proof.
  unfold exactly, give, only, reject. destruct (N.eqb_spec n 0) as [->|Q].
  - rewrite N.add_0_r, N.eqb_refl. reflexivity.
  - destruct (N.eqb_spec (N.of_nat (length l)) (N.of_nat (length l) + n)); [lia|reflexivity].
Qed.
Lemma exactly_some n l : exactly n (some_bytes n) l = some_bytes n l.
Proof.
  unfold exactly. destruct (some_bytes n l) as [[t rest]|] eqn:E1; [|reflexivity].
  apply some_bytes_inv in E1 as [-> L]. rewrite app_length.
  destruct (N.eqb_spec (N.of_nat (length t + length rest)) (N.of_nat (length rest) + n)); [reflexivity|lia].
Qed.
Lemma andthen_ext {A B} (D D' : dec A) (K K' : A -> dec B) l : (forall l, D l = D' l) -> (forall x l, K x l = K' x l) ->
  andthen D K l = andthen D' K' l.
Proof. intros H1 H2. unfold andthen. rewrite H1. destruct (D' l) as [[x l1]|]; [apply H2|reflexivity]. Qed.
Lemma andthen_assoc {A B C} (D : dec A) (K : A -> dec B) (M : B -> dec C) l :
  andthen D (fun x => andthen (K x) M) l = andthen (andthen D K) M l.
Proof. unfold andthen. destruct (D l) as [[x l1]|]; reflexivity. Qed.

Lemma Can_prefixed_give {B} (v : B) : Can (let* n := dec_length in give v)
  (let* n := strict_length in only (n =? 0) (give v)) (fun _ => enc_prefixed []).
Proof.
  eapply Can_ext; [apply (Can_prefixed (fun _ => give v) (fun _ => give v) (fun _ => []))|reflexivity|].
  - intros n. apply Can_give. reflexivity.
  - intros n l w rest _ _ G. injection G as <- <-. split; reflexivity.
  - intros l. apply andthen_ext; [reflexivity|]. intros n l1. symmetry. apply exactly_give.
Qed.
Lemma Can_prefixed_some : Can (let* n := dec_length in some_bytes n) (let* n := strict_length in some_bytes n) enc_prefixed.
Proof.
  eapply Can_ext; [apply (Can_prefixed (fun n => some_bytes n) (fun n => some_bytes n) (fun l => l))|reflexivity|].
  - intros n. apply Can_some.
  - intros n l w rest _ Hn G. apply some_bytes_inv in G as [-> L]. split; [lia|]. intros r. apply some_app. lia.
  - intros l. apply andthen_ext; [reflexivity|]. intros n l1. symmetry. apply exactly_some.
Qed.
Lemma Can_prefixed_file {E : Env} id : Can (let* n := dec_length in dec_file id n)
  (let* n := strict_length in exactly n (strict_file id n)) (fun f => enc_prefixed (enc_file f)).
Proof.
  apply Can_prefixed; [intros n; apply Can_file|]. intros n l f rest Hl Hn H.
  pose proof (Can_file id n l Hl) as C. rewrite H in C. destruct C as (_ & t & T & R & _). cbn [app] in T. subst t.
  destruct (Post_file id n l f rest Hl H) as [[P|(l' & -> & P)] _].
  - assert (L : (length (enc_file f) <= 800)%nat) by (destruct f; try exact P; contradiction).
    split; [change (2 ^ 30) with 1073741824; lia|]. intros r. specialize (R r). revert R.
    generalize (N.of_nat (length (enc_file f))). intros m. unfold dec_file.
    repeat (match goal with |- context [if ?c then _ else _] => destruct c; [exact (fun H => H)|] end).
    unfold andthen, give. intros R. exfalso. destruct (some_bytes n _) as [[x y]|]; [|discriminate].
    injection R as <- _. exact P.
  - cbn [enc_file] in *. rewrite P, N2Nat.id. split; [exact Hn|exact R].
Qed.
Lemma state_short n : Post (dec_nls_state n) (fun s => (length (enc_nls_state s) <= 5)%nat).
Proof. destruct n; cbn [dec_nls_state]; post; cbn [enc_nls_state]; rewrite ?Hx; cbn; lia. Qed.
Lemma addressee_short {E : Env} : Post dec_addressee (fun a => (length (enc_addressee a) <= 15)%nat).
Proof.
  unfold dec_addressee.
  eapply Post_bind; [apply Post_one|]. intros c _. eapply Post_bind; [apply Post_named|]. intros t _.
  eapply Post_bind with (P := fun _ => True). { destruct e_feat; first [apply Post_named | apply Post_give; exact I]. } intros g _.
  eapply Post_bind; [apply Post_named|]. intros n _. eapply Post_bind; [apply Post_one|]. intros k _.
  eapply Post_bind; [eapply Post_true; apply Can_address|]. intros a _. eapply Post_bind; [apply state_short|].
  intros s Hs. apply Post_give. unfold enc_addressee. cbn [length ad_address ad_state]. rewrite app_length.
  pose proof (address_size a). cbv beta in Hs. lia.
Qed.
Lemma dash7_status_short {E : Env} : Post dec_dash7_status (fun s => (length (enc_dash7_status s) <= 30)%nat).
Proof.
  unfold dec_dash7_status. post. eapply Post_bind; [apply addressee_short|]. intros a Ha. cbv beta in Ha. apply Post_give.
  unfold enc_dash7_status. cbn [ds_channel ds_timeout ds_addressee]. rewrite !app_length, enc_channel_size.
  unfold enc_varint. cbn [length]. lia.
Qed.
Lemma Can_prefixed_dash7 {E : Env} : Can (let* n := dec_length in dec_dash7_status)
  (let* n := strict_length in exactly n strict_dash7_status) (fun s => enc_prefixed (enc_dash7_status s)).
Proof.
  apply (Can_prefixed (fun _ => dec_dash7_status) (fun _ => strict_dash7_status)); [intros n; apply Can_dash7_status|].
  intros n l s rest Hl Hn H. destruct (dash7_status_short l s rest Hl H) as [L _].
  split; [change (2 ^ 30) with 1073741824; lia|]. pose proof (Can_dash7_status l Hl) as C. rewrite H in C.
  destruct C as (_ & t & T & R & _). cbn [app] in T. subst t. exact R.
Qed.
Lemma Can_prefixed_final : Can (let* n := dec_length in dec_final)
  (let* n := strict_length in exactly n dec_final) (fun c => enc_prefixed [code_final c]).
Proof.
  apply (Can_prefixed (fun _ => dec_final) (fun _ => dec_final) (fun c => [code_final c])); [intros n; apply Can_final|].
  intros n l s rest Hl Hn H. split; [reflexivity|]. pose proof (Can_final l Hl) as C. rewrite H in C.
  destruct C as (_ & t & T & R & _). cbn [app] in T. subst t. exact R.
Qed.
Lemma exactly_final n l : exactly n dec_final l = (let* c := dec_final in only (n =? 1) (give c)) l.
Proof.
  unfold exactly, andthen, only, give, reject. destruct (dec_final l) as [[c rest]|] eqn:H; [|reflexivity].
  unfold dec_final, andthen, one, named in H. destruct l as [|b l]; [discriminate|].
  assert (R : rest = l) by (destruct (find _ all_final); [injection H as _ ->; reflexivity|discriminate]). subst rest.
  cbn [length]. destruct (N.eqb_spec n 1); destruct (N.eqb_spec (N.of_nat (S (length l))) (N.of_nat (length l) + n));
    try lia; reflexivity.
Qed.

(** ** The last piece of an action need not be read back *)
Definition Ends {E : Env} (l t rest : list N) : Prop :=
  forall s, l = t ++ s -> s = rest \/ e_rewind = false /\ (length rest < length s)%nat.
Lemma Ends_cons {E : Env} b w l t rest : Ends l t rest -> Ends (b :: l) (w :: t) rest.
Proof. intros H s G. injection G as _ G. exact (H s G). Qed.
Definition FinP {E : Env} {A} (pre : list N) (D S : dec A) (e : A -> list N) : Prop := forall l, bytes l ->
  match D l with
  | Some (v, rest) => exists t, e v = pre ++ t /\ Ends l t rest /\
      (S l = Some (v, rest) /\ l = t ++ rest \/ S l = None /\ l <> t ++ rest)
  | None => S l = None
  end.
Lemma Can_Fin {E : Env} {A} pre (D S : dec A) e : CanP pre D S e -> FinP pre D S e.
Proof.
  intros H l Hl. specialize (H l Hl). destruct (D l) as [[v rest]|] eqn:ED; [|exact H].
  destruct H as (_ & t & T & R & C). exists t. split; [exact T|]. split; [|exact C].
  intros s G. left. specialize (R s). rewrite <- G in R. congruence.
Qed.
Lemma Fin_ext {E : Env} {A} pre (D D' S S' : dec A) e : FinP pre D S e -> (forall l, D' l = D l) -> (forall l, S' l = S l) -> FinP pre D' S' e.
Proof. intros H HD HS l Hl. rewrite HD, HS. exact (H l Hl). Qed.
Lemma Fin_map {E : Env} {A B} pre (D S : dec A) e (f : A -> B) e' : FinP [] D S e -> (forall x, e' (f x) = pre ++ e x) ->
  FinP pre (let* x := D in give (f x)) (let* x := S in give (f x)) e'.
Proof.
  intros H He l Hl. specialize (H l Hl). unfold andthen, give. destruct (D l) as [[v rest]|]; [|rewrite H; reflexivity].
  destruct H as (t & T & N1 & C). cbn [app] in T. subst t. exists (e v). split; [apply He|]. split; [exact N1|].
  destruct C as [(-> & C)|(-> & C)]; [left|right]; split; (reflexivity || exact C).
Qed.
Lemma Fin_byte {E : Env} {B} pre (K K' : N -> dec B) e :
  (forall b, b < 256 -> FinP (pre ++ [b]) (K b) (K' b) e) -> FinP pre (andthen one K) (andthen one K') e.
Proof.
  intros H l Hl. unfold andthen, one. destruct l as [|b l]; [reflexivity|].
  apply Forall_cons_iff in Hl as [Hb Hl]. specialize (H b Hb l Hl). destruct (K b l) as [[v rest]|]; [|exact H].
  destruct H as (t & T & N1 & C). exists (b :: t). split; [rewrite T, <- app_assoc; reflexivity|].
  split; [apply Ends_cons; exact N1|].
  destruct C as [(-> & C)|(-> & C)]; [left|right]; (split; [reflexivity|]); cbn [app].
  - rewrite C. reflexivity.
  - intros G. injection G as G. auto.
Qed.
Lemma Fin_named {E : Env} {A B} pre code all c (K K' : A -> dec B) e :
  (forall x, code x = c -> FinP pre (K x) (K' x) e) ->
  FinP pre (andthen (named code all c) K) (andthen (named code all c) K') e.
Proof.
  intros H. unfold named. destruct (find _ all) as [x|] eqn:F.
  - apply find_some in F as [_ F]. apply N.eqb_eq in F. exact (H x F).
  - intros l _. reflexivity.
Qed.

Lemma Can_pre {A} pre (D S : dec A) e1 e : Can D S e1 ->
  (forall l v rest, D l = Some (v, rest) -> e v = pre ++ e1 v) -> CanP pre D S e.
Proof.
  intros H He l Hl. specialize (H l Hl). destruct (D l) as [[v rest]|] eqn:G; [|exact H].
  destruct H as (B & t & T & H). cbn [app] in T. subst t. split; [exact B|]. exists (e1 v).
  split; [eapply He; exact G|exact H].
Qed.

(** ** status *)
Definition enc_itf {E : Env} (i : itf_status_op) : list N :=
  code_itf_type (iso_type i) ++ enc_prefixed (enc_interface_status (iso_status i)).
Definition known_d {E : Env} (i : N) : dec itf_status_op :=
  if i =? 0 then let* n := dec_length in give (mkItfStatusOp ItHost IsHost)
  else if i =? 1 then let* n := dec_length in give (mkItfStatusOp ItSerial IsSerial)
  else if i =? 0xD7 then let* n := dec_length in let* s := dec_dash7_status in give (mkItfStatusOp ItDash7 (IsDash7 s))
  else reject.
Definition known_s {E : Env} (i : N) : dec itf_status_op :=
  if i =? 0 then let* n := strict_length in only (n =? 0) (give (mkItfStatusOp ItHost IsHost))
  else if i =? 1 then let* n := strict_length in only (n =? 0) (give (mkItfStatusOp ItSerial IsSerial))
  else if i =? 0xD7 then
   let* n := strict_length in let* s := exactly n strict_dash7_status in give (mkItfStatusOp ItDash7 (IsDash7 s))
  else reject.
Lemma Can_known {E : Env} : Can (let* i := one in known_d i) (let* i := one in known_s i) enc_itf.
Proof.
  apply Can_byte. intros j _. unfold known_d, known_s.
  assert (G : forall v, enc_itf v = [j] ++ enc_prefixed [] ->
    CanP [j] (let* n := dec_length in give v) (let* n := strict_length in only (n =? 0) (give v)) enc_itf).
  { intros v Hv. eapply Can_pre; [apply Can_prefixed_give|]. intros l x rest H. unfold andthen, give in H.
    destruct (dec_length l) as [[n l1]|]; [|discriminate]. injection H as <- _. exact Hv. }
  choose j 0 J0; [apply G; reflexivity|]. choose j 1 J1; [apply G; reflexivity|].
  choose j 0xD7 J2; [|apply Can_reject; reflexivity].
  eapply Can_ext; [apply (Can_tail _ _ _ _ (fun s => mkItfStatusOp ItDash7 (IsDash7 s)) _ Can_prefixed_dash7)
    |intros; apply andthen_assoc|intros; apply andthen_assoc].
  reflexivity.
Qed.
Lemma Fin_itf_status {E : Env} : FinP [] dec_itf_status strict_itf_status enc_itf.
Proof.
  intros l Hl. destruct l as [|i l]; [reflexivity|].
  pose proof (Can_Fin _ _ _ _ Can_known (i :: l) Hl) as K.
  change ((let* i := one in known_d i) (i :: l)) with (known_d i l) in K.
  change ((let* i := one in known_s i) (i :: l)) with (known_s i l) in K.
  set (ud := let* n := dec_length in let* p := some_bytes n in give (mkItfStatusOp ItUnknown (IsOther p))).
  set (us := let* n := strict_length in let* p := some_bytes n in give (mkItfStatusOp ItUnknown (IsOther p))).
  assert (ED : dec_itf_status (i :: l) =
    if (i =? 0) || (i =? 1) || (i =? 0xD7) || (i =? 2) || (i =? 3) then known_d i l
    else ud (if e_rewind then i :: l else l)).
  { unfold known_d, dec_itf_status, andthen at 1, one.
    destruct (i =? 0); [reflexivity|]. destruct (i =? 1); [reflexivity|]. destruct (i =? 0xD7); [reflexivity|].
    cbn [orb]. destruct ((i =? 2) || (i =? 3)); reflexivity. }
  assert (ES : strict_itf_status (i :: l) =
    if (i =? 0) || (i =? 1) || (i =? 0xD7) || (i =? 2) || (i =? 3) then known_s i l
    else only e_rewind us (i :: l)).
  { unfold known_s, strict_itf_status, andthen at 1, one.
    destruct (i =? 0); [reflexivity|]. destruct (i =? 1); [reflexivity|]. destruct (i =? 0xD7); [reflexivity|].
    cbn [orb]. destruct ((i =? 2) || (i =? 3)); reflexivity. }
  rewrite ED, ES. destruct (_ || _); [exact K|]. clear K ED ES.
  assert (U : Can ud us enc_itf).
  { eapply Can_ext; [apply (Can_tail [] _ _ _ (fun p => mkItfStatusOp ItUnknown (IsOther p)) enc_itf Can_prefixed_some); reflexivity
      |intros; apply andthen_assoc|intros; apply andthen_assoc]. }
  destruct e_rewind eqn:ER.
  - exact (Can_Fin _ _ _ _ U (i :: l) Hl).
  - apply Forall_cons_iff in Hl as [_ Hl]. cbn [only]. unfold reject. unfold ud, andthen, give.
    destruct (dec_length l) as [[n l1]|] eqn:E1; [|reflexivity].
    destruct (some_bytes n l1) as [[p rest]|] eqn:E2; [|reflexivity]. eexists. split; [reflexivity|].
    cbn [iso_type code_itf_type iso_status enc_interface_status app]. unfold enc_prefixed.
    pose proof (dec_length_min l n l1 Hl E1) as M. apply some_bytes_inv in E2 as [-> L]. split.
    { intros s G. right. split; [exact ER|]. apply (f_equal (@List.length N)) in G. cbn [length] in G. rewrite !app_length in G. rewrite app_length in M.
      replace (N.of_nat (length p)) with n in G by lia. lia. }
    right. split; [reflexivity|]. intros G. apply (f_equal (@List.length N)) in G. cbn [length] in G. rewrite !app_length in G. rewrite app_length in M.
    replace (N.of_nat (length p)) with n in G by lia. lia.
Qed.
Lemma Can_itf_final : Can dec_itf_final strict_itf_final (fun f => ifo_id f :: enc_prefixed (enc_interface_final (ifo_status f))).
Proof.
  apply Can_byte. intros i _. choose i 0xD7 J.
  - eapply Can_ext; [apply (Can_tail _ _ _ _ (fun c => mkItfFinalOp 0xD7 (FinDash7 c)) _ Can_prefixed_final); reflexivity
      |intros; apply andthen_assoc|].
    intros l. rewrite <- andthen_assoc. apply andthen_ext; [reflexivity|]. intros n l1. unfold andthen at 2. rewrite exactly_final.
    unfold andthen, only, give, reject. destruct (dec_final l1) as [[c r]|]; [|reflexivity]. destruct (n =? 1); reflexivity.
  - eapply Can_ext; [apply (Can_tail _ _ _ _ (fun c => mkItfFinalOp i (FinOther c)) _ Can_prefixed_some); reflexivity
      |intros; apply andthen_assoc|intros; apply andthen_assoc].
Qed.
Lemma Fin_status {E : Env} k : FinP [] (dec_status k) (strict_status k) enc_status.
Proof.
  unfold dec_status, strict_status, dec_status. choose k 0 J0.
  { cbn [N.eqb]. apply Can_Fin. apply Can_byte. intros a _. apply Can_byte. intros s _. apply Can_give. reflexivity. }
  choose k 1 J1. { eapply Fin_map; [apply Fin_itf_status|]. reflexivity. }
  choose k 2 J2; [|intros l _; reflexivity].
  destruct e_feat; try (intros l _; reflexivity). apply Can_Fin. eapply Can_tail; [apply Can_itf_final|]. reflexivity.
Qed.
