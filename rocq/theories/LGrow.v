(** Lemmas for C75: how many bytes are taken for a value and how many are written for it. *)
From Coq Require Import List NArith ZArith Bool Lia ZifyBool ZifyNat ZifyN Arith.
From Verif Require Import Base Deku Utils Types Physical Link Network Session Data Query
  Interface File Operation Action Command WellFormed SpecLayout SpecApi SpecAction SpecDecode SpecFail SpecGrow Position LBits LReader
  LNumbers LDecode LCanon LActionApi LCommandApi LLayout LFail LWrite LSize LDecodeLoop LPosition.
Import ListNotations.
Open Scope N_scope.

(** ** Sizes *)
Definition Min {A} (m : dec A) (s : A -> nat) : Prop := forall l v rest, bytes l -> m l = Some (v, rest) ->
  bytes rest /\ (s v + length rest <= length l)%nat.
Lemma then_inv {A B} (m : dec A) (k : A -> dec B) l y : andthen m k l = Some y ->
  exists x l1, m l = Some (x, l1) /\ k x l1 = Some y.
Proof. unfold andthen. destruct (m l) as [[x l1]|]; [|discriminate]. eauto. Qed.
Lemma min_one : Min one (fun _ => 1%nat).
Proof. intros [|b l] v rest H G; [discriminate|]. injection G as <- <-. inversion H. cbn [length]. split; [assumption|lia]. Qed.
Lemma take_some n l v rest : bytes l -> some_bytes n l = Some (v, rest) ->
  bytes rest /\ bytes v /\ length v = N.to_nat n /\ length l = (N.to_nat n + length rest)%nat.
Proof.
  intros H G. apply some_bytes_inv in G as (-> & L). apply Forall_app in H as (H1 & H2).
  rewrite app_length. repeat split; try assumption. lia.
Qed.
Lemma min_some n : Min (some_bytes n) (fun v => length v).
Proof. intros l v rest H G. apply take_some in G as (G1 & _ & G3 & G4); [|exact H]. split; [exact G1|]. lia. Qed.
Lemma min_some_n n : Min (some_bytes n) (fun _ => N.to_nat n).
Proof. intros l v rest H G. apply take_some in G as (G1 & _ & G3 & G4); [|exact H]. split; [exact G1|]. lia. Qed.
Lemma min_num n : Min (num n) (fun _ => N.to_nat n).
Proof. intros l v rest H G. apply then_inv in G as (x & l1 & G1 & G2). injection G2 as _ <-. exact (min_some_n n l x l1 H G1). Qed.
Lemma min_host {E : Env} n : Min (host_num n) (fun _ => N.to_nat n).
Proof. intros l v rest H G. apply then_inv in G as (x & l1 & G1 & G2). injection G2 as _ <-. exact (min_some_n n l x l1 H G1). Qed.
Lemma min_signed : Min signed (fun _ => 1%nat).
Proof. intros l v rest H G. apply then_inv in G as (x & l1 & G1 & G2). injection G2 as _ <-. exact (min_one l x l1 H G1). Qed.
Lemma min_named {A} code (all : list A) c : Min (named code all c) (fun _ => 0%nat).
Proof. intros l v rest H G. unfold named in G. destruct (find _ all); [|discriminate]. injection G as _ <-. split; [exact H|lia]. Qed.
Lemma min_times {A} (m : dec A) k n : Min m (fun _ => k) -> Min (times n m) (fun v => (k * length v)%nat).
Proof.
  intros Hm. induction n as [|n IH]; intros l v rest H G; cbn [times] in G.
  - injection G as <- <-. cbn [length]. split; [exact H|lia].
  - apply then_inv in G as (x & l1 & G1 & G2). apply then_inv in G2 as (xs & l2 & G2 & G3). injection G3 as <- <-.
    destruct (Hm _ _ _ H G1) as (H1 & L1). destruct (IH _ _ _ H1 G2) as (H2 & L2). cbn [length]. split; [exact H2|lia].
Qed.
Lemma times_length {A} (m : dec A) n : forall l v rest, times n m l = Some (v, rest) -> length v = n.
Proof.
  induction n as [|n IH]; intros l v rest G; cbn [times] in G.
  - injection G as <- _. reflexivity.
  - apply then_inv in G as (x & l1 & G1 & G2). apply then_inv in G2 as (xs & l2 & G2 & G3). injection G3 as <- _.
    cbn [length]. f_equal. eauto.
Qed.
Lemma length_small v k : v < 64 * 256 ^ N.of_nat k -> (k <= 3)%nat -> (length_size v <= 1 + k)%nat /\ v < 2 ^ 30.
Proof.
  intros H K. unfold length_size. change (2 ^ 6) with 64. change (2 ^ 14) with 16384. change (2 ^ 22) with 4194304. change (2 ^ 30) with 1073741824.
  destruct k as [|[|[|[|k]]]]; [change (256 ^ N.of_nat 0) with 1 in H|change (256 ^ N.of_nat 1) with 256 in H|change (256 ^ N.of_nat 2) with 65536 in H|change (256 ^ N.of_nat 3) with 16777216 in H|lia];
  destruct (N.ltb_spec v 64), (N.ltb_spec v 16384), (N.ltb_spec v 4194304); lia.
Qed.
Lemma take_length l v rest : bytes l -> dec_length l = Some (v, rest) ->
  bytes rest /\ (length_size v + length rest <= length l)%nat /\ v < 2 ^ 30.
Proof.
  intros H G. destruct l as [|b l]; [discriminate|]. rewrite dec_length_cons in G. inversion H as [|? ? Hb Hl]; subst.
  destruct (some_bytes (b / 64) l) as [[t r]|] eqn:Q; [|discriminate]. injection G as <- <-.
  apply take_some in Q as (Q1 & Q2 & Q3 & Q4); [|exact Hl]. pose proof (N_of_be_lt t Q2) as B. rewrite Q3 in B.
  unfold byte in Hb. split; [exact Q1|]. cbn [length].
  assert (K : b / 64 <= 3) by divlia. assert (M : b mod 64 < 64) by divlia.
  destruct (length_small (b mod 64 * 256 ^ (b / 64) + N_of_be t) (N.to_nat (b / 64))) as (L1 & L2); [|lia|].
  - rewrite N2Nat.id in *. set (q := 256 ^ (b / 64)) in *. nia.
  - split; [lia|exact L2].
Qed.
Lemma min_length : Min dec_length length_size.
Proof. intros l v rest H G. destruct (take_length _ _ _ H G) as (H1 & H2 & _). auto. Qed.
Lemma length_one n : (1 <= length_size n <= 4)%nat.
Proof. unfold length_size. destruct (n <? 2 ^ 6), (n <? 2 ^ 14), (n <? 2 ^ 22); lia. Qed.

(** Take a decoder apart: one hypothesis about bytes and one about lengths for every piece. *)
Create HintDb mins.
#[export] Hint Resolve min_one min_some min_num min_host min_signed min_named min_length : mins.
Ltac piece G :=
  match type of G with
  | ?m ?l = Some (?x, ?l1) =>
      let H := match goal with H : bytes l |- _ => H end in
      let P := fresh in let s := open_constr:(_) in
      assert (P : Min m s) by eauto with mins; cbv beta in P;
      let B := fresh "B" in let L := fresh "L" in
      destruct (P _ _ _ H G) as (B & L); clear P; cbv beta in L
  end.
Ltac run G :=
  cbv beta zeta in G;
  lazymatch type of G with
  | andthen _ _ _ = Some _ =>
      let x := fresh "x" in let l := fresh "l" in let Q := fresh "Q" in
      apply then_inv in G as (x & l & Q & G); piece Q; run G
  | give _ _ = Some _ => injection G as <- <-
  | reject _ = Some _ => discriminate G
  | (if ?c then _ else _) _ = Some _ => destruct c eqn:?; run G
  | _ => piece G
  end.
Ltac fin := cbv beta; split; [assumption|]; lia.
Ltac mins := intros ll vv rr HH GG; run GG; fin.

(** ** Types *)
Lemma min_varint : Min dec_varint (fun _ => 1%nat). Proof. unfold dec_varint. mins. Qed.
#[export] Hint Resolve min_varint : mins.
Lemma min_file_offset : Min dec_file_offset offset_size.
Proof. unfold dec_file_offset. intros ll vv rr HH GG. run GG. unfold offset_size. cbn [fo_offset]. fin. Qed.
Lemma min_channel_header : Min dec_channel_header (fun _ => 1%nat). Proof. unfold dec_channel_header. mins. Qed.
#[export] Hint Resolve min_file_offset min_channel_header : mins.
Lemma min_channel : Min dec_channel (fun _ => 3%nat). Proof. unfold dec_channel. mins. Qed.
Lemma min_channel_status : Min dec_channel_status (fun _ => 3%nat). Proof. unfold dec_channel_status. mins. Qed.
Lemma min_sub_band : Min dec_sub_band (fun _ => 7%nat). Proof. unfold dec_sub_band. mins. Qed.
Lemma min_sub_profile : Min dec_sub_profile (fun _ => 2%nat). Proof. unfold dec_sub_profile. mins. Qed.
#[export] Hint Resolve min_channel min_channel_status min_sub_band min_sub_profile min_times : mins.
Lemma min_access_profile : Min dec_access_profile (fun p => (1 + 2 * length (ap_sub_profiles p) + 7 * length (ap_sub_bands p))%nat).
Proof. unfold dec_access_profile. intros ll vv rr HH GG. run GG. cbn [ap_sub_profiles ap_sub_bands]. fin. Qed.
Lemma min_address t : Min (dec_address t) address_size.
Proof. destruct t; cbn [dec_address]; intros ll vv rr HH GG; run GG; cbn [address_size]; fin. Qed.
Lemma min_nls_state m : Min (dec_nls_state m) state_size.
Proof. destruct m; cbn [dec_nls_state]; intros ll vv rr HH GG; run GG; cbn [state_size]; fin. Qed.
#[export] Hint Resolve min_access_profile min_address min_nls_state : mins.
Lemma state_small m l v rest : bytes l -> dec_nls_state m l = Some (v, rest) -> (state_size v <= 5)%nat.
Proof.
  destruct m; cbn [dec_nls_state]; intros HH GG; try (injection GG as <- _; cbn [state_size]; lia);
  apply then_inv in GG as (x & l1 & Q & GG); injection GG as <- _; apply take_some in Q as (_ & _ & Q & _); try exact HH;
  cbn [state_size]; lia.
Qed.
Lemma address_small a : (address_size a <= 8)%nat. Proof. destruct a; cbn [address_size]; lia. Qed.
Lemma min_group {E : Env} c : Min (match e_feat with
            | Wizzilab => named code_group [GcAny; GcNotEqual; GcEqual; GcGreaterThan] (part 6 2 c)
            | _ => give GcAny
            end) (fun _ => 0%nat).
Proof. destruct e_feat; intros ll vv rr HH GG; run GG; fin. Qed.
#[export] Hint Resolve min_group : mins.
Lemma min_addressee {E : Env} : Min dec_addressee addressee_size.
Proof. unfold dec_addressee. intros ll vv rr HH GG. run GG. unfold addressee_size. cbn [ad_address ad_state]. fin. Qed.
#[export] Hint Resolve min_addressee : mins.
Lemma addressee_small {E : Env} l v rest : bytes l -> dec_addressee l = Some (v, rest) -> (addressee_size v <= 15)%nat.
Proof.
  intros HH GG. unfold dec_addressee in GG. run GG. unfold addressee_size. cbn [ad_address ad_state].
  match goal with Q : dec_nls_state _ _ = Some _ |- _ => apply state_small in Q; [|assumption] end.
  match goal with |- context [address_size ?a] => pose proof (address_small a) end. lia.
Qed.
Lemma min_qos : Min dec_qos (fun _ => 1%nat). Proof. unfold dec_qos. mins. Qed.
Lemma min_final : Min dec_final (fun _ => 1%nat). Proof. unfold dec_final. mins. Qed.
#[export] Hint Resolve min_qos min_final : mins.
Lemma min_dash7_status {E : Env} : Min dec_dash7_status (fun v => (10 + addressee_size (ds_addressee v))%nat).
Proof. unfold dec_dash7_status. intros ll vv rr HH GG. run GG. cbn [ds_addressee]. fin. Qed.
Lemma dash7_status_small {E : Env} l v rest : bytes l -> dec_dash7_status l = Some (v, rest) -> (10 + addressee_size (ds_addressee v) <= 25)%nat.
Proof.
  intros HH GG. unfold dec_dash7_status in GG. run GG. cbn [ds_addressee].
  match goal with Q : dec_addressee _ = Some _ |- _ => apply addressee_small in Q; [|assumption] end. lia.
Qed.
Lemma min_dash7_tx {E : Env} : Min dec_dash7_tx (fun v => (12 + addressee_size (tx_addressee v))%nat).
Proof. unfold dec_dash7_tx. intros ll vv rr HH GG. run GG. cbn [tx_addressee].
  repeat match goal with Q : some_bytes _ _ = Some _ |- _ => apply take_some in Q as (_ & _ & Q & _); [|assumption] end. fin. Qed.
Lemma dash7_tx_small {E : Env} l v rest : bytes l -> dec_dash7_tx l = Some (v, rest) -> (12 + addressee_size (tx_addressee v) <= 27)%nat.
Proof.
  intros HH GG. unfold dec_dash7_tx in GG. run GG. cbn [tx_addressee].
  match goal with Q : dec_addressee _ = Some _ |- _ => apply addressee_small in Q; [|assumption] end. lia.
Qed.
Lemma min_file_header : Min dec_file_header (fun _ => 12%nat). Proof. unfold dec_file_header. mins. Qed.
#[export] Hint Resolve min_dash7_status min_dash7_tx min_file_header : mins.
Lemma min_when c m : Min m (fun v => length v) -> Min (when c m) (fun v => length v).
Proof. intros H. destruct c; cbn [when]; [exact H|]. intros ll vv rr HH GG. run GG. cbn [length]. fin. Qed.
#[export] Hint Resolve min_when : mins.
Lemma min_query : Min dec_query query_size.
Proof.
  unfold dec_query. intros ll vv rr HH GG. run GG; unfold query_size;
  cbn [nv_length nv_file cz_length cz_mask cz_file cv_length cv_mask cv_value cv_file co_length co_mask co_file1 co_file2
       br_length br_start br_stop br_mask br_file ss_length ss_mask ss_value ss_file]; fin.
Qed.
Lemma min_exec {E : Env} : Min (match e_feat with Subiot => give (mkVarInt 0 false) | _ => dec_varint end)
  (fun _ => match e_feat with Subiot => 0 | _ => 1 end)%nat.
Proof. destruct e_feat; intros ll vv rr HH GG; run GG; fin. Qed.
#[export] Hint Resolve min_query min_exec : mins.
Lemma min_dash7_config {E : Env} : Min dec_dash7_config
  (fun c => (2 + (match e_feat with Subiot => 0 | _ => 1 end) + addressee_size (dc_addressee c))%nat).
Proof. unfold dec_dash7_config. intros ll vv rr HH GG. run GG. cbn [dc_addressee]. fin. Qed.
Lemma min_lorawan : Min dec_lorawan (fun _ => 3%nat). Proof. unfold dec_lorawan. mins. Qed.
#[export] Hint Resolve min_dash7_config min_lorawan : mins.
Lemma min_interface_config {E : Env} : Min dec_interface_config interface_config_size.
Proof.
  unfold dec_interface_config. intros ll vv rr HH GG. run GG; unfold interface_config_size;
  cbn [ab_nwk_key ab_app_key ot_dev_eui ot_app_eui ot_app_key]; fin.
Qed.
Lemma min_indirect {E : Env} : Min dec_indirect_interface (fun c => match c with IiDash7 a => 1 + addressee_size a | _ => 1 end)%nat.
Proof. unfold dec_indirect_interface. intros ll vv rr HH GG. run GG; fin. Qed.
#[export] Hint Resolve min_interface_config min_indirect : mins.
Lemma min_text n : Min (text n) (fun _ => N.to_nat n).
Proof.
  unfold text. intros ll vv rr HH GG. apply then_inv in GG as (x & l1 & Q & GG). apply take_some in Q as (B & _ & Q1 & Q2); [|exact HH].
  destruct (utf8_valid x); [|discriminate]. injection GG as _ <-. split; [exact B|lia].
Qed.
#[export] Hint Resolve min_text : mins.
(** A file, and the number in front of it. *)
Lemma min_file {E : Env} id n : Min (dec_file id n) file_size.
Proof.
  unfold dec_file. intros ll vv rr HH GG.
  run GG; cbn [file_size address_size ps_channels ap_sub_profiles ap_sub_bands]; try fin.
  all: repeat match goal with Q : some_bytes _ _ = Some _ |- _ => apply take_some in Q as (_ & _ & Q & _); [|assumption] end; try fin.
Qed.
#[export] Hint Resolve min_file : mins.
Lemma size_1 k : (k < 64)%nat -> length_size (N.of_nat k mod 2 ^ 32) = 1%nat.
Proof. intros H. rewrite N.mod_small by lia. unfold length_size. destruct (N.ltb_spec (N.of_nat k) (2 ^ 6)); lia. Qed.
Lemma size_2 k : N.of_nat k < 2 ^ 14 -> (length_size (N.of_nat k mod 2 ^ 32) <= 2)%nat.
Proof.
  intros H. rewrite N.mod_small by lia. unfold length_size.
  destruct (N.ltb_spec (N.of_nat k) (2 ^ 6)), (N.ltb_spec (N.of_nat k) (2 ^ 14)); lia.
Qed.
Lemma size_same k n : k = N.to_nat n -> n < 2 ^ 30 -> length_size (N.of_nat k mod 2 ^ 32) = length_size n.
Proof. intros -> H. rewrite N2Nat.id, N.mod_small by lia. reflexivity. Qed.
Lemma one_byte l b l1 : bytes l -> one l = Some (b, l1) -> b < 256.
Proof. destruct l; intros H G; [discriminate|]. injection G as <- _. inversion H. assumption. Qed.
Lemma file_prefix {E : Env} id n l f rest : bytes l -> n < 2 ^ 30 -> dec_file id n l = Some (f, rest) ->
  (length_size (N.of_nat (file_size f) mod 2 ^ 32) <= length_size n + if big_file f then 1 else 0)%nat.
Proof.
  intros HH Hn GG. pose proof (length_one n) as O. unfold dec_file in GG.
  run GG; cbn [file_size address_size ps_channels big_file];
  try (rewrite size_1 by lia; lia).
  - apply one_byte in Q3; [|exact B2]. apply times_length in Q4.
    destruct (Nat.leb_spec 17 (length x4)); [|rewrite size_1 by lia; lia].
    pose proof (size_2 (15 + 3 * length x4) ltac:(lia)). lia.
  - apply then_inv in Q as (h & m1 & _ & Q). apply then_inv in Q as (p & m2 & Q1 & Q). apply then_inv in Q as (b & m3 & Q2 & Q).
    injection Q as <- _. cbn [ap_sub_profiles ap_sub_bands]. apply times_length in Q1, Q2.
    match goal with |- context [N.of_nat ?k] => pose proof (size_2 k ltac:(lia)) end. lia.
  - apply take_some in Q as (_ & _ & Q & _); [|exact HH]. rewrite (size_same _ n Q Hn). lia.
Qed.
Lemma min_itf_status {E : Env} : Min dec_itf_status (fun i => itf_type_size (iso_type i) + prefixed_size (itf_status_size (iso_status i)))%nat.
Proof.
  unfold dec_itf_status. intros l v rest H G. cbv beta in G. apply then_inv in G as (i & l1 & Q & G).
  destruct (min_one _ _ _ H Q) as (B1 & L1). cbv beta in L1. unfold prefixed_size.
  repeat match type of G with (if ?c then _ else _) _ = _ => destruct c end.
  - run G. pose proof (length_one x). cbn [iso_type iso_status itf_type_size itf_status_size]. rewrite size_1 by lia. fin.
  - run G. pose proof (length_one x). cbn [iso_type iso_status itf_type_size itf_status_size]. rewrite size_1 by lia. fin.
  - run G. pose proof (length_one x). cbn [iso_type iso_status itf_type_size itf_status_size].
    match goal with Q : dec_dash7_status _ = Some _ |- _ => apply dash7_status_small in Q; [|assumption] end.
    rewrite size_1 by lia. fin.
  - discriminate G.
  - assert (K : forall m, bytes m -> (length m <= length l)%nat ->
      (let* n := dec_length in let* p := some_bytes n in give (mkItfStatusOp ItUnknown (IsOther p))) m = Some (v, rest) ->
      bytes rest /\ (itf_type_size (iso_type v) + (length_size (N.of_nat (itf_status_size (iso_status v)) mod 2 ^ 32) + itf_status_size (iso_status v))
        + length rest <= length l)%nat).
    { intros m Hm Lm K. apply then_inv in K as (n & m1 & K1 & K). apply then_inv in K as (p & m2 & K2 & K). injection K as <- <-.
      destruct (take_length _ _ _ Hm K1) as (C1 & C2 & C3). apply take_some in K2 as (D1 & D2 & D3 & D4); [|exact C1].
      cbn [iso_type iso_status itf_type_size itf_status_size]. rewrite (size_same _ n D3 C3). split; [exact D1|lia]. }
    destruct e_rewind; apply K in G; try exact G; try assumption; lia.
Qed.
Lemma min_itf_final : Min dec_itf_final (fun f => 1 + prefixed_size (final_size (ifo_status f)))%nat.
Proof.
  unfold dec_itf_final. intros l v rest H G. apply then_inv in G as (i & l1 & Q & G).
  destruct (min_one _ _ _ H Q) as (B1 & L1). cbv beta in L1. apply then_inv in G as (n & l2 & Q2 & G).
  destruct (take_length _ _ _ B1 Q2) as (B2 & L2 & Hn). pose proof (length_one n). unfold prefixed_size.
  destruct (i =? 0xD7).
  - run G. cbn [ifo_status final_size]. rewrite size_1 by lia. fin.
  - apply then_inv in G as (p & l3 & Q3 & G). injection G as <- <-. apply take_some in Q3 as (D1 & D2 & D3 & D4); [|exact B2].
    cbn [ifo_status final_size]. rewrite (size_same _ n D3 Hn). split; [exact D1|lia].
Qed.
#[export] Hint Resolve min_itf_status min_itf_final : mins.
Definition status_size {E : Env} (s : status) : nat :=
  match s with
  | StatusAction _ => 2
  | StatusInterface i => itf_type_size (iso_type i) + prefixed_size (itf_status_size (iso_status i))
  | StatusInterfaceFinal f => 1 + prefixed_size (final_size (ifo_status f))
  end.
Lemma min_status {E : Env} k : Min (dec_status k) status_size.
Proof.
  unfold dec_status. intros l v rest H G.
  repeat match type of G with (if ?c then _ else _) _ = _ => destruct c end.
  - run G. cbn [status_size]. fin.
  - run G. cbn [status_size]. fin.
  - destruct e_feat; run G. cbn [status_size]. fin.
  - discriminate G.
Qed.
#[export] Hint Resolve min_status : mins.
Lemma shifted_bytes l : bytes l -> bytes (shifted l) /\ length (shifted l) = (length l - 1)%nat.
Proof.
  induction l as [|a l IH]; intros H; [split; [constructor|reflexivity]|]. inversion H as [|? ? Ha Hl]; subst.
  destruct l as [|b l]; [split; [constructor|reflexivity]|]. destruct (IH Hl) as (I1 & I2).
  change (shifted (a :: b :: l)) with ((a mod 4 * 64 + b / 4) :: shifted (b :: l)). inversion Hl as [|? ? Hb _]; subst. unfold byte in *.
  split; [constructor; [unfold byte; divlia|exact I1]|]. cbn [length] in *. rewrite I2. lia.
Qed.
Lemma min_tx_body {E : Env} op : Min (dec_tx_body op) (fun v => 1 + prefixed_size (tx_size (txo_status v)))%nat.
Proof.
  unfold dec_tx_body. intros l v rest H G. apply then_inv in G as (i & l1 & Q & G).
  destruct (min_one _ _ _ H Q) as (B1 & L1). cbv beta in L1. apply then_inv in G as (n & l2 & Q2 & G).
  destruct (take_length _ _ _ B1 Q2) as (B2 & L2 & Hn). pose proof (length_one n). unfold prefixed_size.
  destruct (i =? 0xD7).
  - run G. cbn [txo_status tx_size]. match goal with Q : dec_dash7_tx _ = Some _ |- _ => apply dash7_tx_small in Q; [|assumption] end.
    rewrite size_1 by lia. fin.
  - apply then_inv in G as (p & l3 & Q3 & G). injection G as <- <-. apply take_some in Q3 as (D1 & D2 & D3 & D4); [|exact B2].
    cbn [txo_status tx_size]. rewrite (size_same _ n D3 Hn). split; [exact D1|lia].
Qed.
Lemma bytes_skipn k l : bytes l -> bytes (skipn k l).
Proof. intros H. rewrite <- (firstn_skipn k l) in H. apply Forall_app in H. apply H. Qed.
Lemma min_tx {E : Env} : Min dec_tx (fun v => 3 + prefixed_size (tx_size (txo_status v)))%nat.
Proof.
  unfold dec_tx. intros l v rest H G. destruct l as [|h [|o t]]; try discriminate.
  destruct (part 6 2 h =? 1); [|discriminate]. destruct (dec_tx_body _ _) as [[w r]|] eqn:Q; [|discriminate].
  injection G as <- <-. inversion H as [|? ? _ Ht]; subst. destruct (shifted_bytes (o :: t) Ht) as (S1 & S2).
  destruct (min_tx_body _ _ _ _ S1 Q) as (_ & L). cbv beta in L. rewrite S2 in L.
  split; [apply bytes_skipn; exact Ht|]. cbv beta. rewrite skipn_length. change (length (h :: o :: t)) with (S (length (o :: t))). assert (0 < length (o :: t))%nat by (apply Nat.lt_0_succ).
  match goal with |- context [(length (o :: t) - ?m)%nat] => change m with (length (o :: t) - length r)%nat end. lia.
Qed.
#[export] Hint Resolve min_tx : mins.
Lemma min_file_data {E : Env} c : (forall v, size_of (c v) = (1 + (offset_size (fd_offset v) + prefixed_size (file_size (fd_data v))))%nat) ->
  (forall v, swells (c v) = big_file (fd_data v)) ->
  forall l a rest, bytes l -> dec_file_data c l = Some (a, rest) ->
  bytes rest /\ (size_of a + length rest <= length l + if swells a then 1 else 0)%nat.
Proof.
  intros Hc Hs l a rest H G. unfold dec_file_data in G. apply then_inv in G as (b & l1 & Q & G).
  destruct (min_one _ _ _ H Q) as (B1 & L1). cbv beta in L1. apply then_inv in G as (o & l2 & Q2 & G).
  destruct (min_file_offset _ _ _ B1 Q2) as (B2 & L2). apply then_inv in G as (n & l3 & Q3 & G).
  destruct (take_length _ _ _ B2 Q3) as (B3 & L3 & Hn). apply then_inv in G as (f & l4 & Q4 & G). injection G as <- <-.
  destruct (min_file _ _ _ _ _ B3 Q4) as (B4 & L4). pose proof (file_prefix _ _ _ _ _ B3 Hn Q4) as P.
  rewrite Hc, Hs. cbn [fd_offset fd_data]. unfold prefixed_size. split; [exact B4|]. lia.
Qed.
Lemma operand_size {E : Env} op l a rest : bytes l -> dec_operand op l = Some (a, rest) ->
  bytes rest /\ (size_of a + (if is_tx_status a then 1 else 0) + length rest <= length l + if swells a then 1 else 0)%nat.
Proof.
  intros H G. unfold dec_operand in G.
  assert (D : forall c, (forall v, size_of (c v) = (1 + (offset_size (fd_offset v) + prefixed_size (file_size (fd_data v))))%nat) ->
    (forall v, swells (c v) = big_file (fd_data v)) -> (forall v, is_tx_status (c v) = false) -> dec_file_data c l = Some (a, rest) ->
    bytes rest /\ (size_of a + (if is_tx_status a then 1 else 0) + length rest <= length l + if swells a then 1 else 0)%nat).
  { intros c C1 C2 C3 G'. destruct (min_file_data c C1 C2 _ _ _ H G') as (Q1 & Q2). split; [exact Q1|].
    unfold dec_file_data in G'. repeat (apply then_inv in G' as (? & ? & _ & G')). injection G' as <- _. rewrite C3. lia. }
  repeat match type of G with (match ?x with _ => _ end) _ = _ => is_var x; destruct x end; try discriminate G.
  all: try (match type of G with dec_file_data ?c _ = _ => exact (D c (fun _ => eq_refl) (fun _ => eq_refl) (fun _ => eq_refl) G) end).
  all: clear D; unfold dec_nop, dec_file_id_op, dec_file_properties, dec_action_query in G.
  all: try solve [run G; unfold size_of; cbn [is_tx_status swells rf_offset rf_length aq_query prq_permission so_status fw_config if_config]; fin].
  1:destruct e_feat; try discriminate G.
  - apply then_inv in G as (x & l1 & Q & G). injection G as <- <-. apply min_tx in Q as (Q1 & Q2); [|exact H]. cbv beta in Q2.
    split; [exact Q1|]. unfold size_of. cbn [is_tx_status swells]. lia.
  - apply then_inv in G as (x & l1 & Q & G). apply min_one in Q as (Q1 & Q2); [|exact H]. cbv beta in Q2.
    apply then_inv in G as (t & l2 & Q & G). apply min_named in Q as (Q3 & Q4); [|exact Q1]. cbv beta in Q4.
    apply then_inv in G as (s & l3 & Q & G). apply min_status in Q as (Q5 & Q6); [|exact Q3]. injection G as <- <-.
    split; [exact Q5|]. unfold size_of, status_size in *. cbn [is_tx_status swells so_status]. lia.
Qed.

(** ** Actions and commands *)
Lemma is_tx_same a : is_tx a = is_tx_status a. Proof. destruct a; reflexivity. Qed.
Lemma action_grows {E : Env} d p n a q l : bytes d -> (p <= length d)%nat -> from_stream read_action d p 0 = Ok (n, a, q) ->
  action_to_bytes a = Ok l -> (length l <= q - p + if swells a then 1 else 0)%nat.
Proof.
  intros Hd Hp H W. pose proof (action_left d p Hd Hp) as A. destruct (dec_action (skipn p d)) as [[b rest]|] eqn:D.
  2:{ destruct A as (e & A). congruence. }
  destruct A as (L & A). rewrite A in H. injection H as _ <- <-. rewrite (written_size _ _ W).
  unfold dec_action in D. destruct (skipn p d) as [|x t] eqn:S; [discriminate|].
  apply operand_size in D as (_ & D); [|rewrite <- S; apply bytes_skipn; exact Hd]. rewrite <- S, skipn_length in D. lia.
Qed.
Definition total {E : Env} (c : list action) : nat := list_sum (map (fun a => size_of a + if is_tx_status a then 1 else 0)%nat c).
Lemma actions_size {E : Env} f : forall p l c rest, bytes l -> dec_actions f p l = Some (c, rest) ->
  (total c + length rest <= length l + length (filter swells c))%nat.
Proof.
  induction f as [|f IH]; intros p l c rest H G; cbn [dec_actions] in G.
  - destruct l; [|discriminate]. destruct p; [discriminate|]. injection G as <- <-. cbn. lia.
  - destruct l as [|b l]; [destruct p; [discriminate|]; injection G as <- <-; cbn; lia|].
    destruct (dec_operand _ _) as [[a r]|] eqn:D; [|discriminate]. apply operand_size in D as (D1 & D2); [|exact H].
    destruct (is_indirect a) eqn:I.
    + injection G as <- <-. unfold total. cbn [map list_sum fold_right filter]. destruct (swells a); cbn [length] in *; lia.
    + destruct (dec_actions f (is_tx a) r) as [[c' r']|] eqn:G'; [|discriminate]. injection G as <- <-. apply IH in G'; [|exact D1].
      unfold total in *. cbn [map list_sum fold_right filter]. fold (list_sum (map (fun a => size_of a + (if is_tx_status a then 1 else 0))%nat c')).
      destruct (swells a); cbn [length] in *; lia.
Qed.
Lemma bytes_of_bits_ceil l k : (length l <= 8 * k)%nat -> (length (bytes_of_bits l) <= k)%nat.
Proof.
  revert k. induction l as [l Hl|x l Hx IH] using octet_ind; intros k H.
  - destruct l as [|b1 [|b2 [|b3 [|b4 [|b5 [|b6 [|b7 [|b8 l]]]]]]]]; cbn [length bytes_of_bits] in *; lia.
  - rewrite bytes_of_bits_cons8 by assumption. rewrite app_length in H. specialize (IH (k - 1)%nat). cbn [length]. lia.
Qed.
Lemma command_total {E : Env} c l : command_to_bytes c = Ok l -> (length l <= total c)%nat.
Proof.
  intros H. destruct (Exists_dec unwritable c unwritable_dec) as [Q|Q]; [rewrite (command_fails c Q) in H; discriminate|].
  apply Forall_Exists_neg in Q. destruct (command_bits c Q) as (ls & F & W). unfold command_to_bytes, to_bytes in H. rewrite W in H.
  injection H as <-. apply bytes_of_bits_ceil. clear W. induction F as [|a b c' ls Ha F IH]; [cbn; lia|].
  inversion Q as [|? ? Q1 Q2]; subst. destruct (write_bits a Q1) as (b' & Hb & Lb). assert (b' = b) as -> by congruence.
  specialize (IH Q2). unfold total in *. cbn [concat map list_sum fold_right]. rewrite app_length, Lb.
  fold (list_sum (map (fun a => size_of a + (if is_tx_status a then 1 else 0))%nat c')). destruct a; cbn [odd_bits is_tx_status]; lia.
Qed.
Lemma command_grows {E : Env} d c l : bytes d -> command_try_from d = Ok c -> command_to_bytes c = Ok l ->
  (length l <= length d + length (filter swells c))%nat.
Proof.
  intros Hd H W. pose proof (decode_command_try_from d Hd) as A. destruct (dec_command d) as [[c' rest]|] eqn:D.
  2:{ destruct A as (e & A). congruence. }
  assert (c' = c) as -> by (destruct (Nat.leb _ _); congruence). apply command_total in W. apply actions_size in D; [|exact Hd]. lia.
Qed.

(** ** One byte more is possible for each of them. *)
Lemma file_any {E : Env} id n m l f rest : dec_file id n l = Some (f, rest) -> big_file f = true -> dec_file id m l = Some (f, rest).
Proof.
  unfold dec_file. intros H B.
  repeat match type of H with (if ?c then _ else _) _ = _ => destruct c; [exact H|] end.
  apply then_inv in H as (x & l1 & _ & H). injection H as <- <-. discriminate B.
Qed.
Lemma big_size b f : wf_file b f -> big_file f = true -> (64 <= file_size f)%nat /\ (file_size f < 1000)%nat.
Proof.
  intros W B. destruct f; try discriminate B; cbn [wf_file file_size big_file] in *.
  - destruct W as (_ & _ & P & _ & Q & _). lia.
  - destruct W as (_ & _ & _ & _ & _ & U & L & _). unfold u8 in U. apply Nat.leb_le in B. lia.
Qed.
(** The prefix replaced by a zero byte. *)
Definition short_form {E : Env} (op : N) (v : file_data) : list N :=
  hdr_byte (fd_header v) op :: enc_file_offset (fd_offset v) ++ 0 :: enc_file (fd_data v).
Lemma short_decodes {E : Env} op c v : (forall x y, c x = c y -> x = y) -> wf_file_data op v -> big_file (fd_data v) = true -> bytes (enc_file_data op v) ->
  dec_file_data c (enc_file_data op v) = Some (c v, []) ->
  bytes (short_form op v) /\ dec_file_data c (short_form op v) = Some (c v, []) /\
  (S (length (short_form op v)) <= length (enc_file_data op v))%nat.
Proof.
  intros Ci W B Hb G. destruct W as (_ & (Wi & Wo) & Wf). destruct (big_size _ _ Wf B) as (S1 & S2).
  unfold dec_file_data in *. unfold enc_file_data in *. apply Forall_cons_iff in Hb as (Hh & Hb). apply Forall_app in Hb as (Ho & Hb).
  unfold enc_prefixed in *. apply Forall_app in Hb as (Hl & Hf).
  assert (O : forall s, dec_file_offset (enc_file_offset (fd_offset v) ++ s) = Some (fd_offset v, s)).
  { intros s. unfold dec_file_offset, enc_file_offset. cbn [app]. unfold andthen at 1. cbn [one]. unfold andthen. rewrite dec_enc_length by exact Wo.
    destruct (fd_offset v); reflexivity. }
  unfold short_form. unfold andthen in G |- *. cbn [one] in G |- *. rewrite O in *.
  set (k := length (enc_file (fd_data v))) in *.
  assert (K : N.of_nat k < 2 ^ 30) by (apply enc_file_length with (b := fo_file_id (fd_offset v)); exact Wf).
  rewrite dec_enc_length in G by exact K.
  assert (Z : dec_length (0 :: enc_file (fd_data v)) = Some (0, enc_file (fd_data v))) by exact (dec_enc_length 0 _ eq_refl). rewrite Z.
  destruct (dec_file _ _ _) as [[f r]|] eqn:D; [|discriminate]. unfold give in G.
  assert (c (mkFileData (dec_header (hdr_byte (fd_header v) op)) (part 0 6 (hdr_byte (fd_header v) op)) (fd_offset v) f) = c v /\ r = []) as (Q1 & ->)
    by (split; congruence).
  apply Ci in Q1. assert (f = fd_data v) as -> by (rewrite <- Q1; reflexivity).
  rewrite (file_any _ _ 0 _ _ _ D B). unfold give. rewrite Q1. repeat split.
  - constructor; [exact Hh|]. apply Forall_app. split; [exact Ho|]. constructor; [reflexivity|exact Hf].
  - destruct (min_file _ _ _ _ _ Hf D) as (_ & L). cbn [length] in *. rewrite !app_length. cbn [length]. fold k in L |- *.
    assert (2 <= length (enc_length (N.of_nat k)))%nat; [|lia]. unfold enc_length. destruct (N.ltb_spec (N.of_nat k) (2 ^ 6)) as [Z'|_]; [lia|].
    destruct (N.of_nat k <? 2 ^ 14), (N.of_nat k <? 2 ^ 22); cbn; lia.
Qed.
Lemma grows_by_one {E : Env} a : wf_action a -> swells a = true -> exists d n l, bytes d /\
  from_stream read_action d 0 0 = Ok (n, a, length d) /\ action_to_bytes a = Ok l /\ length l = S (length d).
Proof.
  intros W Sw. pose proof (decode_encoded a [] W ltac:(constructor)) as G. rewrite app_nil_r in G. destruct (action_bytes a W) as (Ea & Ba).
  assert (K : exists d, bytes d /\ dec_action d = Some (a, []) /\ (S (length d) <= length (enc_action a))%nat).
  { assert (P : forall op c v, (op = 4 \/ op = 5 \/ op = 32) -> (forall l, dec_operand op l = dec_file_data c l) -> (forall x y, c x = c y -> x = y) ->
      wf_file_data op v -> big_file (fd_data v) = true -> bytes (enc_file_data op v) -> dec_action (enc_file_data op v) = Some (c v, []) ->
      exists d, bytes d /\ dec_action d = Some (c v, []) /\ (S (length d) <= length (enc_file_data op v))%nat).
    { intros op c v Ho Hc Ci Wv B Bv D.
      assert (Hp : part 0 6 (hdr_byte (fd_header v) op) = op).
      { destruct (fd_header v) as [[] []]; destruct Ho as [->|[->| ->]]; reflexivity. }
      unfold dec_action, enc_file_data in D. rewrite Hp, Hc in D. fold (enc_file_data op v) in D.
      destruct (short_decodes op c v Ci Wv B Bv D) as (K1 & K2 & K3). exists (short_form op v). split; [exact K1|]. split; [|exact K3].
      unfold dec_action, short_form. rewrite Hp, Hc. exact K2. }
    destruct a; try discriminate Sw; cbn [swells enc_action wf_action] in *.
    - apply (P 4 AWriteFileData); auto; congruence.
    - apply (P 5 AWriteFileDataFlush); auto; congruence.
    - apply (P 32 AReturnFileData); auto; congruence. }
  destruct K as (d & K1 & K2 & K3). pose proof (action_left d 0 K1 ltac:(lia)) as A. cbn [skipn] in A. rewrite K2 in A. destruct A as (_ & A).
  cbn [length] in A. rewrite Nat.sub_0_r, Nat.sub_0_r in A. exists d. eexists. exists (enc_action a). split; [exact K1|]. split; [exact A|].
  split; [exact Ea|]. pose proof (action_grows d 0 _ _ _ _ K1 ltac:(lia) A Ea) as L. rewrite Sw in L. lia.
Qed.
Lemma grows_refuted {E : Env} :
  ~ (forall d n a q l, bytes d -> from_stream read_action d 0 0 = Ok (n, a, q) -> action_to_bytes a = Ok l -> (length l <= q)%nat).
Proof.
  intros H. destruct (grows_by_one zero_profile) as (d & n & l & Q1 & Q2 & Q3 & Q4).
  - assert (P : wf_sub_profile (mkSubProfile 0 (mkVarInt 0 false))) by (split; [reflexivity|]; split; [reflexivity|]; exists 0, 0; repeat split).
    assert (B : wf_sub_band (mkSubBand 0 0 0%Z 0 0)) by (repeat split; try reflexivity; cbn; lia).
    repeat split; try reflexivity; cbn [repeat ap_sub_profiles ap_sub_bands]; repeat (constructor; try assumption).
  - reflexivity.
  - pose proof (H _ _ _ _ _ Q1 Q2 Q3). lia.
Qed.
