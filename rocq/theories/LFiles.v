(** System files: C22 - C26, C29. *)
From Coq Require Import List NArith ZArith Bool Lia ZifyBool ZifyNat ZifyN Arith.
From Verif Require Import Base Deku Utils Types Physical Link Network Session Data Query
  Interface File Operation Action WellFormed SpecLayout SpecFail SpecApi SpecReturn SpecFiles LBits LReader LTypes LUtf8 LLayout
  LRound LRoundOps LApi LNice LNiceFile LNiceOps LCount LActionApi LFail LReturn LWrite.
Import ListNotations.
Open Scope N_scope.

(** ** Fixed sizes *)
Create HintDb adv.
Lemma Adv_u8 : Adv 8 read_u8. Proof. apply Adv_uint. Qed.
Lemma Adv_u16 : Adv 16 read_u16be. Proof. apply Adv_uint. Qed.
Lemma Adv_u32 : Adv 32 read_u32be. Proof. apply Adv_uint. Qed.
Lemma Adv_u64 : Adv 64 read_u64be. Proof. apply Adv_uint. Qed.
#[export] Hint Resolve Adv_ret Adv_fail Adv_bits Adv_uint Adv_bool Adv_skip Adv_enum Adv_u8 Adv_u16 Adv_u32 Adv_u64 : adv.
Ltac adv_steps := lazymatch goal with
  | |- Adv _ (bind _ _) => eapply Adv_bind; [adv_steps|intros; adv_steps]
  | |- _ => solve [eauto 3 with adv]
  end.
Ltac adv_all := eapply Adv_eq; [adv_steps|try reflexivity].
Lemma Adv_i8 : Adv 8 read_i8. Proof. unfold read_i8. adv_all. Qed.
Lemma Adv_list {A} n k (m : reader A) : Adv k m -> Adv (n * k) (read_list n m).
Proof.
  intros H. induction n as [|n IH]; cbn [read_list]; [apply Adv_ret|].
  eapply Adv_eq; [apply Adv_bind; [exact H|intros; apply Adv_bind; [exact IH|intros; apply Adv_ret]]|lia].
Qed.
Lemma Adv_native {E : Env} k : Adv (8 * k) (read_native k).
Proof. unfold read_native. eapply Adv_eq; [apply Adv_bind; [apply Adv_bits|intros; apply Adv_ret]|lia]. Qed.
Lemma Adv_varint : Adv 8 read_varint.
Proof.
  unfold read_varint. eapply (Adv_eq (3 + (5 + 0))); [|reflexivity]. apply Adv_bind; [apply Adv_uint|]. intros e.
  apply Adv_bind; [apply Adv_uint|]. intros m. destruct (decompress e m); [apply Adv_ret|apply Adv_fail].
Qed.
Lemma Adv_string n : Adv (n * 8) (read_string n).
Proof.
  unfold read_string. eapply (Adv_eq (n * 8 + 0)); [|lia]. apply Adv_bind; [apply Adv_list, Adv_u8|].
  intros l. destruct (utf8_valid l); [apply Adv_ret|apply Adv_fail].
Qed.
#[export] Hint Resolve Adv_i8 Adv_varint Adv_string : adv.
#[export] Hint Extern 2 (Adv _ (read_list _ _)) => (eapply Adv_list; eauto 3 with adv) : adv.
#[export] Hint Extern 2 (Adv _ (read_array _ _)) => (eapply Adv_list; eauto 3 with adv) : adv.
#[export] Hint Extern 2 (Adv _ (read_native _)) => (eapply Adv_native) : adv.
Lemma Adv_channel_header : Adv 8 read_channel_header.
Proof. unfold read_channel_header, read_channel_band, read_channel_class, read_channel_coding. adv_all. Qed.
#[export] Hint Resolve Adv_channel_header : adv.
Lemma Adv_channel : Adv 24 read_channel. Proof. unfold read_channel. adv_all. Qed.
Lemma Adv_csi : Adv 16 read_channel_status_identifier.
Proof. unfold read_channel_status_identifier, read_channel_band, read_bandwidth. adv_all. Qed.
#[export] Hint Resolve Adv_channel Adv_csi : adv.
Lemma Adv_channel_status : Adv 24 read_channel_status. Proof. unfold read_channel_status. adv_all. Qed.
Lemma Adv_sub_band : Adv 56 read_sub_band. Proof. unfold read_sub_band. adv_all. Qed.
Lemma Adv_sub_profile : Adv 16 read_sub_profile. Proof. unfold read_sub_profile. adv_all. Qed.
#[export] Hint Resolve Adv_channel_status Adv_sub_band Adv_sub_profile : adv.
Lemma Adv_access_profile : Adv 520 read_access_profile. Proof. unfold read_access_profile. adv_all. Qed.
Lemma Adv_dll_config : Adv 56 read_dll_config. Proof. unfold read_dll_config. adv_all. Qed.
Lemma Adv_dll_status : Adv 128 read_dll_status. Proof. unfold read_dll_status. adv_all. Qed.
Lemma Adv_engineering_mode : Adv 56 read_engineering_mode. Proof. unfold read_engineering_mode, read_eng_method. adv_all. Qed.
Lemma Adv_factory_settings : Adv 448 read_factory_settings. Proof. unfold read_factory_settings. adv_all. Qed.
Lemma Adv_firmware_version : Adv 120 read_firmware_version. Proof. unfold read_firmware_version. adv_all. Qed.
#[export] Hint Resolve Adv_access_profile Adv_dll_config Adv_dll_status Adv_engineering_mode Adv_factory_settings
  Adv_firmware_version : adv.
Lemma Adv_address t : Adv (match t with AtNbId => 8 | AtNoId => 0 | AtUId => 64 | AtVId => 16 end) (read_address t).
Proof. destruct t; cbn [read_address]; adv_all. Qed.

(** A reader whose size depends on the value read. *)
Definition Takes {A} (size : A -> nat) (m : reader A) : Prop :=
  forall r v r', RWf r -> m r = Ok (v, r') -> (size v <= length (view r))%nat /\ r' = adv r (size v).
Lemma Takes_map {A B} k (m : reader A) (f : A -> B) (P : A -> Prop) size : Adv k m -> Nice 0 m P ->
  (forall v, P v -> size (f v) = k) -> Takes size (x <- m ;; ret (f x)).
Proof.
  intros HA HN HS r v r' Hr H. unfold bind in H. destruct (m r) as [[x r1]| |] eqn:E1; try discriminate.
  injection H as <- <-. specialize (HN r Hr). rewrite E1 in HN. destruct HN as (Hx & _). rewrite (HS x Hx).
  apply HA with x; assumption.
Qed.
Lemma Takes_bind {A B} k (m : reader A) (f : A -> reader B) size size' : Adv k m -> (forall a, Takes size (f a)) ->
  (forall v, size' v = (k + size v)%nat) -> Takes size' (x <- m ;; f x).
Proof.
  intros HA HT HS r v r' Hr H. unfold bind in H. destruct (m r) as [[x r1]| |] eqn:E1; try discriminate.
  destruct (HA _ _ _ Hr E1) as (L1 & ->). destruct (HT x _ _ _ (RWf_adv r k Hr L1) H) as (L2 & ->).
  rewrite view_adv, skipn_length in L2 by assumption. rewrite HS. split; [lia|apply adv_adv; assumption].
Qed.
Lemma Takes_list {A} n k (m : reader A) (P : A -> Prop) : Adv k m -> Nice 0 m P ->
  Takes (fun l => k * length l)%nat (read_list n m).
Proof.
  intros HA HN r v r' Hr H. pose proof (Nice_list n _ _ HN _ Hr) as H1. rewrite H in H1. destruct H1 as ((_ & HL) & _).
  destruct (Adv_list n k m HA _ _ _ Hr H) as (L1 & ->). rewrite HL, Nat.mul_comm. auto.
Qed.
Lemma Takes_done {A B} size (m : reader A) (f : A -> B) size' : Takes size m -> (forall v, size' (f v) = size v) ->
  Takes size' (x <- m ;; ret (f x)).
Proof.
  intros H HS r v r' Hr E1. unfold bind in E1. destruct (m r) as [[x r1]| |] eqn:E2; try discriminate.
  injection E1 as <- <-. rewrite HS. apply H; assumption.
Qed.
Lemma Takes_phy_status : Takes (fun v => 8 * (15 + 3 * length (ps_channels v)))%nat read_phy_status.
Proof.
  unfold read_phy_status.
  eapply (Takes_bind 32 _ _ (fun v => 8 * (11 + 3 * length (ps_channels v)))%nat); [apply Adv_u32| |intros; lia]. intros a.
  eapply (Takes_bind 32 _ _ (fun v => 8 * (7 + 3 * length (ps_channels v)))%nat); [apply Adv_u32| |intros; lia]. intros b.
  eapply (Takes_bind 32 _ _ (fun v => 8 * (3 + 3 * length (ps_channels v)))%nat); [apply Adv_u32| |intros; lia]. intros c.
  eapply (Takes_bind 16 _ _ (fun v => 8 * (1 + 3 * length (ps_channels v)))%nat); [apply Adv_u16| |intros; lia]. intros d.
  eapply (Takes_bind 8 _ _ (fun v => 8 * (3 * length (ps_channels v)))%nat); [apply Adv_u8| |intros; lia]. intros n.
  eapply Takes_done; [eapply Takes_list; [apply Adv_channel_status|apply Nice_channel_status]|]. intros l. cbn [ps_channels]. lia.
Qed.
Lemma Takes_vec n : Takes (fun l => 8 * length l)%nat (read_vec_u8 n).
Proof.
  intros r v r' Hr H. pose proof (Nice_vec n r Hr) as HN. rewrite H in HN. destruct HN as ((_ & HL) & _).
  unfold read_vec_u8 in H. destruct (N.leb _ _); [|discriminate].
  destruct (Adv_list (N.to_nat n) 8 _ Adv_u8 _ _ _ Hr H) as (L1 & ->).
  replace (N.to_nat n) with (length v) in * by lia. rewrite Nat.mul_comm. auto.
Qed.
Lemma Nice_any {A} (m : reader A) k P : Nice k m P -> Nice 0 m (fun _ => True).
Proof. intros H. eapply Nice_weaken; [exact H|lia|auto]. Qed.
Lemma Takes_file {E : Env} id n : Takes (fun f => 8 * file_size f)%nat (read_file id n).
Proof.
  destruct id; cbn [read_file];
    try (eapply Takes_done; [apply Takes_vec|reflexivity]);
    try (eapply Takes_done; [apply Takes_phy_status|reflexivity]).
  - eapply Takes_map; [apply (Adv_address AtUId)|apply Nice_address|]. intros [] (H & _); try contradiction. reflexivity.
  - eapply Takes_map; [apply Adv_factory_settings|eapply Nice_any, Nice_factory_settings|reflexivity].
  - eapply Takes_map; [apply Adv_firmware_version|eapply Nice_any, Nice_firmware_version|reflexivity].
  - eapply Takes_map; [apply Adv_engineering_mode|eapply Nice_any, Nice_engineering_mode|reflexivity].
  - eapply Takes_map; [apply (Adv_address AtVId)|apply Nice_address|]. intros [] (H & _); try contradiction. reflexivity.
  - eapply Takes_map; [apply Adv_dll_config|eapply Nice_any, Nice_dll_config|reflexivity].
  - eapply Takes_map; [apply Adv_dll_status|eapply Nice_any, Nice_dll_status|reflexivity].
  - eapply Takes_map; [apply Adv_native|eapply (Nice_native 16); reflexivity|reflexivity].
  - eapply Takes_map; [apply Adv_access_profile|apply Nice_access_profile|].
    intros v (H1 & _ & H2 & _). cbn [file_size]. rewrite H1, H2. reflexivity.
Qed.

(** ** C22 *)
Lemma transfers_u {A} w (m : reader A) l v : CountA m -> transfers w m l v ->
  forall suf, u_from_bytes m (l ++ suf) 0 = Ok ((suf, 0%nat), v).
Proof.
  intros HC (_ & _ & H) suf. specialize (H suf). rewrite d_from_bytes_0 in H. rewrite u_from_bytes_0.
  destruct (m (new_reader (l ++ suf))) as [[x r]| |]; try discriminate. destruct (Nat.leb _ _); [exact H|discriminate].
Qed.
Lemma file_round_trip {E : Env} b f : u8 b -> wf_file b f ->
  exists id, file_id_try_from b = Ok id /\
  let n := N.of_nat (length (enc_file f)) in
  transfers (write_file f) (read_file id n) (enc_file f) f /\
  forall suf, file_from_bytes (enc_file f ++ suf) 0 id n = Ok ((suf, 0%nat), f).
Proof.
  intros Hb Hf. exists (file_id_of b). split; [apply file_id_try_from_ok; exact Hb|]. cbv zeta.
  assert (T := proj1 (file_exact b _ f Hb eq_refl) Hf). split; [exact T|].
  eapply transfers_u; [|exact T]. apply Count_A, Count_file.
Qed.
Lemma file_round_trip_exact {E : Env} b f id n l : u8 b -> file_id_try_from b = Ok id ->
  to_bytes (write_file f) = Ok l -> n = N.of_nat (length l) -> wf_length n ->
  ((exists rest, file_from_bytes l 0 id n = Ok (rest, f)) <-> wf_file b f).
Proof.
  intros Hb Hi Hw Hn Hl. rewrite file_id_try_from_ok in Hi by exact Hb. injection Hi as <-. split.
  - intros (rest & H). unfold file_from_bytes in H. rewrite u_from_bytes_0 in H.
    destruct (read_file (file_id_of b) n (new_reader l)) as [[x r]| |] eqn:E1; try discriminate.
    injection H as _ <-. pose proof (Nice_file b n Hb Hl (new_reader l) (new_RWf l)) as HN. rewrite E1 in HN. apply HN.
  - intros Hf. destruct (file_round_trip b f Hb Hf) as (id & Hi & T). rewrite file_id_try_from_ok in Hi by exact Hb.
    injection Hi as <-. cbv zeta in T. destruct T as (((T1 & _) & _) & T2). rewrite Hw in T1. injection T1 as ->.
    exists ([], 0%nat). specialize (T2 []). rewrite app_nil_r in T2. rewrite Hn. exact T2.
Qed.

(** ** C23 *)
Lemma prefixed_bytes w l : to_bytes (write_length_prefixed w) = Ok l ->
  exists p, to_bytes w = Ok p /\ l = enc_length (N.of_nat (length p) mod 2 ^ 32) ++ p.
Proof.
  intros H. unfold write_length_prefixed in H. destruct (to_bytes w) as [p| |] eqn:E1; try discriminate.
  assert (Hp : bytes p).
  { unfold to_bytes in E1. destruct w; try discriminate. injection E1 as <-. apply bytes_of_bits_bytes. }
  exists p. split; [reflexivity|]. cbn [rbind] in H. unfold length_of_usize in H.
  change (N.of_nat (length p) mod 2 ^ 32) with (N.of_nat (length p) mod 2 ^ 32) in *.
  destruct (N.lt_ge_cases (N.of_nat (length p) mod 2 ^ 32) (2 ^ 30)) as [L|L].
  - assert (K : W (write_length (N.of_nat (length p) mod 2 ^ 32) +++ write_buf p)
      (enc_length (N.of_nat (length p) mod 2 ^ 32) ++ p)) by (apply W_app; [apply W_length; exact L|apply W_vec; exact Hp]).
    apply W_to_bytes in K. rewrite K in H. injection H as <-. reflexivity.
  - exfalso. pose proof (F_length (N.of_nat (length p) mod 2 ^ 32)) as K. unfold F in K. cbn [existsb] in K.
    unfold badl in K. destruct (N.leb_spec (2 ^ 30) (N.of_nat (length p) mod 2 ^ 32)); [|lia]. cbn [orb] in K.
    rewrite K in H. discriminate.
Qed.
Lemma file_bytes {E : Env} f p : to_bytes (write_file f) = Ok p -> length p = file_size f.
Proof.
  intros H. pose proof (F_file f) as HF. unfold F in HF. destruct (_ || _).
  - rewrite HF in H. discriminate.
  - destruct HF as (bs & HF & HL). rewrite HF in H. injection H as <-. apply bytes_of_bits_length. exact HL.
Qed.
Lemma payload_prefix {E : Env} f o l : to_bytes (write_file_payload f o) = Ok l ->
  exists p, to_bytes (write_file f) = Ok p /\ length p = file_size f /\
            l = enc_length (N.of_nat (length p) mod 2 ^ 32) ++ p.
Proof.
  unfold write_file_payload. destruct (file_id_any (fo_file_id o)) as (i & ->). cbn [rbind]. intros H.
  destruct (prefixed_bytes _ _ H) as (p & H1 & H2). exists p. split; [exact H1|]. split; [|exact H2].
  apply file_bytes. exact H1.
Qed.

Lemma typed_ids b : In b typed_file_ids \/ ~ In b typed_file_ids.
Proof. destruct (in_dec N.eq_dec b typed_file_ids); auto. Qed.
Lemma typed_any_length {E : Env} b n n' r : In b typed_file_ids ->
  read_file (file_id_of b) n r = read_file (file_id_of b) n' r.
Proof.
  intros H. unfold typed_file_ids in H. cbn [In] in H. repeat (destruct H as [<-|H]; [reflexivity|]). contradiction.
Qed.
Lemma u8_all (P : N -> Prop) (p : N -> bool) : (forall b, p b = true -> P b) ->
  forallb p (map N.of_nat (seq 0 256)) = true -> forall b, u8 b -> P b.
Proof.
  intros H1 H2 b Hb. apply H1. rewrite forallb_forall in H2. apply H2. apply in_map_iff. exists (N.to_nat b).
  split; [lia|]. apply in_seq. unfold u8 in Hb. lia.
Qed.
Lemma untyped_reader {E : Env} b n : u8 b -> ~ In b typed_file_ids ->
  read_file (file_id_of b) n = (l <- read_vec_u8 n ;; ret (FOther l)).
Proof.
  assert (K : forall b, u8 b -> In b typed_file_ids \/
    match file_id_of b with
    | FidAccessProfile _ | FidUId | FidFactorySettings | FidFirmwareVersion | FidEngineeringMode | FidVId | FidPhyStatus
    | FidDllConfig | FidDllStatus | FidNetworkSecurityKey => False
    | _ => True end).
  { apply (u8_all _ (fun b => existsb (N.eqb b) typed_file_ids ||
      match file_id_of b with
      | FidAccessProfile _ | FidUId | FidFactorySettings | FidFirmwareVersion | FidEngineeringMode | FidVId | FidPhyStatus
      | FidDllConfig | FidDllStatus | FidNetworkSecurityKey => false
      | _ => true end)).
    - intros x H. apply orb_true_iff in H as [H|H].
      + left. apply existsb_exists in H as (y & H1 & H2). apply N.eqb_eq in H2. subst. exact H1.
      + right. destruct (file_id_of x); try exact I; discriminate.
    - vm_compute. reflexivity. }
  intros Hb H. destruct (K b Hb) as [K1|K1]; [contradiction|]. destruct (file_id_of b); try contradiction; reflexivity.
Qed.

Lemma payload_consumed {E : Env} o r f r' : u8 (fo_file_id o) -> reader_state r -> read_file_payload o r = Ok (f, r') ->
  exists n r1, read_length r = Ok (n, r1) /\
    (8 * file_size f <= length (view r1))%nat /\ view r' = skipn (8 * file_size f) (view r1) /\
    (~ In (fo_file_id o) typed_file_ids -> N.of_nat (file_size f) = n).
Proof.
  intros Hb Hr H. unfold read_file_payload, bind in H. destruct (read_length r) as [[n r1]| |] eqn:E1; try discriminate.
  rewrite file_id_try_from_ok in H by exact Hb. exists n, r1. split; [reflexivity|].
  assert (R1 : RWf r1) by (eapply Count_length; [exact Hr|exact E1]).
  destruct (Takes_file _ _ _ _ _ R1 H) as (L & ->). split; [exact L|]. split; [apply view_adv; assumption|].
  intros Ht. rewrite untyped_reader in H by assumption. unfold bind in H.
  pose proof (Nice_vec n r1 R1) as HN. destruct (read_vec_u8 n r1) as [[l r2]| |]; try discriminate.
  injection H as <- _. destruct HN as ((_ & HL) & _). exact HL.
Qed.
Lemma read_vec_exact n r : RWf r ->
  (8 * N.to_nat n <= length (view r))%nat /\ (exists l, read_vec_u8 n r = Ok (l, adv r (8 * N.to_nat n))) \/
  (length (view r) < 8 * N.to_nat n)%nat /\ read_vec_u8 n r = Err EIncomplete.
Proof.
  intros Hr. rewrite read_vec_u8_unguarded by exact Hr.
  destruct (Nat.lt_ge_cases (length (view r)) (8 * N.to_nat n)) as [L|L].
  - right. split; [exact L|]. apply read_list_u8_short; assumption.
  - left. split; [exact L|]. destruct (read_list (N.to_nat n) read_u8 r) as [[l r2]| |] eqn:E1.
    + exists l. destruct (Adv_list _ 8 _ Adv_u8 _ _ _ Hr E1) as (_ & ->). do 2 f_equal. f_equal. lia.
    + exfalso. revert r Hr L e E1. generalize (N.to_nat n). clear n. intros n. induction n as [|n IH]; intros r Hr L e E1; [discriminate|].
      cbn [read_list] in E1. unfold bind in E1. unfold read_u8 at 1 in E1. rewrite read_uint_ok in E1 by (try assumption; lia).
      destruct (read_list n read_u8 (adv r 8)) as [[l2 r2]| |] eqn:E2; try discriminate.
      eapply (IH (adv r 8)); [apply RWf_adv; [assumption|lia]| |exact E2]. rewrite view_adv, skipn_length by (try assumption; lia). lia.
    + exfalso. revert r Hr L E1. generalize (N.to_nat n). clear n. intros n. induction n as [|n IH]; intros r Hr L E1; [discriminate|].
      cbn [read_list] in E1. unfold bind in E1. unfold read_u8 at 1 in E1. rewrite read_uint_ok in E1 by (try assumption; lia).
      destruct (read_list n read_u8 (adv r 8)) as [[l2 r2]| |] eqn:E2; try discriminate.
      eapply (IH (adv r 8)); [apply RWf_adv; [assumption|lia]| |exact E2]. rewrite view_adv, skipn_length by (try assumption; lia). lia.
Qed.
Lemma untyped_exact {E : Env} b n d : u8 b -> bytes d -> ~ In b typed_file_ids ->
  file_from_bytes d 0 (file_id_of b) n =
  (if n <=? N.of_nat (length d) then Ok ((skipn (N.to_nat n) d, 0%nat), FOther (firstn (N.to_nat n) d)) else Err EIncomplete).
Proof.
  intros Hb Hd Ht. unfold file_from_bytes. rewrite u_from_bytes_0, untyped_reader by assumption. unfold bind.
  destruct (N.leb_spec n (N.of_nat (length d))) as [L|L].
  - set (x := firstn (N.to_nat n) d). set (y := skipn (N.to_nat n) d).
    assert (Hx : N.of_nat (length x) = n) by (unfold x; rewrite firstn_length; lia).
    assert (Hbx : bytes x) by (apply Forall_forall; intros z Hz; unfold bytes in Hd; rewrite Forall_forall in Hd; apply Hd; rewrite <- (firstn_skipn (N.to_nat n) d); apply in_or_app; left; exact Hz).
    destruct (RT_vec_u8 n x Hx Hbx) as (bs & Hw & HR).
    assert (Hbs : bs = bits_of_bytes x) by (unfold write_vec_u8 in Hw; rewrite write_bytes in Hw; injection Hw as <-; reflexivity).
    assert (V : view (new_reader d) = bits_of_bytes x ++ bits_of_bytes y).
    { rewrite view_new, <- bits_of_bytes_app. unfold x, y. rewrite firstn_skipn. reflexivity. }
    assert (E2 : read_vec_u8 n (new_reader d) = Ok (x, adv (new_reader d) (length bs))).
    { apply HR; [apply new_RWf|]. rewrite V, Hbs. eexists. reflexivity. }
    rewrite E2. unfold ret. cbn [bread adv new_reader]. rewrite Hbs, bits_of_bytes_length, Nat.add_0_l, div8, mod8.
    assert (Hl : length x = N.to_nat n) by lia. rewrite Hl. reflexivity.
  - destruct (read_vec_exact n (new_reader d) (new_RWf d)) as [(L1 & _)|(_ & ->)]; [|reflexivity].
    rewrite view_new, bits_of_bytes_length in L1. lia.
Qed.

(** ** C24 *)
Lemma bytes_part n (d : list N) : bytes d -> bytes (firstn n d) /\ bytes (skipn n d).
Proof. intros H. rewrite <- (firstn_skipn n d) in H. apply Forall_app in H. exact H. Qed.
Lemma field_length n s : length (field n s) = n.
Proof. unfold field. rewrite app_length, firstn_length, repeat_length. lia. Qed.
Lemma field_bytes n s : bytes s -> bytes (field n s).
Proof.
  intros H. apply Forall_app. split; [apply (bytes_part n s H)|]. apply Forall_forall. intros x Hx.
  apply repeat_spec in Hx. subst. reflexivity.
Qed.
Lemma W_field n s : bytes s -> W (write_string n s) (field n s).
Proof.
  intros H. unfold write_string. replace (firstn (Nat.min (length s) n) s ++ repeat 0 (n - Nat.min (length s) n)) with (field n s).
  - apply W_vec, field_bytes, H.
  - unfold field. destruct (Nat.le_gt_cases (length s) n) as [L|L].
    + rewrite Nat.min_l by exact L. rewrite (firstn_all2 s L), firstn_all. reflexivity.
    + rewrite Nat.min_r by lia. replace (n - n)%nat with 0%nat by lia. replace (n - length s)%nat with 0%nat by lia. reflexivity.
Qed.
Lemma field_self n s : length s = n -> field n s = s.
Proof. intros <-. unfold field. rewrite firstn_all, Nat.sub_diag, app_nil_r. reflexivity. Qed.
Lemma is_utf8_field n s : is_utf8 s -> (length s <= n)%nat -> is_utf8 (field n s).
Proof.
  intros (cs & H1 & H2) L. unfold field. rewrite (firstn_all2 s L). exists (cs ++ repeat 0 (n - length s)). split.
  - apply Forall_app. split; [exact H1|]. apply Forall_forall. intros x Hx. apply repeat_spec in Hx. subst. left. reflexivity.
  - rewrite flat_map_app, <- H2. f_equal. induction (n - length s)%nat as [|k IH]; [reflexivity|].
    cbn [repeat flat_map]. rewrite <- IH. reflexivity.
Qed.
Lemma string_written n s : bytes s -> to_bytes (write_string n s) = Ok (field n s).
Proof. intros H. apply W_to_bytes, W_field, H. Qed.

Lemma read_bytes_at n d t r : RWf r -> view r = bits_of_bytes d ++ t -> length d = n -> bytes d ->
  read_list n read_u8 r = Ok (d, adv r (8 * n)).
Proof.
  intros Hr V L Hd. destruct (RT_bytes n d L Hd) as (bs & Hw & HR). rewrite write_bytes in Hw. injection Hw as <-.
  rewrite HR; [|exact Hr|rewrite V; eexists; reflexivity]. rewrite bits_of_bytes_length, L. reflexivity.
Qed.
Lemma read_string_at n d t r : RWf r -> view r = bits_of_bytes d ++ t -> length d = n -> bytes d ->
  (is_utf8 d -> read_string n r = Ok (d, adv r (8 * n))) /\ (~ is_utf8 d -> read_string n r = Err EParse).
Proof.
  intros Hr V L Hd. unfold read_string, bind. rewrite (read_bytes_at n d t r Hr V L Hd).
  split; intros H.
  - rewrite is_utf8_valid by exact H. reflexivity.
  - destruct (utf8_valid d) eqn:E1; [|reflexivity]. exfalso. apply H. apply utf8_valid_is; assumption.
Qed.
Lemma string_read n d : bytes d ->
  ((n <= length d)%nat -> is_utf8 (firstn n d) -> d_from_bytes (read_string n) d 0 = Ok ((skipn n d, 0%nat), firstn n d)) /\
  ((n <= length d)%nat -> ~ is_utf8 (firstn n d) -> d_from_bytes (read_string n) d 0 = Err EParse) /\
  ((length d < n)%nat -> d_from_bytes (read_string n) d 0 = Err EIncomplete).
Proof.
  intros Hd. destruct (bytes_part n d Hd) as (H1 & H2).
  assert (V : view (new_reader d) = bits_of_bytes (firstn n d) ++ bits_of_bytes (skipn n d)).
  { rewrite view_new, <- bits_of_bytes_app, firstn_skipn. reflexivity. }
  rewrite d_from_bytes_0. split; [|split].
  - intros L Hu. destruct (read_string_at n _ _ _ (new_RWf d) V ltac:(rewrite firstn_length; lia) H1) as (K & _).
    rewrite K by exact Hu. unfold adv, new_reader. cbn [bread]. rewrite Nat.add_0_l, div8, mod8.
    destruct (Nat.leb_spec n (length d)); [reflexivity|lia].
  - intros L Hu. destruct (read_string_at n _ _ _ (new_RWf d) V ltac:(rewrite firstn_length; lia) H1) as (_ & K).
    rewrite K by exact Hu. reflexivity.
  - intros L. unfold read_string, bind. rewrite read_list_u8_short; [reflexivity|apply new_RWf|].
    rewrite view_new, bits_of_bytes_length. lia.
Qed.

Lemma Reads_bytes_at d : bytes d -> Reads (read_list (length d) read_u8) (bits_of_bytes d) d.
Proof.
  intros Hd. destruct (RT_bytes (length d) d eq_refl Hd) as (bs & Hw & HR). rewrite write_bytes in Hw. injection Hw as <-. exact HR.
Qed.
Lemma adv_view a t r : RWf r -> view r = a ++ t -> RWf (adv r (length a)) /\ view (adv r (length a)) = t.
Proof.
  intros Hr V. assert (L : (length a <= length (view r))%nat) by (rewrite V, app_length; lia).
  split; [apply RWf_adv; assumption|]. rewrite view_adv by assumption. rewrite V, skipn_app, skipn_all, Nat.sub_diag. reflexivity.
Qed.
Lemma read_u8_at b t r : RWf r -> u8 b -> view r = bits_of 8 b ++ t -> read_u8 r = Ok (b, adv r 8).
Proof.
  intros Hr Hb V. unfold read_u8. rewrite (Reads_uint 8 b Hb r Hr); [|rewrite V; eexists; reflexivity].
  rewrite bits_of_length. reflexivity.
Qed.
Lemma firmware_fields a b x y : u8 a -> u8 b -> bytes x -> bytes y -> length x = 6%nat -> length y = 7%nat ->
  (is_utf8 x /\ is_utf8 y -> d_try_from read_firmware_version (a :: b :: x ++ y) = Ok (mkFirmware a b x y)) /\
  (~ (is_utf8 x /\ is_utf8 y) -> d_try_from read_firmware_version (a :: b :: x ++ y) = Err EParse).
Proof.
  intros Ha Hb Hx Hy Lx Ly. rewrite d_try_from_eq.
  set (d := a :: b :: x ++ y). assert (V0 : view (new_reader d) = bits_of 8 a ++ bits_of 8 b ++ bits_of_bytes x ++ bits_of_bytes y).
  { rewrite view_new. unfold d. rewrite !bits_of_bytes_cons, bits_of_bytes_app. reflexivity. }
  pose proof (new_RWf d) as R0. unfold read_firmware_version, bind.
  rewrite (read_u8_at a _ _ R0 Ha V0).
  destruct (adv_view _ _ _ R0 V0) as (R1 & V1). rewrite bits_of_length in R1, V1.
  rewrite (read_u8_at b _ _ R1 Hb V1).
  destruct (adv_view _ _ _ R1 V1) as (R2 & V2). rewrite bits_of_length in R2, V2.
  assert (V3 := adv_view _ _ _ R2 V2). rewrite bits_of_bytes_length, Lx in V3. destruct V3 as (R3 & V3).
  rewrite <- (app_nil_r (bits_of_bytes y)) in V3.
  destruct (read_string_at 6 x _ _ R2 V2 Lx Hx) as (X1 & X2). destruct (read_string_at 7 y _ _ R3 V3 Ly Hy) as (Y1 & Y2).
  change (8 * 6)%nat with 48%nat in *. change (8 * 7)%nat with 56%nat in *.
  assert (Dx : is_utf8 x \/ ~ is_utf8 x).
  { destruct (utf8_valid x) eqn:U; [left; apply utf8_valid_is; assumption|right]. intros H. rewrite is_utf8_valid in U by exact H. discriminate. }
  assert (L : length d = 15%nat) by (unfold d; cbn [length]; rewrite app_length, Lx, Ly; reflexivity).
  split.
  - intros (H1 & H2). rewrite X1, Y1 by assumption. unfold ret, adv, new_reader. cbn [bread]. rewrite L. reflexivity.
  - intros H. destruct Dx as [Dx|Dx]; [|rewrite X2 by exact Dx; reflexivity].
    rewrite X1 by exact Dx. rewrite Y2 by tauto. reflexivity.
Qed.
Lemma firmware_written a b s t : u8 a -> u8 b -> bytes s -> bytes t ->
  to_bytes (write_firmware_version (mkFirmware a b s t)) = Ok (a :: b :: field 6 s ++ field 7 t).
Proof.
  intros Ha Hb Hs Ht. apply W_to_bytes. unfold write_firmware_version. cbn [fw_major fw_minor fw_app fw_sha].
  apply W_u8; [exact Ha|]. apply W_u8; [exact Hb|]. apply W_app; apply W_field; assumption.
Qed.
Lemma firmware_back a b s t : u8 a -> u8 b -> is_utf8 s -> is_utf8 t ->
  let v := mkFirmware a b s t in
  exists l, to_bytes (write_firmware_version v) = Ok l /\ length l = 15%nat /\
  (is_utf8 (field 6 s) /\ is_utf8 (field 7 t) ->
     d_try_from read_firmware_version l = Ok (mkFirmware a b (field 6 s) (field 7 t))) /\
  (~ (is_utf8 (field 6 s) /\ is_utf8 (field 7 t)) -> d_try_from read_firmware_version l = Err EParse) /\
  ((length s <= 6)%nat -> is_utf8 (field 6 s)) /\ ((length t <= 7)%nat -> is_utf8 (field 7 t)).
Proof.
  intros Ha Hb Hs Ht. cbv zeta. eexists. split; [apply firmware_written; auto using is_utf8_bytes|].
  split; [cbn [length]; rewrite app_length, !field_length; reflexivity|].
  destruct (firmware_fields a b (field 6 s) (field 7 t) Ha Hb) as (K1 & K2);
    try (apply field_bytes, is_utf8_bytes; assumption); try apply field_length.
  split; [exact K1|]. split; [exact K2|]. split; intros L; apply is_utf8_field; assumption.
Qed.
Lemma firmware_exact v :
  (wf_firmware_version v -> transfers (write_firmware_version v) read_firmware_version (fw_major v :: fw_minor v :: fw_app v ++ fw_sha v) v) /\
  (comes_back (write_firmware_version v) read_firmware_version v <-> wf_firmware_version v).
Proof.
  apply exactly; [| |apply Nice_A, Nice_firmware_version|apply Count_A, Count_firmware_version].
  - intros (H1 & H2 & H3 & H4 & H5 & H6). unfold write_firmware_version.
    apply W_u8; [exact H1|]. apply W_u8; [exact H2|]. apply W_app; apply W_string; auto using is_utf8_bytes.
  - intros H. apply RT_A, RT_firmware_version, H.
Qed.

(** ** C25 *)
Lemma firmware_size v : exists l, to_bytes (write_firmware_version v) = Ok l /\ length l = 15%nat.
Proof.
  destruct (F_file (E := env_spec) (FFirmwareVersion v)) as (bs & H1 & H2). cbn [write_file file_size] in H1, H2.
  rewrite H1. eexists. split; [reflexivity|]. apply bytes_of_bits_length. exact H2.
Qed.
Lemma access_profile_size p l : length (ap_sub_profiles p) = 4%nat -> length (ap_sub_bands p) = 8%nat ->
  to_bytes (write_access_profile p) = Ok l -> length l = 65%nat.
Proof.
  intros H1 H2 H. rewrite (file_bytes (E := env_spec) (FAccessProfile 0 p) l H). cbn [file_size]. rewrite H1, H2. reflexivity.
Qed.
Lemma sizes_wrong :
  (forall v l, to_bytes (write_firmware_version v) = Ok l -> N.of_nat (length l) <> firmware_version_SIZE) /\
  (forall s p l, to_bytes (write_access_profile p) = Ok l -> N.of_nat (length l) <> access_profile_SIZE s).
Proof.
  split.
  - intros v l H. destruct (firmware_size v) as (l' & H1 & H2). rewrite H1 in H. injection H as <-. rewrite H2. discriminate.
  - intros s p l H. rewrite (file_bytes (E := env_spec) (FAccessProfile 0 p) l H). cbn [file_size]. unfold access_profile_SIZE. lia.
Qed.
Lemma ids_right {E : Env} :
  (file_id_try_from firmware_version_ID = Ok FidFirmwareVersion /\
   forall n r v r', read_file FidFirmwareVersion n r = Ok (FFirmwareVersion v, r') <-> read_firmware_version r = Ok (v, r')) /\
  (forall s, s < 15 -> file_id_try_from (access_profile_ID s) = Ok (FidAccessProfile s) /\
   forall n r v r', read_file (FidAccessProfile s) n r = Ok (FAccessProfile s v, r') <-> read_access_profile r = Ok (v, r')).
Proof.
  split.
  - split; [apply (file_id_try_from_ok 2); reflexivity|]. intros n r v r'. cbn [read_file]. unfold bind.
    destruct (read_firmware_version r) as [[x y]| |]; [|split; discriminate..]. unfold ret. split; intros H; injection H as <- <-; reflexivity.
  - intros s Hs. split.
    + unfold access_profile_ID. rewrite file_id_try_from_ok by lia. f_equal.
      assert (K : forall k, (k < 15)%nat -> N.to_nat s = k -> file_id_of (0x20 + s) = FidAccessProfile s).
      { intros k Hk Ek. replace s with (N.of_nat k) by lia. clear Ek Hs. do 15 (destruct k as [|k]; [reflexivity|]). exfalso. lia. }
      apply (K (N.to_nat s)); lia.
    + intros n r v r'. cbn [read_file]. unfold bind.
      destruct (read_access_profile r) as [[x y]| |]; [|split; discriminate..]. unfold ret. split; intros H; injection H as <- <-; reflexivity.
Qed.

(** ** C26 *)
Lemma file_id_back {E : Env} b : u8 b -> exists id, file_id_try_from b = Ok id /\
  (In b named_file_ids -> file_id_into id = Ok b) /\ (~ In b named_file_ids -> file_id_into id = Panic).
Proof.
  intros Hb. exists (file_id_of b). split; [apply file_id_try_from_ok; exact Hb|]. revert b Hb.
  apply (u8_all _ (fun b => if existsb (N.eqb b) named_file_ids
                            then match file_id_into (file_id_of b) with Ok x => N.eqb x b | _ => false end
                            else match file_id_into (file_id_of b) with Panic => true | _ => false end)).
  - intros b H. destruct (existsb (N.eqb b) named_file_ids) eqn:X.
    + apply existsb_exists in X as (y & H1 & H2). apply N.eqb_eq in H2. subst y. split; [intros _|tauto].
      destruct (file_id_into (file_id_of b)) as [x| |]; try discriminate. apply N.eqb_eq in H. subst. reflexivity.
    + split; intros K.
      * exfalso. assert (Y : existsb (N.eqb b) named_file_ids = true) by (apply existsb_exists; exists b; split; [exact K|apply N.eqb_refl]).
        rewrite X in Y. discriminate.
      * destruct (file_id_into (file_id_of b)); try discriminate. reflexivity.
  - vm_compute. reflexivity.
Qed.
Lemma file_id_refuted {E : Env} : exists b id, u8 b /\ file_id_try_from b = Ok id /\ file_id_into id = Panic.
Proof.
  exists 7. destruct (file_id_back 7 eq_refl) as (id & H1 & _ & H2). exists id. split; [reflexivity|]. split; [exact H1|].
  apply H2. cbn. intros H. repeat (destruct H as [H|H]; [discriminate|]). exact H.
Qed.

(** ** C29 *)
Lemma phy_status_exact v :
  (wf_phy_status v -> transfers (write_phy_status v) read_phy_status (enc_file (E := env_spec) (FPhyStatus v)) v) /\
  (comes_back (write_phy_status v) read_phy_status v <-> wf_phy_status v).
Proof.
  apply exactly; [| |apply Nice_A, Nice_phy_status|apply Count_A, Count_phy_status].
  - intros H. apply (W_file (E := env_spec) 9 (FPhyStatus v)). split; [reflexivity|exact H].
  - intros H. apply RT_A, RT_phy_status, H.
Qed.
Lemma phy_status_new_exact a b c d l : u32 a -> u32 b -> u32 c -> u16 d -> Forall wf_channel_status l ->
  let v := phy_status_new a b c d l in
  (comes_back (write_phy_status v) read_phy_status v <-> (length l <= 255)%nat).
Proof.
  intros Ha Hb Hc Hd Hl. cbv zeta. rewrite (proj2 (phy_status_exact _)). unfold wf_phy_status, phy_status_new.
  cbn [ps_up ps_rx ps_tx ps_duty ps_count ps_channels]. split.
  - intros (_ & _ & _ & _ & H1 & H2 & _). unfold u8 in H1. rewrite <- H2 in H1. lia.
  - intros H. rewrite N.mod_small by lia. unfold u8. repeat split; try assumption. lia.
Qed.
Lemma phy_status_count_exact v : u32 (ps_up v) -> u32 (ps_rx v) -> u32 (ps_tx v) -> u16 (ps_duty v) ->
  Forall wf_channel_status (ps_channels v) ->
  ((length (ps_channels v) <= 255)%nat ->
     exists v', phy_status_update v = Ok v' /\ ps_channels v' = ps_channels v /\
       v' = phy_status_new (ps_up v) (ps_rx v) (ps_tx v) (ps_duty v) (ps_channels v) /\
       comes_back (write_phy_status v') read_phy_status v') /\
  ((255 < length (ps_channels v))%nat -> phy_status_update v = Err EParse).
Proof.
  intros Ha Hb Hc Hd Hl. unfold phy_status_update. split; intros H.
  - destruct (N.ltb_spec (N.of_nat (length (ps_channels v))) 256); [|lia]. eexists. split; [reflexivity|].
    split; [reflexivity|]. unfold phy_status_new. rewrite N.mod_small by lia. split; [reflexivity|].
    apply phy_status_exact. unfold wf_phy_status. cbn [ps_up ps_rx ps_tx ps_duty ps_count ps_channels].
    unfold u8. repeat split; assumption.
  - destruct (N.ltb_spec (N.of_nat (length (ps_channels v))) 256); [lia|reflexivity].
Qed.
(** What comes back instead: the list modulo 256 elements, and the rest is left over. *)
Lemma firstn_Forall {A} (P : A -> Prop) n l : Forall P l -> Forall P (firstn n l).
Proof. intros H. rewrite <- (firstn_skipn n l) in H. apply Forall_app in H. apply H. Qed.
Lemma write_list_app {A} (w : A -> writer) a b : write_list w (a ++ b) = write_list w a +++ write_list w b.
Proof.
  induction a as [|x a IH]; cbn [write_list app].
  - destruct (write_list w b); reflexivity.
  - rewrite IH, wseq_assoc. reflexivity.
Qed.
Lemma phy_status_wrapped a b c d l : u32 a -> u32 b -> u32 c -> u16 d -> Forall wf_channel_status l ->
  exists bs rest, to_bytes (write_phy_status (phy_status_new a b c d l)) = Ok bs /\
    d_from_bytes read_phy_status bs 0 =
      Ok ((rest, 0%nat), phy_status_new a b c d (firstn (Nat.modulo (length l) 256) l)) /\
    length rest = (3 * (length l - Nat.modulo (length l) 256))%nat.
Proof.
  intros Ha Hb Hc Hd Hl. set (k := Nat.modulo (length l) 256).
  assert (Hk : (k <= length l)%nat) by (apply Nat.mod_le; lia).
  assert (Hk2 : (k < 256)%nat) by (apply Nat.mod_upper_bound; lia).
  assert (Hn : N.of_nat (length l) mod 256 = N.of_nat k) by (unfold k; rewrite Nat2N.inj_mod; reflexivity).
  set (v := phy_status_new a b c d (firstn k l)).
  assert (Hv : wf_phy_status v).
  { unfold v, phy_status_new, wf_phy_status. cbn [ps_up ps_rx ps_tx ps_duty ps_count ps_channels].
    rewrite firstn_length, Nat.min_l by exact Hk. rewrite N.mod_small by lia. unfold u8. repeat split; try assumption; try lia.
    apply firstn_Forall, Hl. }
  assert (T := proj1 (phy_status_exact v) Hv). destruct T as ((T1 & T2 & _) & _ & T3).
  assert (HS : Forall wf_channel_status (skipn k l)).
  { rewrite <- (firstn_skipn k l) in Hl. apply Forall_app in Hl. apply Hl. }
  set (rest := flat_map enc_channel_status (skipn k l)).
  assert (HR : W (write_list write_channel_status (skipn k l)) rest).
  { apply W_list. eapply Forall_impl; [|exact HS]. apply W_channel_status. }
  exists (enc_file (E := env_spec) (FPhyStatus v) ++ rest), rest. split; [|split; [apply T3|]].
  - assert (K : write_phy_status (phy_status_new a b c d l) = write_phy_status v +++ write_list write_channel_status (skipn k l)).
    { unfold write_phy_status, v, phy_status_new. cbn [ps_up ps_rx ps_tx ps_duty ps_count ps_channels].
      rewrite Hn, firstn_length, Nat.min_l, N.mod_small by lia. rewrite <- (firstn_skipn k l) at 1.
      rewrite write_list_app, !wseq_assoc. reflexivity. }
    rewrite K. apply W_to_bytes. apply W_app; [|exact HR].
    apply (W_file (E := env_spec) 9 (FPhyStatus v)). split; [reflexivity|exact Hv].
  - unfold rest. rewrite (flat_map_length enc_channel_status 3), skipn_length; [lia|apply Forall_forall; intros; reflexivity].
Qed.
Lemma phy_status_refuted : exists l, Forall wf_channel_status l /\
  let v := phy_status_new 1 2 3 4 l in ~ comes_back (write_phy_status v) read_phy_status v.
Proof.
  set (s := mkChannelStatus (mkChannelStatusIdentifier Band868 KHz25 0x123) 0x55). exists (repeat s 256).
  assert (Hl : Forall wf_channel_status (repeat s 256)).
  { apply Forall_forall. intros x Hx. apply repeat_spec in Hx. subst. split; reflexivity. }
  split; [exact Hl|]. cbv zeta. rewrite phy_status_new_exact by (try reflexivity; exact Hl). rewrite repeat_length. lia.
Qed.
Lemma prefix_ignored {E : Env} :
  (exists r', read_file_payload (mkFileOffset 6 0) (new_reader [5; 0xAB; 0xCD; 1; 2; 3]) = Ok (FVId (VId 0xABCD), r') /\
              pos r' = 3%nat /\ left r' = []) /\
  (exists r', read_file_payload (mkFileOffset 6 0) (new_reader [1; 0xAB; 0xCD; 1; 2; 3]) = Ok (FVId (VId 0xABCD), r') /\
              pos r' = 3%nat /\ left r' = []).
Proof. destruct E as [[] [] []]; (split; eexists; (split; [reflexivity|split; reflexivity])). Qed.
