(** Files, status operands and actions: where they run out of input, which continuations are accepted. *)
From Coq Require Import List NArith ZArith Bool Lia ZifyBool ZifyNat ZifyN Arith.
From Verif Require Import Base Deku Utils Types Physical Link Network Session Data Query
  Interface File Operation Action Command WellFormed SpecLayout SpecDecode SpecLive LBits LUtf8 LReader LLayout LNiceOps
  LDecode LDecodeTypes LDecodeOps LDecodeAct LDecodeCmd LDecodeTx LJoin LLive LLiveOps.
Import ListNotations.
Open Scope N_scope.

Lemma Liv_id {E : Env} {A} (m : N -> reader A) (D : N -> dec A) (f : N -> A) (known : N -> bool) :
  (forall x, known x = true -> Liv (m x) (D x) Any) ->
  (forall x, known x = false -> m x = (i <- read_id_field x ;; ret (f i))) ->
  DecA (x <- read_u8 ;; m x) (let* x := one in D x) -> Loc (let* x := one in D x) -> St (let* x := one in D x) Any ->
  Liv (x <- read_u8 ;; m x) (let* x := one in D x) Any.
Proof.
  intros H G HA HL HS. split; [exact HA|]. split; [exact HL|]. intros r Hr Hl He _.
  pose proof (Dec_u8 r Hr) as U. unfold DecAt in U. destruct (octets (view r)) as [|x l] eqn:Eo; [exact HS|].
  cbn [one] in U. destruct U as (k & Hk & Hrest & U). unfold bind in He. rewrite U in He.
  destruct (known x) eqn:Hx.
  - destruct (H x Hx) as (_ & _ & HF). specialize (HF (adv r (8 * k)) (RWf_adv _ _ Hr Hk)).
    rewrite adv_aligned in HF at 1 by assumption. specialize (HF eq_refl He I).
    rewrite view_adv, octets_skip, Eo, <- Hrest in HF by assumption.
    destruct HF as (s & v & Bs & Hs & Hv). exists s, v. split; [exact Bs|]. split; [exact Hs|exact I].
  - rewrite (G x Hx) in He. unfold bind in He. rewrite (id_field_aligned r x _ Hr Hl U) in He. discriminate.
Qed.
Lemma Liv_interface_config {E : Env} : Liv read_interface_config dec_interface_config Any.
Proof.
  unfold read_interface_config, dec_interface_config.
  apply (Liv_id (fun x => match assoc x _ with Some m => m | None => _ end)
           (fun i => if i =? 0 then _ else _) IcUnknown (fun x => existsb (N.eqb x) [0; 1; 2; 3; 0xD7]));
    [intros x; cbn [existsb assoc]; intros Hx| intros x; cbn [existsb assoc]; intros Hx|exact DecA_interface_config|exact Loc_interface_config|exact St_interface_config].
  - destruct (x =? 0); [lv|]. destruct (x =? 1); [lv|].
    destruct (x =? 2).
    { eapply Liv_ext with (m := c <- read_abp ;; ret (IcAbp c))
        (D := let* c := (let* b := dec_lorawan in let* n := some_bytes 16 in let* a := some_bytes 16 in
              let* d := host_num 4 in let* k := host_num 4 in give (mkAbp b n a d k)) in give (IcAbp c)); [unfold read_abp; lv|reflexivity|dsame]. }
    destruct (x =? 3).
    { eapply Liv_ext with (m := c <- read_otaa ;; ret (IcOtaa c))
        (D := let* c := (let* b := dec_lorawan in let* d := some_bytes 8 in let* a := some_bytes 8 in
              let* k := some_bytes 16 in give (mkOtaa b d a k)) in give (IcOtaa c)); [unfold read_otaa; lv|reflexivity|dsame]. }
    destruct (x =? 0xD7); [|discriminate]. lv.
  - destruct (x =? 0); [discriminate|]. destruct (x =? 1); [discriminate|]. destruct (x =? 2); [discriminate|].
    destruct (x =? 3); [discriminate|]. destruct (x =? 0xD7); [discriminate|]. reflexivity.
Qed.
Lemma Liv_indirect_interface {E : Env} : Liv read_indirect_interface dec_indirect_interface Any.
Proof.
  unfold read_indirect_interface, dec_indirect_interface.
  apply (Liv_id (fun x => match assoc x _ with Some m => m | None => _ end)
           (fun i => if i =? 0 then _ else _) IiUnknown (fun x => existsb (N.eqb x) [0; 1; 0xD7]));
    [intros x; cbn [existsb assoc]; intros Hx| intros x; cbn [existsb assoc]; intros Hx|exact DecA_indirect_interface|exact Loc_indirect_interface|exact St_indirect_interface].
  - destruct (x =? 0); [lv|]. destruct (x =? 1); [lv|].
    destruct (x =? 0xD7); [|discriminate]. lv.
  - destruct (x =? 0); [discriminate|]. destruct (x =? 1); [discriminate|].
    destruct (x =? 0xD7); [discriminate|]. reflexivity.
Qed.
#[global] Hint Resolve Liv_interface_config Liv_indirect_interface : lv.

(** ** file *)
Definition text_ok (n : nat) (q : list N) : Prop := (length q < n)%nat -> text_begins n q.
Lemma LivX_text n : LivX (read_string n) (text (N.of_nat n)) Any (text_ok n).
Proof.
  split; [apply Dec_A, Dec_text|]. split; [apply Loc_text|]. intros r Hr Hl He HX.
  assert (Ln : (length (octets (view r)) < n)%nat).
  { destruct (Nat.le_gt_cases n (length (octets (view r)))) as [L|L]; [|exact L]. exfalso.
    unfold read_string in He. pose proof (Dec_bytes n r Hr) as HB. unfold DecAt, some_bytes in HB.
    destruct (N.leb_spec (N.of_nat n) (N.of_nat (length (octets (view r))))); [|lia].
    destruct HB as (k & _ & _ & HB). unfold bind in He. rewrite HB in He. destruct (utf8_valid _); discriminate. }
  destruct (HX Ln) as (t & Bt & Lt & Ut). apply is_utf8_valid in Ut.
  exists t, (octets (view r) ++ t). split; [exact Bt|]. split; [|exact I].
  unfold text, andthen, some_bytes. rewrite Lt. destruct (N.leb_spec (N.of_nat n) (N.of_nat n)); [|lia].
  rewrite firstn_all2, skipn_all2 by lia. rewrite Ut. reflexivity.
Qed.
(** Not for the id of the firmware version. *)
Lemma Liv_eng_method : Liv read_eng_method (let* b := one in named code_eng [EmOff; EmContTx; EmTransientTx; EmPerRx; EmPerTx] b) Any.
Proof. one_byte Dec_eng_method. exact St_eng. Qed.
#[global] Hint Resolve Liv_eng_method : lv.
Lemma Liv_flat {A B} (m : reader A) D (f : A -> B) D' : Liv m D Any -> (forall l, D' l = (let* v := D in give (f v)) l) ->
  Liv (v <- m ;; ret (f v)) D' Any.
Proof.
  intros H G. eapply Liv_ext with (m := v <- m ;; ret (f v)); [|reflexivity|exact G].
  apply Liv_bind with (P := @Any A); [exact H|intros v; apply Liv_ret|intros; apply St_give; exact I].
Qed.
Lemma Liv_other_file len : Liv (l <- read_vec_u8 len ;; ret (FOther l)) (let* l := some_bytes len in give (FOther l)) Any.
Proof. lv. Qed.
Lemma Liv_profile_file i : Liv (p <- read_access_profile ;; ret (FAccessProfile i p))
  (let* p := dec_access_profile in give (FAccessProfile i p)) Any.
Proof. lv. Qed.
Lemma Liv_uid_file : Liv (a <- read_address AtUId ;; ret (FUId a)) (let* v := num 8 in give (FUId (UId v))) Any.
Proof. eapply Liv_flat; [apply (Liv_address AtUId)|]. cbn [dec_address]. dnest. Qed.
Lemma Liv_vid_file : Liv (a <- read_address AtVId ;; ret (FVId a)) (let* v := num 2 in give (FVId (VId v))) Any.
Proof. eapply Liv_flat; [apply (Liv_address AtVId)|]. cbn [dec_address]. dnest. Qed.
Lemma Liv_key_file {E : Env} : Liv (k <- read_native 16 ;; ret (FSecurityKey k)) (let* k := host_num 16 in give (FSecurityKey k)) Any.
Proof. lv. Qed.
Lemma Liv_factory : Liv (v <- read_factory_settings ;; ret (FFactorySettings v))
    (let* g := signed in
    let* a1 := num 4 in let* a2 := num 4 in let* a3 := num 4 in
    let* a4 := num 4 in let* a5 := num 4 in let* a6 := num 4 in
    let* a7 := num 4 in let* a8 := num 4 in let* a9 := num 4 in
    let* b1 := one in let* b2 := one in let* b3 := one in
    let* b4 := one in let* b5 := one in let* b6 := one in
    let* b7 := one in let* b8 := one in let* b9 := one in
    let* b10 := one in let* b11 := one in
    let* c1 := num 4 in let* c2 := one in let* c3 := one in let* c4 := num 2 in
    give (FFactorySettings (mkFactory g a1 a2 a3 a4 a5 a6 a7 a8 a9
                              b1 b2 b3 b4 b5 b6 b7 b8 b9 b10 b11 c1 c2 c3 c4))) Any.
Proof.
  eapply (Liv_flat read_factory_settings 
    (let* g := signed in
    let* a1 := num 4 in let* a2 := num 4 in let* a3 := num 4 in
    let* a4 := num 4 in let* a5 := num 4 in let* a6 := num 4 in
    let* a7 := num 4 in let* a8 := num 4 in let* a9 := num 4 in
    let* b1 := one in let* b2 := one in let* b3 := one in
    let* b4 := one in let* b5 := one in let* b6 := one in
    let* b7 := one in let* b8 := one in let* b9 := one in
    let* b10 := one in let* b11 := one in
    let* c1 := num 4 in let* c2 := one in let* c3 := one in let* c4 := num 2 in
    give (mkFactory g a1 a2 a3 a4 a5 a6 a7 a8 a9
                              b1 b2 b3 b4 b5 b6 b7 b8 b9 b10 b11 c1 c2 c3 c4))).
  - unfold read_factory_settings. lv.
  - intros l. repeat (rewrite andthen_andthen; apply andthen_ext; clear; intros ? l). reflexivity.
Qed.
Lemma Liv_engineering : Liv (v <- read_engineering_mode ;; ret (FEngineeringMode v))
  (let* b := one in
    let* m := named code_eng [EmOff; EmContTx; EmTransientTx; EmPerRx; EmPerTx] b in
    let* f := one in let* t := one in let* c := dec_channel in let* e := signed in
    give (FEngineeringMode (mkEngMode m f t c e))) Any.
Proof.
  eapply (Liv_flat read_engineering_mode
    (let* m := (let* b := one in named code_eng [EmOff; EmContTx; EmTransientTx; EmPerRx; EmPerTx] b) in
    let* f := one in let* t := one in let* c := dec_channel in let* e := signed in give (mkEngMode m f t c e))).
  - unfold read_engineering_mode. lv.
  - intros l. rewrite !andthen_andthen. apply andthen_ext. clear. intros b. dnest.
Qed.
Lemma Liv_phy_status : Liv (v <- read_phy_status ;; ret (FPhyStatus v))
  (let* a := num 4 in let* b := num 4 in let* c := num 4 in let* d := num 2 in
    let* n := one in let* l := times (N.to_nat n) dec_channel_status in
    give (FPhyStatus (mkPhyStatus a b c d n l))) Any.
Proof.
  eapply (Liv_flat read_phy_status
    (let* a := num 4 in let* b := num 4 in let* c := num 4 in let* d := num 2 in
    let* n := one in let* l := times (N.to_nat n) dec_channel_status in give (mkPhyStatus a b c d n l))).
  - unfold read_phy_status. repeat first [apply Liv_times; [apply Liv_channel_status|apply St_channel_status]|progress lv].
  - dnest.
Qed.
Lemma Liv_dll_config : Liv (v <- read_dll_config ;; ret (FDllConfig v))
  (let* a := one in let* pad := some_bytes 2 in
    let* l := one in let* n := one in let* r := one in let* t := one in
    give (FDllConfig (mkDllConfig a l n r t))) Any.
Proof.
  eapply (Liv_flat read_dll_config
    (let* a := one in let* pad := (let* l := some_bytes (N.of_nat 2) in give tt) in
    let* l := one in let* n := one in let* r := one in let* t := one in give (mkDllConfig a l n r t))).
  - unfold read_dll_config. apply Liv_bind with (P := Any); [lv|intros a|intros; st].
    apply Liv_bind with (P := Any); [apply (Liv_pad 2)|intros b; lv|intros; st].
  - change (N.of_nat 2) with 2. dsame.
Qed.
Lemma Liv_dll_status : Liv (v <- read_dll_status ;; ret (FDllStatus v))
  (let* a := one in let* b := one in let* c := one in let* h := dec_channel_header in
    let* i := num 2 in let* r := num 2 in let* s := num 4 in let* t := num 4 in
    give (FDllStatus (mkDllStatus a b c h i r s t))) Any.
Proof.
  eapply (Liv_flat read_dll_status
    (let* a := one in let* b := one in let* c := one in let* h := dec_channel_header in
    let* i := num 2 in let* r := num 2 in let* s := num 4 in let* t := num 4 in
    give (mkDllStatus a b c h i r s t))).
  - unfold read_dll_status. lv.
  - dnest.
Qed.

(** The two texts of the version. *)
Definition version_ok (q : list N) : Prop := text_ok 6 q /\ ((6 <= length q)%nat -> text_ok 7 (skipn 6 q)).
Lemma LivX_weaken {A} (m : reader A) D P (X Y : list N -> Prop) : LivX m D P X -> (forall l, Y l -> X l) -> LivX m D P Y.
Proof. intros H G. eapply LivX_ext; [exact H|reflexivity|reflexivity|exact G]. Qed.
Lemma LivX_firmware : LivX (v <- read_firmware_version ;; ret (FFirmwareVersion v))
  (let* a := one in let* b := one in let* s := text 6 in let* t := text 7 in
   give (FFirmwareVersion (mkFirmware a b s t))) Any (fun l => forall a b q, l = a :: b :: q -> version_ok q).
Proof.
  eapply LivX_ext with (m := a <- read_u8 ;; b <- read_u8 ;; s <- read_string 6 ;; t <- read_string 7 ;;
     ret (FFirmwareVersion (mkFirmware a b s t)))
    (X := fun l => forall a b q, l = a :: b :: q -> version_ok q); [| |reflexivity|auto].
  2: { unfold read_firmware_version. rsame. }
  eapply LivX_bind with (P := Any) (X := fun a l => forall b q, l = b :: q -> version_ok q); [apply Liv_byte| |intros; st|].
  2: { intros l v rest H HY b q ->. destruct l as [|c l]; [discriminate|]. cbn in H. injection H as <- ->. eapply HY. reflexivity. }
  intros a. eapply LivX_bind with (P := Any) (X := fun b q => version_ok q); [apply Liv_byte| |intros; st|].
  2: { intros l v rest H HY. destruct l as [|c l]; [discriminate|]. cbn in H. injection H as <- ->. eapply HY. reflexivity. }
  intros b. eapply LivX_bindX with (P := Any) (X0 := text_ok 6) (X := fun s q => text_ok 7 q); [apply (LivX_text 6)| |intros; st|intros l [H _]; exact H|].
  - intros s. eapply LivX_bindX with (P := Any) (X0 := text_ok 7) (X := fun t q => True);
      [apply (LivX_text 7)| |intros; st|auto|auto]. intros t. apply Liv_ret.
  - intros l v rest H [_ HY]. unfold text, andthen, some_bytes in H.
    destruct (N.leb_spec 6 (N.of_nat (length l))) as [L|L]; [|discriminate]. destruct (utf8_valid _); [|discriminate].
    change (N.to_nat 6) with 6%nat in H. assert (rest = skipn 6 l) as -> by (unfold give in H; congruence). apply HY. lia.
Qed.

Definition file_ok (b : N) (l : list N) : Prop := b = 2 -> forall x y q, l = x :: y :: q -> version_ok q.
Lemma LivX_file {E : Env} b len : LivX (read_file (file_id_of b) len) (dec_file b len) Any (file_ok b).
Proof.
  assert (L0 : forall m D, Liv m D (@Any file) -> LivX m D Any (file_ok b)).
  { intros m D H. eapply LivX_weaken; [exact H|]. intros l _. exact I. }
  destruct (N.lt_ge_cases b 47) as [L|L].
  - assert (H : In b (map N.of_nat (seq 0 47))).
    { apply in_map_iff. exists (N.to_nat b). split; [lia|]. apply in_seq. lia. }
    cbn [map seq N.of_nat Pos.of_succ_nat Pos.succ In] in H.
    destruct H as [<-|H]; [apply L0; exact Liv_uid_file|].
    destruct H as [<-|H]; [apply L0; exact Liv_factory|].
    destruct H as [<-|H]; [eapply LivX_weaken; [exact LivX_firmware|]; intros l H x y q; apply H; reflexivity|].
    do 2 (destruct H as [<-|H]; [apply L0, Liv_other_file|]).
    destruct H as [<-|H]; [apply L0; exact Liv_engineering|].
    destruct H as [<-|H]; [apply L0; exact Liv_vid_file|].
    do 2 (destruct H as [<-|H]; [apply L0, Liv_other_file|]).
    destruct H as [<-|H]; [apply L0; exact Liv_phy_status|].
    destruct H as [<-|H]; [apply L0; exact Liv_dll_config|].
    destruct H as [<-|H]; [apply L0; exact Liv_dll_status|].
    do 2 (destruct H as [<-|H]; [apply L0, Liv_other_file|]).
    destruct H as [<-|H]; [apply L0; exact Liv_key_file|].
    do 17 (destruct H as [<-|H]; [apply L0, Liv_other_file|]).
    do 15 (destruct H as [<-|H]; [apply L0, Liv_profile_file|]). destruct H.
  - assert (F : file_id_of b = FidOther).
    { unfold file_id_of, file_id_tbl. cbn [assoc].
      repeat (match goal with |- context [b =? ?k] => destruct (N.eqb_spec b k); [lia|] end). reflexivity. }
    rewrite F. apply L0. eapply Liv_ext; [apply (Liv_other_file len)|reflexivity|]. intros l. unfold dec_file.
    repeat (match goal with |- context [b =? ?k] => destruct (N.eqb_spec b k); [lia|] end).
    destruct (N.leb_spec b 46); [lia|]. rewrite andb_false_r. reflexivity.
Qed.

(** ** status *)
Lemma Liv_k_status {E : Env} t : t <> ItLoRaWanABP -> t <> ItLoRaWanOTAA -> Liv (k_status t) (kd_status t) Any.
Proof.
  intros Na Nb. unfold k_status, kd_status. destruct t; cbn [read_interface_status]; try contradiction.
  - eapply Liv_ext with (m := l <- read_length ;; ret (mkItfStatusOp ItHost IsHost))
     (D := let* n := dec_length in give (mkItfStatusOp ItHost IsHost)); [lv| |reflexivity].
    intros r Hr. reflexivity.
  - eapply Liv_ext with (m := l <- read_length ;; ret (mkItfStatusOp ItSerial IsSerial))
     (D := let* n := dec_length in give (mkItfStatusOp ItSerial IsSerial)); [lv| |reflexivity].
    intros r Hr. reflexivity.
  - eapply Liv_ext with (m := l <- read_length ;; s <- read_dash7_status ;; ret (mkItfStatusOp ItDash7 (IsDash7 s)))
     (D := let* n := dec_length in let* s := dec_dash7_status in give (mkItfStatusOp ItDash7 (IsDash7 s)));
      [lv| |reflexivity].
    intros r Hr. apply bind_ext. intros l r1. rewrite bind_bind. reflexivity.
  - eapply Liv_ext with (m := l <- read_length ;; s <- read_vec_u8 l ;; ret (mkItfStatusOp ItUnknown (IsOther s)))
     (D := let* n := dec_length in let* p := some_bytes n in give (mkItfStatusOp ItUnknown (IsOther p)));
      [lv| |reflexivity].
    intros r Hr. apply bind_ext. intros l r1. rewrite bind_bind. reflexivity.
Qed.
Definition itf_ok (l : list N) : Prop := forall i rest, l = i :: rest -> i <> 2 /\ i <> 3.
Lemma LivX_itf_status {E : Env} : LivX read_itf_status_op dec_itf_status Any itf_ok.
Proof.
  split; [apply DecA_itf_status|]. split; [apply Loc_itf_status|]. intros r Hr Hl He HX.
  change ((t <- read_interface_type ;; k_status t) r = Err EIncomplete) in He.
  pose proof (Dec_u8 r Hr) as U. unfold DecAt in U.
  destruct (octets (view r)) as [|x l] eqn:Eo; [witness [0; 0]|]. cbn [one] in U.
  destruct (HX _ _ eq_refl) as [N3 N4].
  destruct U as (k & Hk & Hrest & U). pose proof (RWf_adv _ _ Hr Hk) as Hr1.
  assert (Ha : left (adv r (8 * k)) = []) by (rewrite adv_aligned by assumption; reflexivity).
  assert (Keep : forall t, t <> ItLoRaWanABP -> t <> ItLoRaWanOTAA -> read_interface_type r = Ok (t, adv r (8 * k)) ->
    exists s v, bytes s /\ kd_status t (l ++ s) = Some (v, []) /\ True).
  { intros t Na Nb Ht. unfold bind in He. rewrite Ht in He. destruct (Liv_k_status t Na Nb) as (_ & _ & HF).
    specialize (HF (adv r (8 * k)) Hr1 Ha He I). rewrite view_adv, octets_skip, Eo, <- Hrest in HF by assumption. exact HF. }
  cbn [app]. unfold dec_itf_status. unfold andthen at 1. cbn [one].
  destruct (N.eqb_spec x 0) as [->|N0]; [apply (Keep ItHost); [discriminate..|]; unfold read_interface_type, bind; rewrite U; reflexivity|].
  destruct (N.eqb_spec x 1) as [->|N1]; [apply (Keep ItSerial); [discriminate..|]; unfold read_interface_type, bind; rewrite U; reflexivity|].
  destruct (N.eqb_spec x 0xD7) as [->|N2]; [apply (Keep ItDash7); [discriminate..|]; unfold read_interface_type, bind; rewrite U; reflexivity|].
  destruct (N.eqb_spec x 2) as [->|_]; [contradiction|]. destruct (N.eqb_spec x 3) as [->|_]; [contradiction|].
  cbn [orb].
  assert (T : read_interface_type r = Ok (ItUnknown, if e_rewind then r else adv r (8 * k))).
  { unfold read_interface_type. unfold bind at 1. rewrite U. unfold interface_type_tbl. cbn [assoc].
    destruct (N.eqb_spec x 0); [contradiction|]. destruct (N.eqb_spec x 1); [contradiction|].
    destruct (N.eqb_spec x 2); [contradiction|]. destruct (N.eqb_spec x 3); [contradiction|].
    destruct (N.eqb_spec x 0xD7); [contradiction|]. unfold bind.
    rewrite (id_unit_aligned r x _ Hr Hl U). reflexivity. }
  destruct e_rewind.
  - unfold bind in He. rewrite T in He. destruct (Liv_k_status ItUnknown) as (_ & _ & HF); [discriminate..|].
    specialize (HF r Hr Hl He I). rewrite Eo in HF. exact HF.
  - apply (Keep ItUnknown); [discriminate..|exact T].
Qed.
