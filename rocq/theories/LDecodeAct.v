(** Files, status operands and actions against the decoder of SpecDecode.v. *)
From Coq Require Import List NArith ZArith Bool Lia ZifyBool ZifyNat ZifyN Arith.
From Verif Require Import Base Deku Utils Types Physical Link Network Session Data Query
  Interface File Operation Action Command SpecLayout SpecDecode LBits LReader LLayout LNiceOps
  LDecode LDecodeTypes LDecodeOps.
Import ListNotations.
Open Scope N_scope.

(** ** file *)
Lemma Dec_text n : Dec (read_string n) (text (N.of_nat n)).
Proof.
  apply Dec_bind; [apply Dec_bytes|]. intros s. destruct (utf8_valid s); [apply Dec_ret|apply Dec_fail].
Qed.
Lemma Dec_factory : Dec (v <- read_factory_settings ;; ret (FFactorySettings v))
    (let* g := signed in
    let* a1 := num 4 in let* a2 := num 4 in let* a3 := num 4 in
    let* a4 := num 4 in let* a5 := num 4 in let* a6 := num 4 in
    let* a7 := num 4 in let* a8 := num 4 in let* a9 := num 4 in
    let* b1 := one in let* b2 := one in let* b3 := one in
    let* b4 := one in let* b5 := one in let* b6 := one in
    let* b7 := one in let* b8 := one in let* b9 := one in
    let* b10 := one in let* b11 := one in
    let* c1 := num 4 in let* c2 := one in let* c3 := one in let* c4 := num 2 in
    give (FFactorySettings (mkFactory g a1 a2 a3 a4 a5 a6 a7 a8 a9
                              b1 b2 b3 b4 b5 b6 b7 b8 b9 b10 b11 c1 c2 c3 c4))).
Proof.
  eapply Dec_ext with (m := v <- read_factory_settings ;; ret (FFactorySettings v)); [|reflexivity|].
  - apply Dec_bind; [unfold read_factory_settings; dsteps1|]. intros v. apply Dec_ret.
  - intros l. repeat (rewrite andthen_andthen; apply andthen_ext; clear; intros ? l). reflexivity.
Qed.
Lemma Dec_eng_method : Dec read_eng_method
  (let* b := one in named code_eng [EmOff; EmContTx; EmTransientTx; EmPerRx; EmPerTx] b).
Proof. unfold read_eng_method. group. Qed.
Ltac dnest := intros l; repeat (rewrite ?andthen_andthen; apply andthen_ext; clear; intros ? l); try reflexivity.

Lemma Dec_firmware : Dec (v <- read_firmware_version ;; ret (FFirmwareVersion v))
  (let* a := one in let* b := one in let* s := text 6 in let* t := text 7 in
   give (FFirmwareVersion (mkFirmware a b s t))).
Proof.
  eapply Dec_ext with (m := v <- read_firmware_version ;; ret (FFirmwareVersion v)); [|reflexivity|].
  - apply Dec_bind; [unfold read_firmware_version|intros v; apply Dec_ret].
    apply Dec_bind; [exact Dec_u8|intros a]. apply Dec_bind; [exact Dec_u8|intros b].
    apply Dec_bind; [apply (Dec_text 6)|intros c]. apply Dec_bind; [apply (Dec_text 7)|intros d]. apply Dec_ret.
  - dnest.
Qed.
Lemma Dec_engineering : Dec (v <- read_engineering_mode ;; ret (FEngineeringMode v))
  (let* b := one in
    let* m := named code_eng [EmOff; EmContTx; EmTransientTx; EmPerRx; EmPerTx] b in
    let* f := one in let* t := one in let* c := dec_channel in let* e := signed in
    give (FEngineeringMode (mkEngMode m f t c e))).
Proof.
  eapply Dec_ext with (m := v <- read_engineering_mode ;; ret (FEngineeringMode v)); [|reflexivity|].
  - apply Dec_bind; [unfold read_engineering_mode|intros v; apply Dec_ret].
    apply Dec_bind; [exact Dec_eng_method|intros a]. dsteps1.
  - intros l. rewrite !andthen_andthen. apply andthen_ext. clear. intros b. dnest.
Qed.
Lemma Dec_phy_status : Dec (v <- read_phy_status ;; ret (FPhyStatus v))
  (let* a := num 4 in let* b := num 4 in let* c := num 4 in let* d := num 2 in
    let* n := one in let* l := times (N.to_nat n) dec_channel_status in
    give (FPhyStatus (mkPhyStatus a b c d n l))).
Proof.
  eapply Dec_ext with (m := v <- read_phy_status ;; ret (FPhyStatus v)); [|reflexivity|].
  - apply Dec_bind; [unfold read_phy_status|intros v; apply Dec_ret].
    do 5 (apply Dec_bind; [dstep1|intros ?]). apply Dec_bind; [apply Dec_times, Dec_channel_status|intros ?]. apply Dec_ret.
  - dnest.
Qed.
Lemma Dec_dll_config : Dec (v <- read_dll_config ;; ret (FDllConfig v))
  (let* a := one in let* pad := some_bytes 2 in
    let* l := one in let* n := one in let* r := one in let* t := one in
    give (FDllConfig (mkDllConfig a l n r t))).
Proof.
  eapply Dec_ext with (m := v <- read_dll_config ;; ret (FDllConfig v)); [|reflexivity|].
  - apply Dec_bind; [unfold read_dll_config|intros v; apply Dec_ret].
    apply Dec_bind; [exact Dec_u8|intros a]. apply Dec_bind; [apply (Dec_pad 2)|intros b]. dsteps1.
  - change (N.of_nat 2) with 2. dsame.
Qed.
Lemma Dec_dll_status : Dec (v <- read_dll_status ;; ret (FDllStatus v))
  (let* a := one in let* b := one in let* c := one in let* h := dec_channel_header in
    let* i := num 2 in let* r := num 2 in let* s := num 4 in let* t := num 4 in
    give (FDllStatus (mkDllStatus a b c h i r s t))).
Proof.
  eapply Dec_ext with (m := v <- read_dll_status ;; ret (FDllStatus v)); [|reflexivity|].
  - apply Dec_bind; [unfold read_dll_status; dsteps1|intros v; apply Dec_ret].
  - dnest.
Qed.
Lemma Dec_uid_file : Dec (a <- read_address AtUId ;; ret (FUId a)) (let* v := num 8 in give (FUId (UId v))).
Proof.
  eapply Dec_ext with (m := a <- read_address AtUId ;; ret (FUId a)); [|reflexivity|].
  - apply Dec_bind; [apply Dec_address|intros v; apply Dec_ret].
  - cbn [dec_address]. dnest.
Qed.
Lemma Dec_vid_file : Dec (a <- read_address AtVId ;; ret (FVId a)) (let* v := num 2 in give (FVId (VId v))).
Proof.
  eapply Dec_ext with (m := a <- read_address AtVId ;; ret (FVId a)); [|reflexivity|].
  - apply Dec_bind; [apply Dec_address|intros v; apply Dec_ret].
  - cbn [dec_address]. dnest.
Qed.
Lemma Dec_key_file {E : Env} : Dec (k <- read_native 16 ;; ret (FSecurityKey k)) (let* k := host_num 16 in give (FSecurityKey k)).
Proof. dsteps1. Qed.
Lemma Dec_profile_file i : Dec (p <- read_access_profile ;; ret (FAccessProfile i p))
  (let* p := dec_access_profile in give (FAccessProfile i p)).
Proof. dsteps1. Qed.
Lemma Dec_other_file len : Dec (l <- read_vec_u8 len ;; ret (FOther l)) (let* l := some_bytes len in give (FOther l)).
Proof. dsteps1. Qed.
Lemma Dec_file_at {E : Env} b len : Dec (read_file (file_id_of b) len) (dec_file b len).
Proof.
  destruct (N.lt_ge_cases b 47) as [L|L].
  - assert (H : In b (map N.of_nat (seq 0 47))).
    { apply in_map_iff. exists (N.to_nat b). split; [lia|]. apply in_seq. lia. }
    cbn [map seq N.of_nat Pos.of_succ_nat Pos.succ In] in H.
    destruct H as [<-|H]; [exact Dec_uid_file|].
    destruct H as [<-|H]; [exact Dec_factory|].
    destruct H as [<-|H]; [exact Dec_firmware|].
    do 2 (destruct H as [<-|H]; [apply Dec_other_file|]).
    destruct H as [<-|H]; [exact Dec_engineering|].
    destruct H as [<-|H]; [exact Dec_vid_file|].
    do 2 (destruct H as [<-|H]; [apply Dec_other_file|]).
    destruct H as [<-|H]; [exact Dec_phy_status|].
    destruct H as [<-|H]; [exact Dec_dll_config|].
    destruct H as [<-|H]; [exact Dec_dll_status|].
    do 2 (destruct H as [<-|H]; [apply Dec_other_file|]).
    destruct H as [<-|H]; [exact Dec_key_file|].
    do 17 (destruct H as [<-|H]; [apply Dec_other_file|]).
    do 15 (destruct H as [<-|H]; [apply Dec_profile_file|]). destruct H.
  - assert (F : file_id_of b = FidOther).
    { unfold file_id_of, file_id_tbl. cbn [assoc].
      repeat (match goal with |- context [b =? ?k] => destruct (N.eqb_spec b k); [lia|] end). reflexivity. }
    rewrite F. eapply Dec_ext; [apply (Dec_other_file len)|reflexivity|]. intros l. unfold dec_file.
    repeat (match goal with |- context [b =? ?k] => destruct (N.eqb_spec b k); [lia|] end).
    destruct (N.leb_spec b 46); [lia|]. rewrite andb_false_r. reflexivity.
Qed.

(** ** status *)
Lemma Dec_action_status : Dec read_action_status (let* a := one in let* s := one in give (mkActionStatus a s)).
Proof. unfold read_action_status. dsteps1. Qed.
Lemma Dec_itf_final : Dec read_itf_final_op dec_itf_final.
Proof.
  eapply Dec_ext with (m := i <- read_u8 ;; l <- read_length ;;
    if i =? 0xD7 then c <- read_final_status_code ;; ret (mkItfFinalOp i (FinDash7 c))
    else l <- read_vec_u8 l ;; ret (mkItfFinalOp i (FinOther l))).
  - unfold dec_itf_final. apply Dec_bind; [exact Dec_u8|intros i]. apply Dec_bind; [exact Dec_length|intros l].
    apply Dec_if; dsteps1.
  - intros r Hr. unfold read_itf_final_op, read_interface_final_status. apply bind_ext. intros i r1. apply bind_ext.
    intros l r2. destruct (i =? 0xD7); rewrite bind_bind; reflexivity.
  - reflexivity.
Qed.
(** What follows the interface type. *)
Definition k_status {E : Env} (t : interface_type) : reader itf_status_op :=
  l <- read_length ;; s <- read_interface_status t l ;; ret (mkItfStatusOp t s).
Definition kd_status {E : Env} (t : interface_type) : dec itf_status_op :=
  match t with
  | ItHost => let* n := dec_length in give (mkItfStatusOp ItHost IsHost)
  | ItSerial => let* n := dec_length in give (mkItfStatusOp ItSerial IsSerial)
  | ItDash7 => let* n := dec_length in let* s := dec_dash7_status in give (mkItfStatusOp ItDash7 (IsDash7 s))
  | ItUnknown => let* n := dec_length in let* p := some_bytes n in give (mkItfStatusOp ItUnknown (IsOther p))
  | _ => reject
  end.
Lemma Dec_k_status {E : Env} t : Dec (k_status t) (kd_status t).
Proof.
  unfold k_status, kd_status. destruct t; cbn [read_interface_status].
  - eapply Dec_ext with (m := l <- read_length ;; ret (mkItfStatusOp ItHost IsHost)); [dsteps1| |reflexivity].
    intros r Hr. reflexivity.
  - eapply Dec_ext with (m := l <- read_length ;; ret (mkItfStatusOp ItSerial IsSerial)); [dsteps1| |reflexivity].
    intros r Hr. reflexivity.
  - eapply Dec_ext with (D := let* n := dec_length in reject);
      [apply Dec_bind; [exact Dec_length|]; intros l; apply (Dec_fail EParse)|reflexivity|].
    intros l. unfold andthen, reject. destruct (dec_length l) as [[? ?]|]; reflexivity.
  - eapply Dec_ext with (D := let* n := dec_length in reject);
      [apply Dec_bind; [exact Dec_length|]; intros l; apply (Dec_fail EParse)|reflexivity|].
    intros l. unfold andthen, reject. destruct (dec_length l) as [[? ?]|]; reflexivity.
  - eapply Dec_ext with (m := l <- read_length ;; s <- read_dash7_status ;; ret (mkItfStatusOp ItDash7 (IsDash7 s)));
      [dsteps1| |reflexivity].
    intros r Hr. apply bind_ext. intros l r1. rewrite bind_bind. reflexivity.
  - eapply Dec_ext with (m := l <- read_length ;; s <- read_vec_u8 l ;; ret (mkItfStatusOp ItUnknown (IsOther s)));
      [dsteps1| |reflexivity].
    intros r Hr. apply bind_ext. intros l r1. rewrite bind_bind. reflexivity.
Qed.
Lemma DecA_itf_status {E : Env} : DecA read_itf_status_op dec_itf_status.
Proof.
  intros r Hr Hl. change (DecAt (t <- read_interface_type ;; k_status t) dec_itf_status r).
  pose proof (Dec_u8 r Hr) as U. unfold DecAt in U.
  destruct (one (octets (view r))) as [[x rest]|] eqn:E1.
  2: { destruct U as [e U]. unfold DecAt, dec_itf_status. unfold andthen at 1. rewrite E1. exists e.
       unfold read_interface_type, bind. rewrite U. reflexivity. }
  destruct U as (k & Hk & Hrest & U). pose proof (RWf_adv _ _ Hr Hk) as Hr1.
  assert (G : forall t, DecAt (k_status t) (kd_status t) (adv r (8 * k))) by (intros t; apply Dec_k_status; exact Hr1).
  assert (Keep : forall t, read_interface_type r = Ok (t, adv r (8 * k)) ->
    match kd_status t rest with
    | Some (v, rest') => exists j, (8 * j <= length (view r))%nat /\ rest' = skipn j (octets (view r)) /\
        (t <- read_interface_type ;; k_status t) r = Ok (v, adv r (8 * j))
    | None => exists e, (t <- read_interface_type ;; k_status t) r = Err e
    end).
  { intros t Ht. unfold bind. rewrite Ht. specialize (G t). unfold DecAt in G.
    rewrite view_adv, octets_skip, <- Hrest in G by assumption.
    destruct (kd_status t rest) as [[v rest']|]; [|exact G]. destruct G as (j & Hj & Hrest' & G).
    rewrite skipn_length in Hj. exists (k + j)%nat. split; [lia|].
    rewrite <- skipn_skipn, <- Hrest. split; [exact Hrest'|]. rewrite G, adv_adv by assumption. do 3 f_equal. lia. }
  unfold DecAt, dec_itf_status. unfold andthen at 1. rewrite E1.
  destruct (N.eqb_spec x 0) as [->|N0]; [apply (Keep ItHost); unfold read_interface_type, bind; rewrite U; reflexivity|].
  destruct (N.eqb_spec x 1) as [->|N1]; [apply (Keep ItSerial); unfold read_interface_type, bind; rewrite U; reflexivity|].
  destruct (N.eqb_spec x 0xD7) as [->|N2]; [apply (Keep ItDash7); unfold read_interface_type, bind; rewrite U; reflexivity|].
  destruct (N.eqb_spec x 2) as [->|N3]; [apply (Keep ItLoRaWanABP); unfold read_interface_type, bind; rewrite U; reflexivity|].
  destruct (N.eqb_spec x 3) as [->|N4]; [apply (Keep ItLoRaWanOTAA); unfold read_interface_type, bind; rewrite U; reflexivity|].
  cbn [orb].
  assert (T : read_interface_type r = Ok (ItUnknown, if e_rewind then r else adv r (8 * k))).
  { unfold read_interface_type. unfold bind at 1. rewrite U. unfold interface_type_tbl. cbn [assoc].
    destruct (N.eqb_spec x 0); [contradiction|]. destruct (N.eqb_spec x 1); [contradiction|].
    destruct (N.eqb_spec x 2); [contradiction|]. destruct (N.eqb_spec x 3); [contradiction|].
    destruct (N.eqb_spec x 0xD7); [contradiction|]. unfold bind.
    rewrite (id_unit_aligned r x _ Hr Hl U). reflexivity. }
  destruct e_rewind.
  - pose proof (Dec_k_status ItUnknown r Hr) as Q. unfold DecAt in Q. cbn [kd_status] in Q.
    unfold bind. rewrite T. exact Q.
  - apply (Keep ItUnknown). exact T.
Qed.
Lemma DecA_ext {A} (m m' : reader A) (D D' : dec A) :
  DecA m D -> (forall r, RWf r -> m' r = m r) -> (forall l, D' l = D l) -> DecA m' D'.
Proof. intros H Hm HD r Hr Hl. specialize (H r Hr Hl). unfold DecAt in *. rewrite HD, Hm by assumption. exact H. Qed.

(** ** operands *)
(** A one-byte head and what follows it. *)
Lemma DecA_head {A X} (g : reader X) (F : N -> X) (k : X -> reader A) (K : X -> dec A) (m : reader A) (D : dec A) :
  Dec g (let* b := one in give (F b)) -> (forall x, DecA (k x) (K x)) ->
  (forall r, RWf r -> m r = bind g k r) -> (forall l, D l = (let* b := one in K (F b)) l) -> DecA m D.
Proof.
  intros H G Hm HD. eapply DecA_ext; [apply (DecA_bind g k); [exact H|exact G]|exact Hm|].
  intros l. rewrite HD, andthen_andthen. reflexivity.
Qed.
Definition g_hdr : reader (action_header * N) := h <- read_header ;; o <- read_opcode ;; ret (h, o).
Lemma Dec_hdr : Dec g_hdr (let* b := one in give (dec_header b, part 0 6 b)).
Proof. unfold g_hdr, read_header, read_opcode. group. Qed.
Definition g_bbo : reader (bool * bool * N) := x <- read_bool ;; y <- read_bool ;; o <- read_opcode ;; ret (x, y, o).
Lemma Dec_bbo : Dec g_bbo (let* b := one in give (flag 7 b, flag 6 b, part 0 6 b)).
Proof. unfold g_bbo, read_opcode. group. Qed.
Definition g_pbo : reader (bool * N) := skip_bits 1 ;;; y <- read_bool ;; o <- read_opcode ;; ret (y, o).
Lemma Dec_pbo : Dec g_pbo (let* b := one in give (flag 6 b, part 0 6 b)).
Proof. unfold g_pbo, read_opcode. group. Qed.
Definition g_bpo : reader (bool * N) := x <- read_bool ;; skip_bits 1 ;;; o <- read_opcode ;; ret (x, o).
Lemma Dec_bpo : Dec g_bpo (let* b := one in give (flag 7 b, part 0 6 b)).
Proof. unfold g_bpo, read_opcode. group. Qed.
Lemma Dec_chunk : Dec read_chunk
  (let* b := one in
   let* s := named code_chunk [ChunkContinue; ChunkStart; ChunkEnd; ChunkStartEnd] (part 6 2 b) in
   give (mkChunk s (part 0 6 b))).
Proof. unfold read_chunk, read_opcode. group. Qed.
Lemma Dec_logic : Dec read_logic
  (let* b := one in
   let* s := named code_logic [LogicOr; LogicXor; LogicNor; LogicNand] (part 6 2 b) in
   give (mkLogic s (part 0 6 b))).
Proof. unfold read_logic, read_opcode. group. Qed.
Definition g_status : reader (status_type * N) := t <- read_status_type ;; o <- read_opcode ;; ret (t, o).
Lemma Dec_g_status : Dec g_status
  (let* b := one in
   let* t := named code_status_type [StAction; StInterface; StInterfaceFinal] (part 6 2 b) in
   give (t, part 0 6 b)).
Proof. unfold g_status, read_opcode. group. Qed.
Lemma Dec_level : Dec read_permission_level (let* c := one in named code_level [LevelUser; LevelRoot] c).
Proof. unfold read_permission_level. group. Qed.
