(** Lemmas for C64: types, actions and commands. *)
From Coq Require Import List NArith ZArith Bool Lia ZifyBool ZifyNat ZifyN Arith.
From Verif Require Import Base Deku Utils Types Physical Link Network Session Data Query
  Interface File Operation Action Command WellFormed SpecLayout SpecAction SpecDecode SpecStream SpecLive SpecErr LUtf8 LBits LReader LTypes LLayout
  LFiles LNice LNiceOps LActionApi LReturn LStream LDecode LDecodeTypes LDecodeOps LDecodeAct LDecodeCmd LDecodeTx LDecodeLoop LJoin
  LLive LLiveOps LLiveAct LLiveCmd LLiveTop LLiveLoop LErr.
Import ListNotations.
Open Scope N_scope.

(** ** Types *)
Lemma names {A} (m : reader A) D (X : list N -> Prop) : LivX m D Any X -> (forall l, X l) -> Kd m -> incremental (fun d => d_from_reader m d 0) -> names_errors m.
Proof.
  intros (HD & HL & HF) HX HK (I1 & I2 & _) d e Hd He. cbv zeta.
  pose proof (DecA_decodes m D HD d Hd) as C. destruct (D d) as [[v rest]|] eqn:ED.
  - destruct C as [Cf Ct]. left. split; [|eexists; exact Cf]. destruct rest; congruence.
  - destruct C as (e' & Cf & Ct). assert (e' = e) by congruence. subst e'. right.
    assert (Hm : m (new_reader d) = Err e).
    { rewrite d_from_bytes_0 in Cf. destruct (m (new_reader d)) as [[v r]| |]; [destruct (Nat.leb _ _); discriminate|congruence|discriminate]. }
    pose proof (HK (new_reader d) (or_intror eq_refl)) as K. rewrite Hm in K. destruct K as [-> | ->].
    + left. split; [reflexivity|]. specialize (HF (new_reader d) (RWf_new d) eq_refl Hm (HX _)).
      rewrite view_new, octets_bits in HF by exact Hd. destruct HF as (s & v & Bs & Hs & _). exists s, v. split; [exact Bs|].
      pose proof (DecA_decodes m D HD (d ++ s) ltac:(apply Forall_app; split; assumption)) as C. rewrite Hs in C. apply C.
    + right. split; [reflexivity|]. split; [intros [x Hx]; congruence|]. intros (s & v & Bs & Hs).
      assert (Hr : d_from_reader m d 0 = Err EParse) by (unfold d_from_reader, start; cbn [Nat.eqb]; rewrite Hm; reflexivity).
      specialize (I2 d s _ Hr ltac:(discriminate)). unfold d_try_from in Hs. rewrite I2 in Hs. discriminate.
Qed.
Lemma names_Liv {A} (m : reader A) D : Liv m D Any -> Kd m -> incremental (fun d => d_from_reader m d 0) -> names_errors m.
Proof. intros H. eapply names; [exact H|intros; exact I]. Qed.

Lemma Liv_dash7_tx {E : Env} : Liv read_dash7_tx_status dec_dash7_tx Any.
Proof.
  eapply Liv_ext with (m := c <- read_channel ;; l <- read_i8 ;; e <- read_final_status_code ;; skip_bits (8 * 3) ;;;
    t <- read_native 4 ;; a <- read_addressee ;; ret (mkDash7TxStatus c l e t a))
    (D := let* c := dec_channel in let* l := signed in let* e := dec_final in let* pad := (let* l := some_bytes (N.of_nat 3) in give tt) in
      let* t := host_num 4 in let* a := dec_addressee in give (mkDash7TxStatus c l e t a)).
  - do 3 (apply Liv_bind with (P := Any); [solve [auto with lv nocore]|intros ?|intros ? _; solve [st]]).
    apply Liv_bind with (P := Any); [apply Liv_pad|intros ?|intros ? _; solve [st]]. lv.
  - reflexivity.
  - unfold dec_dash7_tx. change (N.of_nat 3) with 3. dsame.
Qed.
Lemma names_types {E : Env} :
  names_errors read_length /\ names_errors read_varint /\ names_errors read_file_offset /\ names_errors read_channel_header /\
  names_errors read_channel /\ names_errors read_channel_status /\ names_errors read_sub_band /\ names_errors read_sub_profile /\
  names_errors read_access_profile /\ names_errors read_addressee /\ names_errors read_qos /\ names_errors read_dash7_status /\
  names_errors read_dash7_tx_status /\ names_errors read_final_status_code /\ names_errors read_file_header /\
  names_errors read_query /\ names_errors read_dash7_config /\ names_errors read_lorawan_config /\ names_errors read_itf_final_op /\
  names_errors read_interface_config /\ names_errors read_indirect_interface.
Proof.
  pose proof (incremental_types 0) as T. destruct (incremental_aligned (E := E)) as (T1 & T2 & _).
  repeat match goal with H : _ /\ _ |- _ => destruct H end.
  split; [exact (names_Liv _ _ Liv_length ltac:(kd) ltac:(assumption))|].
  split; [exact (names_Liv _ _ Liv_varint ltac:(kd) ltac:(assumption))|].
  split; [exact (names_Liv _ _ Liv_file_offset ltac:(kd) ltac:(assumption))|].
  split; [exact (names_Liv _ _ Liv_channel_header ltac:(kd) ltac:(assumption))|].
  split; [exact (names_Liv _ _ Liv_channel ltac:(kd) ltac:(assumption))|].
  split; [exact (names_Liv _ _ Liv_channel_status ltac:(kd) ltac:(assumption))|].
  split; [exact (names_Liv _ _ Liv_sub_band ltac:(kd) ltac:(assumption))|].
  split; [exact (names_Liv _ _ Liv_sub_profile ltac:(kd) ltac:(assumption))|].
  split; [exact (names_Liv _ _ Liv_access_profile ltac:(kd) ltac:(assumption))|].
  split; [exact (names_Liv _ _ Liv_addressee ltac:(kd) ltac:(assumption))|].
  split; [exact (names_Liv _ _ Liv_qos ltac:(kd) ltac:(assumption))|].
  split; [exact (names_Liv _ _ Liv_dash7_status ltac:(kd) ltac:(assumption))|].
  split; [exact (names_Liv _ _ Liv_dash7_tx ltac:(kd) ltac:(assumption))|].
  split; [exact (names_Liv _ _ Liv_final ltac:(kd) ltac:(assumption))|].
  split; [exact (names_Liv _ _ Liv_file_header ltac:(kd) ltac:(assumption))|].
  split; [exact (names_Liv _ _ Liv_query ltac:(kd) ltac:(assumption))|].
  split; [exact (names_Liv _ _ Liv_dash7_config ltac:(kd) ltac:(assumption))|].
  split; [exact (names_Liv _ _ Liv_lorawan ltac:(kd) ltac:(assumption))|].
  split; [exact (names_Liv _ _ Liv_itf_final ltac:(kd) ltac:(assumption))|].
  split; [exact (names_Liv _ _ Liv_interface_config ltac:(kd) ltac:(assumption))|].
  exact (names_Liv _ _ Liv_indirect_interface ltac:(kd) ltac:(assumption)).
Qed.
Lemma names_file {E : Env} b n : b < 256 -> b <> 2 -> n < 2 ^ 30 -> names_errors (read_file (file_id_of b) n).
Proof.
  intros Hb H2 Hn. apply (names _ _ _ (LivX_file b n)); [intros l Hl; contradiction|apply Kd_file|]. apply incremental_file; [exact Hb|exact Hn].
Qed.

(** ** Actions and commands *)
Lemma nil_err {E : Env} : action_from_bytes [] 0 = Err EIncomplete.
Proof. destruct E as [[] [] []]; reflexivity. Qed.
Lemma action_names {E : Env} d e : bytes d -> action_from_bytes d 0 = Err e ->
  (e = EInvalidParam <-> action_unknown d) /\ (e = EIncomplete \/ e = EInvalidParam \/ e = EParse).
Proof.
  intros Hd He. destruct d as [|b l].
  - rewrite nil_err in He. injection He as <-. split; [|left; reflexivity]. split; [discriminate|]. intros (b & l & H & _). discriminate.
  - pose proof He as Ha. apply action_error in Ha.
    pose proof (entry_reader (b :: l) 0 0 false (new_reader (b :: l)) b l Hd ltac:(lia) (entry_plain (b :: l) 0 0) eq_refl) as ER.
    cbn [negb] in ER. rewrite ER in Ha.
    destruct (reader_of_err _ (at_byte (b :: l) 0 (0 + 8)) _ eq_refl Ha) as [(Hn & ->)|(Hi & Hk)].
    + split; [|right; left; reflexivity]. split; [|reflexivity]. intros _. exists b, l. split; [reflexivity|exact Hn].
    + split; [|destruct Hk; auto]. split; [intros ->; destruct Hk; discriminate|]. intros (b' & l' & H & Hn). injection H as <- <-. contradiction.
Qed.
Lemma unassigned_dead {E : Env} op l : op < 64 -> bytes l -> ~ In op assigned_opcodes -> dec_operand op l = None.
Proof.
  intros Ho Bl Hn. pose proof (OpAt_operand op (new_reader l) Ho (RWf_new l) eq_refl) as O. unfold OpAt in O.
  rewrite view_new, octets_bits in O by exact Bl. destruct (dec_operand op l) as [[v rest]|]; [|reflexivity]. exfalso.
  destruct O as (k & _ & _ & _ & O). unfold reader_of in O. destruct (assoc op action_readers) eqn:Ha; [|discriminate].
  apply Hn, assigned_reader. eauto.
Qed.
Lemma command_names {E : Env} d e : bytes d -> command_try_from d = Err e ->
  (e = ETooMuchData <-> dec_command d <> None) /\ (e = EInvalidParam <-> command_unknown d)
  /\ (e = ETooMuchData \/ e = EIncomplete \/ e = EInvalidParam \/ e = EParse).
Proof.
  intros Hd He. destruct (acts false d) as [[c rest]|] eqn:Ha.
  - pose proof (decode_command_try_from d Hd) as D. unfold dec_command in D |- *. fold (acts false d) in D |- *. rewrite Ha in D |- *.
    destruct (Nat.leb _ _); [congruence|]. assert (e = ETooMuchData) as -> by congruence. split; [|split].
    + split; [discriminate|reflexivity].
    + split; [discriminate|]. intros (p & b & l & HR & Hn). exfalso. pose proof (runs_acts _ _ _ _ HR) as A.
      rewrite acts_step in A. unfold next in A. fold (opcode_at p b) in A.
      rewrite (unassigned_dead _ _ (opcode_bound p b) (runs_bytes _ _ _ _ HR Hd) Hn) in A. congruence.
    + left. reflexivity.
  - destruct (command_error d e Hd Ha He) as (p & n & pend & s & Hp & HR & Hen & Hs & Hend).
    assert (Hk : e = EIncomplete \/ e = EInvalidParam \/ e = EParse).
    { pose proof (entry_err d p n pend s e Hd Hp Hen Hs) as EE. destruct (skipn p d) as [|b l] eqn:Sk; [left; exact EE|].
      pose proof (entry_reader d p n pend s b l Hd Hp Hen Sk) as ER. rewrite Hs in ER. symmetry in ER.
      destruct (reader_of_err _ (at_byte d p (n + 8)) _ eq_refl ER) as [(_ & ->)|(_ & [-> | ->])]; auto. }
    split; [|split].
    + unfold dec_command. fold (acts false d). rewrite Ha. split; [intros ->; decompose [or] Hk; discriminate|intros H; contradiction].
    + destruct (skipn p d) as [|b l] eqn:Sk.
      * pose proof (entry_err d p n pend s e Hd Hp Hen Hs) as EE. rewrite Sk in EE. rewrite EE. split; [discriminate|].
        intros (p2 & b2 & l2 & HR2 & Hn2). pose proof (unassigned_dead _ _ (opcode_bound p2 b2) (runs_bytes _ _ _ _ HR2 Hd) Hn2) as N2.
        pose proof (runs_det _ _ _ _ _ HR2 N2 _ _ HR) as G. inversion G.
      * pose proof (entry_reader d p n pend s b l Hd Hp Hen Sk) as ER. rewrite Hs in ER. symmetry in ER. fold (opcode_at pend b) in ER.
        destruct (reader_of_err _ (at_byte d p (n + 8)) _ eq_refl ER) as [(Hn & ->)|(Hi & Hk')].
        -- split; [|reflexivity]. intros _. exists pend, b, l. split; assumption.
        -- split; [intros ->; destruct Hk'; discriminate|]. intros (p2 & b2 & l2 & HR2 & Hn2). exfalso.
           pose proof (unassigned_dead _ _ (opcode_bound p2 b2) (runs_bytes _ _ _ _ HR2 Hd) Hn2) as N2.
           pose proof (runs_det _ _ _ _ _ HR2 N2 _ _ HR) as G. inversion G as [|? ? ? a rest ? ? Ho]; subst; [contradiction|].
           pose proof (entry_err d p n pend s e Hd Hp Hen Hs) as EE. rewrite Sk in EE. destruct EE as (_ & No & _). congruence.
    + right. exact Hk.
Qed.

(** ** The two types that name some errors wrongly *)
Lemma names_not {A} (m : reader A) D d : DecA m D -> bytes d -> d_try_from m d = Err EIncomplete ->
  (forall s, bytes s -> D (d ++ s) = None) -> ~ names_errors m.
Proof.
  intros HD Hd He HN H. specialize (H d _ Hd He). cbv zeta in H. destruct H as [(H & _)|[(_ & s & v & Bs & Hs)|(H & _)]]; try discriminate.
  pose proof (DecA_decodes m D HD (d ++ s) ltac:(apply Forall_app; split; assumption)) as C. rewrite (HN s Bs) in C.
  destruct C as (e & _ & C). congruence.
Qed.
Lemma names_status {E : Env} : ~ names_errors read_itf_status_op.
Proof.
  apply (names_not _ dec_itf_status [2]); [exact DecA_itf_status|repeat constructor|destruct E as [[] [] []]; vm_compute; reflexivity|].
  intros s _. unfold dec_itf_status, andthen, one. cbn [app]. destruct (dec_length s) as [[n l]|] eqn:El; try reflexivity.
Qed.
Lemma names_version {E : Env} n : ~ names_errors (read_file (file_id_of 2) n).
Proof.
  apply (names_not _ (dec_file 2 n) [1; 1; 0xFF]); [apply (LivX_file 2 n)|repeat constructor|destruct E as [[] [] []]; vm_compute; reflexivity|].
  intros s _. change (dec_file 2 n ([1; 1; 255] ++ s)) with
    ((let* x := text 6 in let* y := text 7 in give (FFirmwareVersion (mkFirmware 1 1 x y))) (255 :: s)).
  unfold andthen at 1, text at 1, andthen at 1, some_bytes at 1. destruct (N.leb 6 _); [|reflexivity].
  change (firstn (N.to_nat 6) (255 :: s)) with (255 :: firstn 5 s).
  assert (U : forall q, utf8_valid (255 :: q) = false) by (intros [|x [|y [|z q]]]; reflexivity).
  rewrite U. reflexivity.
Qed.
