(** Which standalone values come back: exactly the well-formed ones. *)
From Coq Require Import List NArith ZArith Bool Lia ZifyBool ZifyNat ZifyN Arith.
From Verif Require Import Base Deku Utils Types Physical Link Network Session Data Query
  Interface File Operation Action WellFormed SpecLayout SpecApi SpecReturn LBits LReader LTypes LUtf8 LLayout
  LRound LRoundOps LApi LNice LNiceFile LNiceOps LCount LActionApi.
Import ListNotations.
Open Scope N_scope.

Lemma d_from_bytes_0 {A} (m : reader A) d :
  d_from_bytes m d 0 =
  match m (new_reader d) with
  | Ok (v, r) => if Nat.leb (Nat.div (bread r) 8) (length d)
                 then Ok ((skipn (Nat.div (bread r) 8) d, Nat.modulo (bread r) 8), v) else Panic
  | Err e => Err e
  | Panic => Panic
  end.
Proof.
  unfold d_from_bytes. rewrite start_0. destruct (m (new_reader d)) as [[v r]| |]; reflexivity.
Qed.
Lemma d_try_from_eq {A} (m : reader A) d :
  d_try_from m d =
  match m (new_reader d) with
  | Ok (v, r) => if Nat.eqb (Nat.div (bread r) 8) (length d) then Ok v else Err ETooMuchData
  | Err e => Err e
  | Panic => Panic
  end.
Proof.
  unfold d_try_from, d_from_reader. rewrite start_0. destruct (m (new_reader d)) as [[v r]| |]; reflexivity.
Qed.

(** A reader that on a byte boundary consumes and counts whole bytes. *)
Lemma counted {A} (m : reader A) d v r : CountA m -> m (new_reader d) = Ok (v, r) ->
  left r = [] /\ data r = d /\ bread r = (8 * pos r)%nat /\ (pos r <= length d)%nat.
Proof.
  intros H E1. pose proof (H (new_reader d) v r (new_RWf d) eq_refl E1) as M.
  assert (Hl : left r = []) by (eapply moved_left; [apply new_RWf| |exact M]; reflexivity).
  destruct M as (Hr & Hd & _ & k & Hp & Hb). unfold BP in Hp. rewrite Hl in Hp. cbn in Hp, Hb.
  change (data (new_reader d)) with d in Hd. destruct Hr as (R1 & _). rewrite Hd in R1.
  split; [exact Hl|]. split; [exact Hd|]. split; [lia|exact R1].
Qed.
Lemma div8 n : Nat.div (8 * n) 8 = n.
Proof. rewrite Nat.mul_comm. apply Nat.div_mul. lia. Qed.
Lemma mod8 n : Nat.modulo (8 * n) 8 = 0%nat.
Proof. rewrite Nat.mul_comm. apply Nat.mod_mul. lia. Qed.

Lemma transfers_of {A} w (m : reader A) l v : round_trips_as w m l v -> CountA m -> transfers w m l v.
Proof.
  intros HR HC. split; [exact HR|]. destruct HR as (_ & _ & HP).
  assert (K : forall suf, exists n, m (new_reader (l ++ suf)) = Ok (v, mkRd (l ++ suf) (length l) [] n) /\ n = (8 * length l)%nat).
  { intros suf. destruct (HP [] suf 0%nat) as (n & Hn). cbn [app length Nat.add] in Hn. exists n.
    change (mkRd (l ++ suf) 0 [] 0) with (new_reader (l ++ suf)) in Hn. split; [exact Hn|].
    destruct (counted _ _ _ _ HC Hn) as (_ & _ & B & _). exact B. }
  split.
  - destruct (K []) as (n & Hn & ->). rewrite app_nil_r in Hn. rewrite d_try_from_eq, Hn. cbn [bread].
    rewrite div8, Nat.eqb_refl. reflexivity.
  - intros suf. destruct (K suf) as (n & Hn & ->). rewrite d_from_bytes_0, Hn. cbn [bread].
    rewrite div8, mod8, app_length. destruct (Nat.leb_spec (length l) (length l + length suf)); [|lia].
    rewrite skipn_app, skipn_all, Nat.sub_diag. reflexivity.
Qed.
Lemma transfers_comes_back {A} w (m : reader A) l v : transfers w m l v -> comes_back w m v.
Proof.
  intros ((H1 & _) & _ & H2). exists l. eexists. split; [exact H1|]. specialize (H2 []). rewrite app_nil_r in H2. exact H2.
Qed.
Lemma comes_back_reads {A} w (m : reader A) v : comes_back w m v -> exists l r, to_bytes w = Ok l /\ m (new_reader l) = Ok (v, r).
Proof.
  intros (l & rest & H1 & H2). rewrite d_from_bytes_0 in H2. destruct (m (new_reader l)) as [[v' r]| |] eqn:E1; try discriminate.
  exists l, r. split; [exact H1|]. destruct (Nat.leb _ _); [|discriminate]. injection H2 as _ <-. exact E1.
Qed.
Lemma comes_back_wf {A} w (m : reader A) (P : A -> Prop) v : NiceA m P -> comes_back w m v -> P v.
Proof.
  intros HN H. destruct (comes_back_reads _ _ _ H) as (l & r & _ & E1).
  specialize (HN (new_reader l) (new_RWf l) eq_refl). unfold NiceR in HN. rewrite E1 in HN. apply HN.
Qed.

(** The pattern of everything below. *)
Lemma exactly {A} w (m : reader A) l (P : A -> Prop) v :
  (P v -> W w l) -> (P v -> RTA w m v) -> NiceA m P -> CountA m ->
  (P v -> transfers w m l v) /\ (comes_back w m v <-> P v).
Proof.
  intros HW HR HN HC. assert (T : P v -> transfers w m l v).
  { intros Hv. apply transfers_of; [|exact HC]. apply RTA_round_trips_as; auto. }
  split; [exact T|]. split; [apply comes_back_wf; exact HN|].
  intros Hv. eapply transfers_comes_back, T. exact Hv.
Qed.

Ltac exact_type Wl Rl Nl Cl :=
  apply exactly; [apply Wl|intros; first [apply RT_A, Rl; assumption|apply Rl; assumption]
    |first [apply Nice_A, Nl|apply Nl]|first [apply Count_A, Cl|apply Cl]].

Lemma addressee_exact {E : Env} v :
  (wf_addressee v -> transfers (write_addressee v) read_addressee (enc_addressee v) v) /\
  (comes_back (write_addressee v) read_addressee v <-> wf_addressee v).
Proof. exact_type @W_addressee @RT_addressee @Nice_addressee @Count_addressee. Qed.
Lemma query_exact q :
  (wf_query q -> transfers (write_query q) read_query (enc_query q) q) /\
  (comes_back (write_query q) read_query q <-> wf_query q).
Proof. exact_type @W_query @RT_query @Nice_query @Count_query. Qed.
Lemma interface_config_exact {E : Env} v :
  (wf_interface_config v -> transfers (write_interface_config v) read_interface_config (enc_interface_config v) v) /\
  (comes_back (write_interface_config v) read_interface_config v <-> wf_interface_config v).
Proof. exact_type @W_interface_config @RTA_interface_config @NiceA_interface_config @CountA_interface_config. Qed.
Lemma indirect_interface_exact {E : Env} v :
  (wf_indirect_interface v -> transfers (write_indirect_interface v) read_indirect_interface (enc_indirect_interface v) v) /\
  (comes_back (write_indirect_interface v) read_indirect_interface v <-> wf_indirect_interface v).
Proof. exact_type @W_indirect_interface @RTA_indirect_interface @NiceA_indirect_interface @CountA_indirect_interface. Qed.
Lemma file_exact {E : Env} b n f : u8 b -> n = N.of_nat (length (enc_file f)) ->
  (wf_file b f -> transfers (write_file f) (read_file (file_id_of b) n) (enc_file f) f) /\
  (wf_length n -> (comes_back (write_file f) (read_file (file_id_of b) n) f <-> wf_file b f)).
Proof.
  intros Hb Hn. assert (T : wf_file b f -> transfers (write_file f) (read_file (file_id_of b) n) (enc_file f) f).
  { intros H. apply transfers_of; [|apply Count_A, Count_file]. eapply RT_round_trips_as; [eapply W_file; exact H|].
    subst n. apply RT_file; [exact Hb|exact H]. }
  split; [exact T|]. intros Hl. split.
  - apply comes_back_wf, Nice_A, Nice_file; assumption.
  - intros H. eapply transfers_comes_back, T, H.
Qed.
