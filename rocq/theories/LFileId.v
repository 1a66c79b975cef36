(** Lemmas for C85. *)
From Coq Require Import List NArith ZArith Bool Lia ZifyBool ZifyNat ZifyN Arith.
From Verif Require Import Base Deku Utils Types Physical Link Network Session Data File FileId
  WellFormed SpecLayout SpecApi SpecFiles SpecFileId LBits LReader LLayout LFiles.
Import ListNotations.
Open Scope N_scope.

Lemma assoc_In {A} b (t : list (N * A)) v : assoc b t = Some v -> In (b, v) t.
Proof.
  induction t as [|[k x] t IH]; cbn; [discriminate|].
  destruct (N.eqb_spec b k) as [->|_]; intros H; [left; congruence|right; auto].
Qed.

Ltac run_k s l k := exists s, l, k%nat; split; [cbn; tauto|split; reflexivity].

Lemma tbl_documented b v : In (b, v) file_id_tbl -> file_id_number v b \/ file_id_shared v b.
Proof.
  assert (R : forall s l k x, In (s, l) file_id_runs -> nth_error l k = Some x -> file_id_number x (s + N.of_nat k))
    by (intros s l k x H1 H2; exists s, l, k; auto).
  intros H. cbn [file_id_tbl In] in H.
  repeat (destruct H as [H|H];
    [injection H as <- <-;
     first
     [ right; unfold file_id_shared; solve [left; split; [reflexivity|lia] | right; left; split; [reflexivity|lia]]
     | left;
       match goal with |- file_id_number ?v ?b =>
         match eval cbv in (find (fun p => (fst p <=? b) && (b <? fst p + N.of_nat (length (snd p)))) file_id_runs) with
         | Some (?s, ?l) =>
           let k := eval cbv in (N.to_nat (b - s)) in
           exact (R s l k v ltac:(cbn; tauto) eq_refl)
         end
       end ]|]).
  destruct H.
Qed.

Lemma file_id_of_documented b : u8 b -> file_id_number (file_id_of b) b \/ file_id_shared (file_id_of b) b.
Proof.
  intros Hb. unfold file_id_of. destruct (assoc b file_id_tbl) as [v|] eqn:A.
  - apply tbl_documented, assoc_In, A.
  - right. unfold file_id_shared. right. right. split; [reflexivity|].
    revert A. pattern b.
    apply (u8_all _ (fun b => match assoc b file_id_tbl with None => (b =? 0x1A) || (0x2F <=? b) | Some _ => true end)).
    + intros x H A. rewrite A in H. apply orb_true_iff in H. destruct H as [H|H].
      * left. apply N.eqb_eq, H. * right. apply N.leb_le, H.
    + reflexivity.
    + exact Hb.
Qed.

Lemma number_file_id_of v b : file_id_number v b -> file_id_of b = v /\ b < 256 /\ file_id_deku_id v = Ok b.
Proof.
  intros (s & l & k & Hi & Hn & ->). cbn [file_id_runs In] in Hi.
  repeat (destruct Hi as [Hi|Hi]; [injection Hi as <- <-;
    repeat (destruct k as [|k]; [cbn in Hn; injection Hn as <-; repeat split; reflexivity|]);
    destruct k; discriminate Hn|]).
  destruct Hi.
Qed.
Lemma shared_file_id_of v b : u8 b -> file_id_shared v b -> file_id_of b = v /\ file_id_is_pat v = true.
Proof.
  intros Hb H.
  assert (K : forall x, u8 x ->
    (x =? 7) || ((0x14 <=? x) && (x <=? 0x16)) = true -> file_id_of x = FidRfu).
  { apply (u8_all (fun x => (x =? 7) || ((0x14 <=? x) && (x <=? 0x16)) = true -> file_id_of x = FidRfu) (fun x => implb ((x =? 7) || ((0x14 <=? x) && (x <=? 0x16)))
      (match file_id_of x with FidRfu => true | _ => false end))); [|reflexivity].
    intros x A B. rewrite B in A. destruct (file_id_of x); try discriminate A. reflexivity. }
  assert (K2 : forall x, u8 x -> (0x1D <=? x) && (x <=? 0x1F) = true -> file_id_of x = FidD7AalpRfu).
  { apply (u8_all (fun x => (0x1D <=? x) && (x <=? 0x1F) = true -> file_id_of x = FidD7AalpRfu) (fun x => implb ((0x1D <=? x) && (x <=? 0x1F))
      (match file_id_of x with FidD7AalpRfu => true | _ => false end))); [|reflexivity].
    intros x A B. rewrite B in A. destruct (file_id_of x); try discriminate A. reflexivity. }
  assert (K3 : forall x, u8 x -> (x =? 0x1A) || (0x2F <=? x) = true -> file_id_of x = FidOther).
  { apply (u8_all (fun x => (x =? 0x1A) || (0x2F <=? x) = true -> file_id_of x = FidOther) (fun x => implb ((x =? 0x1A) || (0x2F <=? x))
      (match file_id_of x with FidOther => true | _ => false end))); [|reflexivity].
    intros x A B. rewrite B in A. destruct (file_id_of x); try discriminate A. reflexivity. }
  destruct H as [[-> H]|[[-> H]|[-> H]]]; (split; [|reflexivity]).
  - apply K; [exact Hb|]. lia.
  - apply K2; [exact Hb|]. lia.
  - apply K3; [exact Hb|]. lia.
Qed.

Lemma file_id_codes : forall (E : Env) b v, u8 b ->
  (file_id_try_from b = Ok v <-> file_id_number v b \/ file_id_shared v b).
Proof.
  intros E b v Hb. rewrite file_id_try_from_ok by exact Hb. split.
  - intros H. assert (v = file_id_of b) as -> by congruence. apply file_id_of_documented, Hb.
  - intros [H|H]; [apply number_file_id_of in H as (-> & _)|apply shared_file_id_of in H as (-> & _); [|exact Hb]];
      reflexivity.
Qed.

Lemma file_id_not_both v b b' : u8 b' -> file_id_number v b -> file_id_shared v b' -> False.
Proof.
  intros Hb H K. apply number_file_id_of in H as (_ & _ & H). apply shared_file_id_of in K as (_ & K); [|exact Hb].
  destruct v; discriminate.
Qed.

(** Reading one byte. *)
Lemma read_file_id_new {E : Env} b t : u8 b ->
  read_file_id (new_reader (b :: t))
  = Ok (file_id_of b, if file_id_is_pat (file_id_of b) && e_rewind then new_reader (b :: t)
                      else mkRd (b :: t) 1 [] 8).
Proof.
  intros Hb. unfold read_file_id, bind.
  assert (R : read_u8 (new_reader (b :: t)) = Ok (b, mkRd (b :: t) 1 [] 8)).
  { unfold u8 in Hb. unfold read_u8. rewrite read_uint_ok by (try apply RWf_new; rewrite view_new; cbn; lia).
    rewrite view_new. rewrite bits_of_bytes_cons.
    rewrite firstn_app, firstn_all2 by (rewrite bits_of_length; lia).
    rewrite bits_of_length, Nat.sub_diag. cbn [firstn]. rewrite app_nil_r.
    rewrite N_of_bits_bits_of_small by exact Hb. reflexivity. }
  rewrite R. unfold read_id_unit. destruct (file_id_is_pat (file_id_of b)); [|reflexivity].
  cbn [andb]. destruct e_rewind; reflexivity.
Qed.

Lemma file_id_parsed : forall (E : Env) b t, u8 b -> exists v, (file_id_number v b \/ file_id_shared v b) /\
  (file_id_number v b ->
     d_from_bytes read_file_id (b :: t) 0 = Ok ((t, 0%nat), v) /\
     d_try_from read_file_id (b :: t) = match t with [] => Ok v | _ => Err ETooMuchData end) /\
  (file_id_shared v b ->
     d_from_bytes read_file_id (b :: t) 0 = Ok ((if e_rewind then b :: t else t, 0%nat), v) /\
     d_try_from read_file_id (b :: t)
     = if e_rewind then Err ETooMuchData else match t with [] => Ok v | _ => Err ETooMuchData end).
Proof.
  intros E b t Hb. exists (file_id_of b). split; [apply file_id_of_documented, Hb|].
  assert (G : forall w, d_from_bytes read_file_id (b :: t) 0 = w <->
    Ok ((if file_id_is_pat (file_id_of b) && e_rewind then b :: t else t, 0%nat), file_id_of b) = w).
  { intros w. unfold d_from_bytes, start. cbn [Nat.eqb]. rewrite read_file_id_new by exact Hb. cbn [rbind fst snd].
    destruct (file_id_is_pat (file_id_of b) && e_rewind); reflexivity. }
  assert (K : d_try_from read_file_id (b :: t) =
    if file_id_is_pat (file_id_of b) && e_rewind then Err ETooMuchData
    else match t with [] => Ok (file_id_of b) | _ => Err ETooMuchData end).
  { unfold d_try_from, d_from_reader, start. cbn [Nat.eqb]. rewrite read_file_id_new by exact Hb. cbn [rbind fst snd].
    destruct (file_id_is_pat (file_id_of b) && e_rewind); [reflexivity|]. destruct t; reflexivity. }
  split.
  - intros H. assert (P : file_id_is_pat (file_id_of b) = false).
    { apply number_file_id_of in H as (_ & _ & H). destruct (file_id_of b); try reflexivity; discriminate H. }
    rewrite K. split; [apply G|]; rewrite P; reflexivity.
  - intros H. apply shared_file_id_of in H as (_ & P); [|exact Hb].
    rewrite K. split; [apply G|]; rewrite P; cbn [andb]; destruct e_rewind; reflexivity.
Qed.

Lemma file_id_empty : forall (E : Env), d_from_bytes read_file_id [] 0 = Err EIncomplete /\
  d_try_from read_file_id [] = Err EIncomplete.
Proof. intros E. split; reflexivity. Qed.

Lemma value_numbered v : file_id_value v ->
  (exists b, file_id_number v b) \/ (exists b, u8 b /\ file_id_shared v b).
Proof.
  intros H.
  assert (T : (exists b, file_id_deku_id v = Ok b /\ u8 b /\ file_id_of b = v) \/ file_id_is_pat v = true).
  { destruct v; try (right; reflexivity); left; try (eexists; repeat split; reflexivity).
    cbn in H. exists (0x20 + i). split; [reflexivity|].
    assert (i = 0 \/ i = 1 \/ i = 2 \/ i = 3 \/ i = 4 \/ i = 5 \/ i = 6 \/ i = 7 \/ i = 8 \/ i = 9 \/ i = 10 \/
      i = 11 \/ i = 12 \/ i = 13 \/ i = 14) as K by lia.
    repeat (destruct K as [->|K]; [split; reflexivity|]). subst. split; reflexivity. }
  destruct T as [(b & Hd & Hb & <-)|T].
  - destruct (file_id_of_documented b Hb) as [K|K]; [left; eauto|right; eauto].
  - right. unfold file_id_shared. destruct v; try discriminate T.
    + exists 7. split; [reflexivity|]. left. auto.
    + exists 0x1D. split; [reflexivity|]. right. left. split; [reflexivity|lia].
    + exists 0x1A. split; [reflexivity|]. right. right. auto.
Qed.

Lemma file_id_written : forall v,
  (forall b, file_id_number v b -> to_bytes (write_file_id v) = Ok [b]) /\
  (forall b, u8 b -> file_id_shared v b -> to_bytes (write_file_id v) = Ok []).
Proof.
  intros v. split; intros b.
  - intros H. apply number_file_id_of in H as (_ & Hb & H). unfold write_file_id. rewrite H.
    destruct (W_u8_last b Hb) as [-> Hl]. unfold to_bytes, rbind. rewrite bytes_of_bits_of_bytes by exact Hl. reflexivity.
  - intros Hb H. apply shared_file_id_of in H as (_ & P); [|exact Hb].
    unfold write_file_id. destruct v; try discriminate P; reflexivity.
Qed.

Lemma file_id_survives : forall (E : Env) v, file_id_value v ->
  ((exists l, to_bytes (write_file_id v) = Ok l /\ d_try_from read_file_id l = Ok v) <->
   exists b, file_id_number v b).
Proof.
  intros E v Hv. split.
  - intros (l & H1 & H2). destruct (value_numbered v Hv) as [K|(b & Hb & K)]; [exact K|].
    rewrite (proj2 (file_id_written v) b Hb K) in H1. assert (l = []) as -> by congruence.
    rewrite (proj2 (file_id_empty E)) in H2. discriminate H2.
  - intros (b & H). exists [b]. split; [exact (proj1 (file_id_written v) b H)|].
    pose proof (number_file_id_of v b H) as (F & Hb & _).
    destruct (file_id_parsed E b [] Hb) as (w & Hw & K & _).
    assert (w = v) as ->.
    { destruct Hw as [Hw|Hw]; [apply number_file_id_of in Hw|apply shared_file_id_of in Hw; [|exact Hb]];
        destruct Hw as (Hw & _); congruence. }
    exact (proj2 (K H)).
Qed.
Lemma file_id_survives_refuted : forall (E : Env), exists b v l,
  u8 b /\ file_id_try_from b = Ok v /\ to_bytes (write_file_id v) = Ok l /\ l = [] /\
  d_try_from read_file_id l = Err EIncomplete /\ file_id_into v = Panic.
Proof.
  intros E. exists 0x2F, FidOther, []. repeat split.
  rewrite file_id_try_from_ok by reflexivity. reflexivity.
Qed.

Lemma profile_specifier : forall (E : Env) s i, access_profile_ID s < 256 ->
  (file_id_try_from (access_profile_ID s) = Ok (FidAccessProfile i) <-> s < 15 /\ access_profile_specifier s = i).
Proof.
  intros E s i Hs. rewrite file_id_codes by exact Hs. unfold access_profile_specifier, access_profile_ID in *. split.
  - intros [H|H].
    + destruct H as (s0 & l & k & Hi & Hn & Hk). cbn [file_id_runs In] in Hi.
      destruct Hi as [Hi|[Hi|[Hi|[Hi|[Hi|[]]]]]]; injection Hi as <- <-.
      1,2,3,4: apply nth_error_In in Hn; cbn [In] in Hn;
        repeat (destruct Hn as [Hn|Hn]; [discriminate Hn|]); destruct Hn.
      change (nth_error (map (fun j => FidAccessProfile (N.of_nat j)) (seq 0 15)) k = Some (FidAccessProfile i)) in Hn.
      rewrite nth_error_map in Hn. destruct (nth_error (seq 0 15) k) as [j|] eqn:J; [|discriminate Hn].
      cbn [option_map] in Hn. injection Hn as <-.
      assert (k < 15)%nat by (rewrite <- (seq_length 15 0); apply nth_error_Some; congruence).
      apply (nth_error_nth _ _ 0%nat) in J. rewrite seq_nth in J by assumption.
      lia.
    + destruct H as [[H _]|[[H _]|[H _]]]; discriminate.
  - intros [Hlt ->]. left. exists 0x20, (map (fun i => FidAccessProfile (N.of_nat i)) (seq 0 15)), (N.to_nat i).
    split; [cbn; tauto|]. split; [|lia].
    rewrite nth_error_map.
    rewrite (nth_error_nth' _ 0%nat) by (rewrite seq_length; lia).
    rewrite seq_nth by lia. cbn [option_map]. f_equal. f_equal. lia.
Qed.
