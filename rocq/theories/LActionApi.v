(** The entry points of Action, in the vocabulary of the specification. *)
From Coq Require Import List NArith ZArith Bool Lia ZifyBool ZifyNat ZifyN Arith.
From Verif Require Import Base Deku Utils Types Physical Link Network Session Data Query
  Interface File Operation Action Command WellFormed SpecLayout SpecAction SpecApi LBits LReader LTypes
  LUtf8 LLayout LRound LRoundOps LAction LApi LNumbers LNice LNiceFile LNiceOps LCount.
Import ListNotations.
Open Scope N_scope.

(** ** Entry points on a fresh reader *)
Lemma start_0 {A} (m : reader A) d : start m d 0 = m (new_reader d).
Proof. reflexivity. Qed.
Lemma new_RWf d : RWf (new_reader d).
Proof. unfold RWf, new_reader. cbn. lia. Qed.

Lemma pad_rest_0 d n : pad_rest (d, 0%nat) n = Ok (skipn (Nat.div n 8) d, Nat.modulo n 8).
Proof.
  unfold pad_rest. cbn [fst snd]. rewrite Nat.add_0_r.
  pose proof (Nat.div_mod n 8). pose proof (Nat.mod_upper_bound n 8).
  destruct (Nat.leb_spec (length d * 8) n) as [L|L].
  - rewrite skipn_all2; [reflexivity|]. lia.
  - replace (if Nat.eqb (Nat.modulo n 8) 0 then Nat.div n 8 else Nat.div (n - Nat.modulo n 8) 8) with (Nat.div n 8).
    + destruct (Nat.leb_spec (Nat.div n 8) (length d)); [reflexivity|lia].
    + destruct (Nat.eqb_spec (Nat.modulo n 8) 0) as [Z|Z]; [reflexivity|].
      apply (Nat.div_unique _ 8 _ 0); lia.
Qed.
Lemma u_from_bytes_0 {A} (m : reader A) d :
  u_from_bytes m d 0 =
  match m (new_reader d) with
  | Ok (v, r) => Ok ((skipn (Nat.div (bread r) 8) d, Nat.modulo (bread r) 8), v)
  | Err e => Err e
  | Panic => Panic
  end.
Proof.
  unfold u_from_bytes. rewrite start_0. destruct (m (new_reader d)) as [[v r]| |]; [|reflexivity..].
  cbn [rbind snd fst]. rewrite pad_rest_0. reflexivity.
Qed.
Lemma u_try_from_eq {A} (m : reader A) d :
  u_try_from m d =
  match m (new_reader d) with
  | Ok (v, r) => if Nat.leb (length d) (Nat.div (bread r) 8) then Ok v else Err ETooMuchData
  | Err e => Err e
  | Panic => Panic
  end.
Proof.
  unfold u_try_from. rewrite u_from_bytes_0. destruct (m (new_reader d)) as [[v r]| |]; [|reflexivity..].
  cbn [rbind fst snd]. destruct (Nat.leb_spec (length d) (Nat.div (bread r) 8)) as [L|L].
  - rewrite skipn_all2 by exact L. reflexivity.
  - destruct (skipn (Nat.div (bread r) 8) d) eqn:Sk; [|reflexivity].
    apply (f_equal (@length N)) in Sk. rewrite skipn_length in Sk. cbn [length] in Sk. lia.
Qed.

(** ** C06, C07 *)
Lemma action_bytes {E : Env} a : wf_action a ->
  action_to_bytes a = Ok (enc_action a) /\ bytes (enc_action a).
Proof. intros H. pose proof (W_action a H) as HW. split; [apply W_to_bytes; exact HW|apply HW]. Qed.
Lemma action_parses {E : Env} a : wf_action a -> parses_bytes read_action (enc_action a) a.
Proof.
  intros H pre suf n. set (r := mkRd (pre ++ enc_action a ++ suf) (length pre) [] n).
  assert (HA : At r (length pre)). { apply At_start. rewrite app_length. lia. }
  rewrite (read_action_ok a r (length pre) suf H HA).
  - eexists. reflexivity.
  - unfold r. cbn [data]. rewrite skipn_app, Nat.sub_diag, skipn_all. reflexivity.
Qed.
Lemma action_new {E : Env} a s : wf_action a ->
  read_action (new_reader (enc_action a ++ s))
  = Ok (a, mkRd (enc_action a ++ s) (length (enc_action a)) [] (8 + 8 * length (enc_action a))).
Proof.
  intros H. rewrite (read_action_ok a _ 0 s H); [reflexivity|apply At_new|reflexivity].
Qed.
Lemma action_try_from_suffix {E : Env} a s : wf_action a ->
  action_try_from (enc_action a ++ s) = if Nat.leb (length s) 1 then Ok a else Err ETooMuchData.
Proof.
  intros H. unfold action_try_from. rewrite u_try_from_eq, action_new by exact H. cbn [bread].
  rewrite app_length. replace (8 + 8 * length (enc_action a))%nat with (S (length (enc_action a)) * 8)%nat by lia.
  rewrite Nat.div_mul by lia.
  destruct (Nat.leb_spec (length (enc_action a) + length s) (S (length (enc_action a)))),
    (Nat.leb_spec (length s) 1); try reflexivity; lia.
Qed.
Lemma action_round_trip {E : Env} a : wf_action a ->
  exists l, action_to_bytes a = Ok l /\ bytes l /\ parses_bytes read_action l a /\ action_try_from l = Ok a.
Proof.
  intros H. destruct (action_bytes a H) as (H1 & H2). exists (enc_action a).
  split; [exact H1|]. split; [exact H2|]. split; [apply action_parses; exact H|].
  pose proof (action_try_from_suffix a [] H) as G. rewrite app_nil_r in G. exact G.
Qed.
Lemma first_byte_eq f1 f0 op : op < 64 -> first_byte f1 f0 op = 64 * (2 * b2n f1 + b2n f0) + op.
Proof.
  intros H. unfold first_byte, pack. cbn [fold_left fst snd]. change (2 ^ 1) with 2. change (2 ^ 6) with 64.
  destruct f1, f0; cbn [bit b2n]; lia.
Qed.
Lemma action_first_byte {E : Env} a : wf_action a ->
  exists t, enc_action a = (64 * flag_bits a + opcode_of a) :: t.
Proof.
  destruct a; intros H; cbn [wf_action enc_action flag_bits opcode_of] in *; try contradiction; eexists;
    unfold enc_file_id_op, enc_file_data, enc_file_properties, enc_action_query, hdr_byte;
    rewrite ?first_byte_eq by reflexivity; try reflexivity.
  - destruct (so_type v); reflexivity.
  - destruct (ck_step v); reflexivity.
  - destruct (lg_op v); reflexivity.
Qed.

(** ** C08 *)
Lemma action_dispatch {E : Env} d p n a r' : read_action (mkRd d p [] n) = Ok (a, r') -> (p <= length d)%nat ->
  exists b, nth_error d p = Some b /\ In (b mod 64) assigned_opcodes /\ opcode_of a = b mod 64 /\
    (is_tx_status a = false -> stored_opcode a = b mod 64).
Proof.
  intros H Hp. pose proof (At_start d p n Hp) as HA.
  destruct (skipn p d) as [|b t] eqn:Hs.
  - rewrite (read_action_nil _ p HA Hs) in H. discriminate.
  - exists b. destruct (skipn_cons_nth _ _ _ _ Hs) as (Hn & _). split; [exact Hn|].
    destruct (read_action_parsed _ p b t a r' HA Hs H) as (H1 & H2 & H3 & _). auto.
Qed.
Lemma nth_skipn {A} (d : list A) p b : nth_error d p = Some b -> skipn p d = b :: skipn (S p) d.
Proof.
  revert d. induction p as [|p IH]; intros [|x d] H; try discriminate.
  - injection H as ->. reflexivity.
  - apply IH in H. exact H.
Qed.
Lemma action_unassigned {E : Env} d p n b : nth_error d p = Some b -> ~ In (b mod 64) assigned_opcodes ->
  read_action (mkRd d p [] n) = Err EInvalidParam.
Proof.
  intros Hb Hn. assert (Hp : (p < length d)%nat) by (apply nth_error_Some; rewrite Hb; discriminate).
  apply (read_action_unassigned _ p b (skipn (S p) d)).
  - apply At_start. lia.
  - apply nth_skipn. exact Hb.
  - exact Hn.
Qed.
