(** From the proof framework to the vocabulary of SpecApi.v. *)
From Coq Require Import List NArith ZArith Bool Lia ZifyBool ZifyNat ZifyN Arith.
From Verif Require Import Base Deku LBits LReader LLayout SpecApi.
Import ListNotations.
Open Scope N_scope.

Lemma Reads_parses {A} (m : reader A) bs v : Reads m bs v -> parses m bs v.
Proof.
  intros H r rest Hr Hv. assert (Hp : prefix bs (view r)) by (exists rest; exact Hv).
  exists (adv r (length bs)). pose proof (prefix_length _ _ Hp) as Hl.
  split; [apply H; assumption|]. split; [apply RWf_adv; assumption|].
  split; [|reflexivity]. rewrite view_adv by assumption. rewrite Hv, skipn_app, Nat.sub_diag, skipn_all. reflexivity.
Qed.
Lemma RT_round_trips {A} w (m : reader A) v : RT w m v -> round_trips w m v.
Proof. intros (bs & Hw & H). exists bs. split; [exact Hw|apply Reads_parses; exact H]. Qed.

Lemma ReadsA_parses_bytes {A} (m : reader A) l v : ReadsA m (bits_of_bytes l) v -> parses_bytes m l v.
Proof.
  intros H pre suf n. set (r := mkRd (pre ++ l ++ suf) (length pre) [] n).
  assert (Hr : RWf r). { unfold RWf, r. cbn [pos data left length]. rewrite app_length. lia. }
  assert (Hp : prefix (bits_of_bytes l) (view r)).
  { unfold view, r. cbn [left pos data app]. rewrite skipn_app, Nat.sub_diag, skipn_all. cbn [app skipn].
    rewrite bits_of_bytes_app. eexists. reflexivity. }
  rewrite (H r Hr eq_refl Hp). rewrite bits_of_bytes_length, adv_aligned; [|exact Hr|reflexivity|].
  - eexists. reflexivity.
  - apply prefix_length in Hp. rewrite bits_of_bytes_length in Hp. exact Hp.
Qed.
Lemma RTA_round_trips_as {A} w (m : reader A) l v : W w l -> RTA w m v -> round_trips_as w m l v.
Proof.
  intros (Hw & Hb) (bs & Hw' & H). rewrite Hw in Hw'. injection Hw' as <-.
  split; [apply W_to_bytes; split; assumption|]. split; [exact Hb|]. apply ReadsA_parses_bytes. exact H.
Qed.
Lemma RT_round_trips_as {A} w (m : reader A) l v : W w l -> RT w m v -> round_trips_as w m l v.
Proof. intros HW H. apply RTA_round_trips_as; [exact HW|apply RT_A; exact H]. Qed.

(** What a fixed-width read does on any state. *)
Lemma read_uint_view n r a rest : RWf r -> view r = a ++ rest -> length a = n ->
  read_uint n r = Ok (N_of_bits a, adv r n) /\ view (adv r n) = rest /\ RWf (adv r n).
Proof.
  intros Hr Hv Hn. assert (Hl : (n <= length (view r))%nat) by (rewrite Hv, app_length; lia).
  rewrite read_uint_ok by assumption. rewrite view_adv by assumption. rewrite Hv.
  subst n. rewrite firstn_app, Nat.sub_diag, firstn_all, skipn_app, Nat.sub_diag, skipn_all. cbn [firstn skipn app].
  rewrite app_nil_r. split; [reflexivity|]. split; [reflexivity|]. apply RWf_adv; assumption.
Qed.
Lemma view_bits_bound n r v r' : RWf r -> read_uint n r = Ok (v, r') ->
  (n <= length (view r))%nat /\ r' = adv r n /\ v = N_of_bits (firstn n (view r)) /\ v < 2 ^ N.of_nat n.
Proof.
  intros Hr H. destruct (Nat.le_gt_cases n (length (view r))) as [L|L].
  - rewrite read_uint_ok in H by assumption. injection H as <- <-.
    repeat split; [exact L|]. pose proof (N_of_bits_lt (firstn n (view r))) as B.
    rewrite firstn_length_le in B by exact L. exact B.
  - rewrite read_uint_err in H by assumption. discriminate.
Qed.
