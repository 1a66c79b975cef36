(** Lemmas for C11: commands with TxStatus actions one after the other. *)
From Coq Require Import List NArith ZArith Bool Lia ZifyBool ZifyNat ZifyN Arith.
From Verif Require Import Base Deku Utils Types Physical Link Network Session Data Query
  Interface File Operation Action Command WellFormed SpecLayout SpecApi SpecAction SpecFail LBits LReader
  LFail LWrite LSize LFrameCanonW.
Import ListNotations.
Open Scope N_scope.

Lemma pad_mod l n : (n < 8)%nat -> bits_of_bytes (bytes_of_bits l) = l ++ repeat false n -> ((length l + n) mod 8 = 0)%nat.
Proof.
  intros _ H. apply (f_equal (@length bool)) in H. rewrite app_length, repeat_length in H. rewrite <- H.
  rewrite bits_of_bytes_length. rewrite Nat.mul_comm. apply Nat.mod_mul. lia.
Qed.
Lemma commute p b : (0 < p)%nat -> b ++ repeat false p = repeat false p ++ b -> b = repeat false (length b).
Proof.
  intros Hp. remember (length b) as n eqn:Hn. revert b Hn. induction n as [n IH] using lt_wf_ind. intros b Hn H.
  destruct b as [|x b]; [subst n; reflexivity|]. destruct p as [|p]; [lia|]. cbn [repeat app] in H. injection H as -> H.
  subst n. cbn [length repeat]. f_equal. apply (IH (length b)); [cbn; lia|reflexivity|].
  assert (R : repeat false p ++ false :: b = repeat false (S p) ++ b).
  { clear. induction p as [|p IH]; [reflexivity|]. cbn [repeat app] in *. rewrite IH. reflexivity. }
  rewrite <- R. exact H.
Qed.

(** ** Which actions are written as zeros *)
Definition one_in (w : writer) : Prop := forall l, w = Ok l -> In true l.
Lemma one_left v w : one_in v -> one_in (v +++ w).
Proof.
  intros H l G. unfold wseq, rbind in G. destruct v as [x|e|]; [|discriminate..].
  destruct w as [y|e|]; [|discriminate..]. injection G as <-. apply in_or_app. left. apply H. reflexivity.
Qed.
Lemma one_right v w : one_in w -> one_in (v +++ w).
Proof.
  intros H l G. unfold wseq, rbind in G. destruct v as [x|e|]; [|discriminate..].
  destruct w as [y|e|]; [|discriminate..]. injection G as <-. apply in_or_app. right. apply H. reflexivity.
Qed.
Definition zero_nop (a : action) : Prop := exists o, a = ANop (mkNop (mkHeader false false) o).
Lemma not_zero {E : Env} a : ~ zero_nop a -> one_in (write_action a).
Proof.
  assert (O : forall k, In k [1;2;4;5;6;8;9;10;11;16;17;18;19;20;23;31;32;33;34;35;38;48;49;50;51;52;63] -> one_in (write_opcode k)).
  { intros k Hk l Hl. cbn [In] in Hk. repeat (destruct Hk as [<-|Hk]; [injection Hl as <-; cbn; tauto|]). destruct Hk. }
  intros H. destruct a; cbn [write_action action_opcode].
  1:{ unfold write_nop, write_header. destruct v as [[[] []] o]; cbn [nop_header h_group h_response].
      1,2: apply one_left, one_left; intros l Hl; injection Hl as <-; left; reflexivity.
      1: apply one_left, one_right; intros l Hl; injection Hl as <-; left; reflexivity.
      exfalso. apply H. exists o. reflexivity. }
  all: unfold write_nop, write_read_file_data, write_file_id_op, write_file_data, write_file_properties, write_action_query,
    write_permission_request, write_copy_file, write_status_operand, write_response_tag, write_tx_status_op, write_chunk,
    write_logic, write_forward, write_indirect_forward, write_request_tag.
  all: repeat first [apply O; cbn; tauto | apply one_left; apply O; cbn; tauto | apply one_right].
Qed.

Definition txs (c : list action) : nat := length (filter is_tx_status c).
Lemma bits_six {E : Env} c w : write_command c = Ok w -> (length w mod 8 = (6 * txs c) mod 8)%nat.
Proof.
  intros H. destruct (Exists_dec unwritable c unwritable_dec) as [Q|Q].
  { pose proof (command_fails c Q) as K. unfold command_to_bytes, to_bytes in K. rewrite H in K. discriminate. }
  apply Forall_Exists_neg in Q. destruct (command_bits c Q) as (ls & F & W). rewrite W in H. injection H as <-. clear W.
  induction F as [|a b c' ls Ha F IH]; [reflexivity|].
  inversion Q as [|? ? Q1 Q2]; subst. destruct (write_bits a Q1) as (b' & Hb & Lb). assert (b' = b) as -> by congruence.
  specialize (IH Q2). cbn [concat]. rewrite app_length, Lb. unfold txs in *. cbn [filter].
  assert (O : odd_bits a = if is_tx_status a then 6%nat else 0%nat) by (destruct a; reflexivity). rewrite O.
  clear - IH. destruct (is_tx_status a); cbn [length]; lia.
Qed.
Lemma zero_bits {E : Env} c w : write_command c = Ok w -> w = repeat false (length w) -> Forall zero_nop c.
Proof.
  revert w. induction c as [|a c IH]; intros w H Z; [constructor|].
  change (write_action a +++ write_command c = Ok w) in H. unfold wseq, rbind in H.
  destruct (write_action a) as [x|e|] eqn:A; [|discriminate..]. destruct (write_command c) as [y|e|]; [|discriminate..].
  injection H as <-. rewrite app_length, repeat_app in Z.
  assert (Zx : x = repeat false (length x) /\ y = repeat false (length y)).
  { apply (f_equal (fun l => (firstn (length x) l, skipn (length x) l))) in Z.
    rewrite !firstn_app, !skipn_app, !repeat_length, !Nat.sub_diag, !firstn_O, !skipn_O, !firstn_all, !skipn_all in Z.
    rewrite firstn_all2, skipn_all2 in Z by (rewrite repeat_length; lia). rewrite !app_nil_r in Z. cbn [app] in Z.
    split; congruence. }
  destruct Zx as (Zx & Zy). constructor; [|eapply IH; [reflexivity|exact Zy]].
  destruct a; try (exfalso; assert (T : In true x) by (refine (not_zero _ _ x A); intros (o & K); discriminate K);
    rewrite Zx in T; apply repeat_spec in T; discriminate T).
  destruct v as [[g r] o]. destruct g; [|destruct r].
  3: exists o; reflexivity.
  all: exfalso; assert (T : In true x) by (refine (not_zero _ _ x A); intros (o' & K); discriminate K);
    rewrite Zx in T; apply repeat_spec in T; discriminate T.
Qed.
Lemma bits_zero {E : Env} c w : Forall zero_nop c -> write_command c = Ok w -> w = repeat false (8 * length c).
Proof.
  intros H. revert w. induction H as [|a c (o & ->) _ IH]; intros w W; [injection W as <-; reflexivity|].
  change (write_action (ANop (mkNop (mkHeader false false) o)) +++ write_command c = Ok w) in W. unfold wseq, rbind in W.
  destruct (write_command c) as [y|e|]; [|discriminate..]. specialize (IH y eq_refl). subst y.
  change (Ok (repeat false 8 ++ repeat false (8 * length c)) = Ok w) in W.
  assert (w = repeat false 8 ++ repeat false (8 * length c)) as -> by congruence.
  rewrite <- repeat_app. f_equal. cbn [length]. lia.
Qed.
Lemma zero_txs c : Forall zero_nop c -> txs c = 0%nat.
Proof. unfold txs. induction 1 as [|a c (o & ->) _ IH]; [reflexivity|exact IH]. Qed.

Lemma concat_exact : forall (E : Env) a b x y, command_to_bytes a = Ok x -> command_to_bytes b = Ok y ->
  (command_to_bytes (a ++ b) = Ok (x ++ y) <-> (length (filter is_tx_status a) mod 4 = 0)%nat \/ Forall zero_nop b).
Proof.
  intros E a b x y Ha Hb. fold (txs a).
  assert (W : write_command (a ++ b) = write_command a +++ write_command b).
  { unfold write_command. clear. induction a as [|k a IH].
    - cbn. unfold wseq, rbind. destruct (write_list write_action b); reflexivity.
    - cbn [app write_list]. rewrite IH. unfold wseq, rbind. destruct (write_action k), (write_list write_action a), (write_list write_action b); try reflexivity.
      rewrite app_assoc. reflexivity. }
  unfold command_to_bytes, to_bytes in *. rewrite W. clear W.
  destruct (write_command a) as [A|?|] eqn:WA; [|discriminate..]. destruct (write_command b) as [B|?|] eqn:WB; [|discriminate..].
  unfold wseq, rbind in *. assert (x = bytes_of_bits A) as -> by congruence. assert (y = bytes_of_bits B) as -> by congruence. clear Ha Hb.
  pose proof (bits_six _ _ WA) as SA. pose proof (bits_six _ _ WB) as SB.
  destruct (padded A) as (p & Hp & PA). destruct (padded B) as (q & Hq & PB). destruct (padded (A ++ B)) as (s & Hs & PS).
  pose proof (pad_mod _ _ Hp PA) as MA. pose proof (pad_mod _ _ Hq PB) as MB. pose proof (pad_mod _ _ Hs PS) as MS.
  rewrite app_length in MS.
  assert (Q : Ok (bytes_of_bits (A ++ B)) = Ok (bytes_of_bits A ++ bytes_of_bits B) <->
    B ++ repeat false s = repeat false p ++ B ++ repeat false q).
  { split; intros H.
    - assert (H' : bytes_of_bits (A ++ B) = bytes_of_bits A ++ bytes_of_bits B) by congruence.
      apply (f_equal bits_of_bytes) in H'. rewrite bits_of_bytes_app, PS, PA, PB in H'. rewrite <- !app_assoc in H'.
      apply app_inv_head in H'. exact H'.
    - f_equal. apply bits_of_bytes_inj; [apply bytes_of_bits_bytes|apply Forall_app; split; apply bytes_of_bits_bytes|].
      rewrite bits_of_bytes_app, PS, PA, PB. rewrite <- !app_assoc. f_equal. exact H. }
  rewrite Q. clear Q. split.
  - intros H. destruct p as [|p]; [left; lia|right].
    pose proof (f_equal (@length bool) H) as L. rewrite !app_length, !repeat_length in L.
    assert (s = (S p + q)%nat) as -> by lia. rewrite repeat_app, !app_assoc in H. apply app_inv_tail in H.
    apply (zero_bits _ _ WB). apply (commute (S p)); [lia|exact H].
  - intros [H|H].
    + assert (p = 0%nat) as -> by lia. cbn [repeat app]. f_equal. f_equal. lia.
    + pose proof (zero_txs _ H) as T. rewrite (bits_zero _ _ H WB) in *. rewrite repeat_length in *.
      assert (q = 0%nat) as -> by lia. assert (s = p) as -> by lia. cbn [repeat]. rewrite app_nil_r, <- !repeat_app. f_equal. lia.
Qed.
