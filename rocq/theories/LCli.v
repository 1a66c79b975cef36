(** Lemmas for C39 and C40. *)
From Coq Require Import List NArith ZArith Bool Lia Relations.
From Verif Require Import Base Deku Utils Types Physical Link Network Session Data Query Interface File
  Operation Action Command Frames Cli WellFormed SpecLayout SpecFail SpecApi SpecReturn SpecFiles SpecFrames SpecCli
  LBits LReader LLayout LRound LNice LNiceFile LNiceOps LActionApi LReturn LFiles LFrames LFail LCommandApi LFramesW.
Import ListNotations.
Open Scope N_scope.

(** ** White space *)
Lemma ws_in c : is_whitespace c = true <-> In c white_space.
Proof.
  split.
  - unfold is_whitespace, in_range. intros H. rewrite !orb_true_iff, !andb_true_iff, !N.leb_le, !N.eqb_eq in H.
    assert (R : forall lo n, (lo <= c <= lo + N.of_nat n) -> In c (map (fun k => lo + N.of_nat k) (seq 0 (S n)))).
    { intros lo n Hr. apply in_map_iff. exists (N.to_nat (c - lo)). split; [lia|]. apply in_seq. lia. }
    repeat match type of H with _ \/ _ => destruct H as [H|H] end;
      try (subst c; cbv; repeat (try (left; reflexivity); right); fail).
    + apply (R 0x09 4%nat) in H. cbn in H. unfold white_space. cbn [In] in *. tauto.
    + apply (R 0x2000 10%nat) in H. cbn in H. unfold white_space. cbn [In] in *. tauto.
  - unfold white_space. cbn [In]. intros H. repeat (destruct H as [<-|H]; [reflexivity|]). destruct H.
Qed.
Lemma strip_app a b : remove_whitespace (a ++ b) = remove_whitespace a ++ remove_whitespace b.
Proof. apply filter_app. Qed.
Lemma strip_spaced a b : spaced a b -> remove_whitespace a = remove_whitespace b.
Proof.
  intros [x c y H]. rewrite !strip_app. f_equal. cbn [remove_whitespace filter].
  apply ws_in in H. rewrite H. reflexivity.
Qed.
Lemma strip_same a b : same_but_space a b -> remove_whitespace a = remove_whitespace b.
Proof. induction 1; try congruence. apply strip_spaced. assumption. Qed.
Lemma strip_cli {E : Env} t fid a b : remove_whitespace a = remove_whitespace b -> cli_main t fid a = cli_main t fid b.
Proof. intros H. unfold cli_main. rewrite H. reflexivity. Qed.
Lemma white_space_ignored {E : Env} t fid a b : same_but_space a b -> cli_main t fid a = cli_main t fid b.
Proof. intros H. apply strip_cli, strip_same, H. Qed.

(** ** Digits *)
Lemma hex_in c v : hex_val c = Some v <-> In (c, v) hex_digits.
Proof.
  split.
  - unfold hex_val, in_range. intros H.
    assert (R : forall lo n o, (lo <= c <= lo + N.of_nat n) -> In (c, c - lo + o) (map (fun k => (lo + N.of_nat k, N.of_nat k + o)) (seq 0 (S n)))).
    { intros lo n o Hr. apply in_map_iff. exists (N.to_nat (c - lo)). split; [f_equal; lia|]. apply in_seq. lia. }
    destruct ((0x30 <=? c) && (c <=? 0x39)) eqn:E1.
    { apply andb_true_iff in E1. rewrite !N.leb_le in E1. injection H as <-. specialize (R 0x30 9%nat 0).
      rewrite N.add_0_r in R. apply R in E1. cbn in E1. unfold hex_digits. cbn [In]. tauto. }
    destruct ((0x41 <=? c) && (c <=? 0x46)) eqn:E2.
    { apply andb_true_iff in E2. rewrite !N.leb_le in E2. injection H as <-. specialize (R 0x41 5%nat 10).
      apply R in E2. cbn in E2. unfold hex_digits. cbn [In]. tauto. }
    destruct ((0x61 <=? c) && (c <=? 0x66)) eqn:E3; [|discriminate].
    apply andb_true_iff in E3. rewrite !N.leb_le in E3. injection H as <-. specialize (R 0x61 5%nat 10).
    apply R in E3. cbn in E3. unfold hex_digits. cbn [In]. tauto.
  - unfold hex_digits. cbn [In]. intros H.
    repeat (destruct H as [H|H]; [injection H as <- <-; reflexivity|]). destruct H.
Qed.
Lemma hex_not_ws c v : hex_val c = Some v -> is_whitespace c = false /\ c < 128 /\ v < 16.
Proof.
  intros H. apply hex_in in H. unfold hex_digits in H. cbn [In] in H.
  repeat (destruct H as [H|H]; [injection H as <- <-; repeat split; reflexivity|]). destruct H.
Qed.
Lemma utf8_ascii c : c < 128 -> utf8_encode1 c = [c].
Proof. intros H. unfold utf8_encode1. apply N.ltb_lt in H. rewrite H. reflexivity. Qed.
(** Every byte of a character that is no hex digit is no hex digit. *)
Lemma utf8_other c : hex_val c = None -> exists b t, utf8_encode1 c = b :: t /\ hex_val b = None.
Proof.
  intros H. unfold utf8_encode1.
  assert (K : forall b, 0x80 <= b -> hex_val b = None).
  { intros b Hb. unfold hex_val, in_range.
    repeat match goal with |- context [?x <=? ?y] => destruct (N.leb_spec x y); try lia end; reflexivity. }
  destruct (c <? 0x80); [eexists _, _; split; [reflexivity|exact H]|].
  destruct (c <? 0x800); [eexists _, _; split; [reflexivity|apply K; lia]|].
  destruct (c <? 0x10000); eexists _, _; (split; [reflexivity|apply K; lia]).
Qed.

(** Nibbles of a stripped string. *)
Fixpoint nibbles (s : list N) : option (list N) :=
  match s with
  | [] => Some []
  | c :: tl => match hex_val c, nibbles tl with Some v, Some l => Some (v :: l) | _, _ => None end
  end.
Fixpoint pack (l : list N) : option (list N) :=
  match l with
  | [] => Some []
  | h :: k :: tl => match pack tl with Some r => Some (16 * h + k :: r) | None => None end
  | [_] => None
  end.
Lemma pair_ind {A} (P : list A -> Prop) : P [] -> (forall a, P [a]) -> (forall a b l, P l -> P (a :: b :: l)) -> forall l, P l.
Proof.
  intros H0 H1 H2 l. enough (P l /\ forall a, P (a :: l)) by tauto.
  induction l as [|x l IH]; [auto|]. destruct IH as [I1 I2]. split; [apply I2|]. intros a. apply H2, I1.
Qed.
Lemma hex_nil_in s b t : hex_val b = None -> nibbles (s ++ b :: t) = None.
Proof.
  intros H. induction s as [|c s IH]; cbn [app nibbles]; [rewrite H; reflexivity|]. rewrite IH.
  destruct (hex_val c); reflexivity.
Qed.
Lemma hex_pairs_nibbles l : hex_pairs l = match nibbles l with Some n => pack n | None => None end.
Proof.
  induction l as [|a|a b l IH] using pair_ind; [reflexivity|cbn; destruct (hex_val a); reflexivity|].
  cbn [hex_pairs nibbles]. rewrite IH. destruct (hex_val a), (hex_val b), (nibbles l); reflexivity.
Qed.
Lemma nibbles_utf8 s : nibbles (flat_map utf8_encode1 s) = nibbles s.
Proof.
  induction s as [|c s IH]; [reflexivity|]. cbn [flat_map nibbles]. destruct (hex_val c) as [v|] eqn:Hc.
  - rewrite utf8_ascii by (apply hex_not_ws in Hc; tauto). cbn [app nibbles]. rewrite Hc, IH. reflexivity.
  - destruct (utf8_other c Hc) as (b & t & -> & Hb). cbn [app nibbles]. rewrite Hb. reflexivity.
Qed.
Lemma nibbles_digits s n : nibbles (remove_whitespace s) = Some n <-> digits s n.
Proof.
  split.
  - revert n. induction s as [|c s IH]; cbn [remove_whitespace filter nibbles]; intros n H.
    { injection H as <-. constructor. }
    destruct (is_whitespace c) eqn:Hw; cbn [negb] in H.
    + apply dg_space; [apply ws_in; exact Hw|]. apply IH, H.
    + cbn [nibbles] in H. destruct (hex_val c) as [v|] eqn:Hc; [|discriminate].
      destruct (nibbles _) as [l|] eqn:Hl in H; [|discriminate]. injection H as <-.
      apply dg_digit; [apply hex_in; exact Hc|]. apply IH. exact Hl.
  - induction 1 as [|c s l Hc _ IH|c v s l Hc _ IH]; [reflexivity|..]; cbn [remove_whitespace filter].
    + apply ws_in in Hc. rewrite Hc. exact IH.
    + apply hex_in in Hc. destruct (hex_not_ws _ _ Hc) as (-> & _). cbn [negb nibbles]. rewrite Hc.
      unfold remove_whitespace in IH. rewrite IH. reflexivity.
Qed.
Lemma pack_paired n b : pack n = Some b <-> paired n b.
Proof.
  split.
  - revert b. induction n as [|a|h k l IH] using pair_ind; intros b H; cbn [pack] in H; [injection H as <-; constructor|discriminate|].
    destruct (pack l) as [r|]; [|discriminate]. injection H as <-. constructor. apply IH. reflexivity.
  - induction 1 as [|h l ns bs _ IH]; [reflexivity|]. cbn [pack]. rewrite IH. reflexivity.
Qed.
Lemma decode_spells s bs : hex_decode (remove_whitespace s) = Some bs <-> spells s bs.
Proof.
  unfold hex_decode. rewrite hex_pairs_nibbles, nibbles_utf8. split.
  - intros H. destruct (nibbles _) as [n|] eqn:Hn; [|discriminate]. exists n.
    rewrite nibbles_digits in Hn. rewrite pack_paired in H. auto.
  - intros (n & Hd & Hp). apply nibbles_digits in Hd. rewrite Hd. apply pack_paired, Hp.
Qed.
Lemma spells_unique s a b : spells s a -> spells s b -> a = b.
Proof. intros Ha Hb. apply decode_spells in Ha, Hb. congruence. Qed.
Lemma digits_small s l : digits s l -> Forall (fun v => v < 16) l.
Proof. induction 1 as [| |c v s l Hc _ IH]; [constructor|assumption|]. constructor; [apply hex_in, hex_not_ws in Hc; tauto|exact IH]. Qed.
Lemma spells_bytes s bs : spells s bs -> bytes bs.
Proof.
  intros (n & Hd & Hp). apply digits_small in Hd. induction Hp as [|h l ns bs _ IH]; [constructor|].
  inversion_clear Hd as [|? ? H1 H2]. inversion_clear H2 as [|? ? H3 H4]. constructor; [unfold byte; lia|]. apply IH, H4.
Qed.
Lemma spells_every bs : bytes bs -> exists s, spells s bs.
Proof.
  intros H. induction H as [|b bs Hb _ (s & ns & Hd & Hp)]; [exists [], []; split; constructor|].
  assert (K : forall v, v < 16 -> exists c, In (c, v) hex_digits).
  { intros v Hv. exists (if v <? 10 then 48 + v else 55 + v). apply hex_in. unfold hex_val, in_range.
    destruct (N.ltb_spec v 10);
      repeat match goal with |- context [?x <=? ?y] => destruct (N.leb_spec x y); try lia end; cbn [andb]; f_equal; lia. }
  unfold byte in Hb. destruct (K (b / 16)) as (c & Hc); [apply N.div_lt_upper_bound; lia|].
  destruct (K (b mod 16)) as (d & Hdg); [apply N.mod_lt; lia|].
  exists (c :: d :: s), (b / 16 :: b mod 16 :: ns). split; [constructor; [exact Hc|]; constructor; assumption|].
  rewrite (N.div_mod b 16) at 3 by lia. constructor. exact Hp.
Qed.
Lemma rejected {E : Env} t fid s : (forall bs, ~ spells s bs) -> fails (cli_main t fid s).
Proof.
  intros H. unfold fails, cli_main. destruct (hex_decode _) as [bs|] eqn:Hd; [|reflexivity].
  apply decode_spells in Hd. destruct (H _ Hd).
Qed.
Lemma same_bytes {E : Env} t fid a b bs : spells a bs -> spells b bs -> cli_main t fid a = cli_main t fid b.
Proof.
  intros Ha Hb. apply decode_spells in Ha, Hb. unfold cli_main. rewrite Ha, Hb. reflexivity.
Qed.

(** ** What each kind does *)
Lemma cli_typed {E : Env} fid s bs : spells s bs ->
  cli_main (Some PForeground) fid s = match fframe_try_from bs with Ok f => Ok [PrFrame f] | _ => Panic end /\
  cli_main (Some PBackground) fid s = match bframe_try_from bs with Ok f => Ok [PrBackground f] | _ => Panic end /\
  cli_main (Some PAlp) fid s = match command_try_from bs with Ok c => Ok [PrCommand c] | _ => Panic end /\
  cli_main (Some PSerial) fid s = Panic /\
  forall i, cli_main (Some PSystemfile) (Some i) s =
    match file_id_try_from i with
    | Ok id => match file_from_bytes bs 0 id 0 with Ok (rest, f) => Ok [PrFile rest f] | _ => Panic end
    | _ => Panic
    end.
Proof.
  intros Hs. apply decode_spells in Hs. unfold cli_main. rewrite Hs.
  unfold parse_foreground_frame, parse_background_frame, parse_alp_command, parse_file.
  repeat lazymatch goal with |- _ /\ _ => split end;
    [destruct (fframe_try_from bs)|destruct (bframe_try_from bs)|destruct (command_try_from bs)| |]; try reflexivity.
  intros i. destruct (file_id_try_from i) as [id| |]; try reflexivity. cbn [expect rbind].
  destruct (file_from_bytes bs 0 id 0) as [[rest f]| |]; reflexivity.
Qed.

Lemma uid_file {E : Env} bs : bytes bs -> (8 <= length bs)%nat ->
  file_from_bytes bs 0 FidUId 0 = Ok ((skipn 8 bs, 0%nat), FUId (UId (N_of_be (firstn 8 bs)))).
Proof.
  intros Hb Hl. destruct (bytes_part 8 bs Hb) as [H1 H2].
  assert (L8 : length (firstn 8 bs) = 8%nat) by (rewrite firstn_length; lia).
  assert (HV : N_of_be (firstn 8 bs) < 2 ^ 64).
  { pose proof (be_N_of_be _ H1) as K. rewrite L8 in K. rewrite <- K, N_of_be_be.
    apply N.mod_lt. discriminate. }
  destruct (file_round_trip 0 (FUId (UId (N_of_be (firstn 8 bs)))) eq_refl) as (id & Hi & _ & T).
  { split; [reflexivity|]. exact HV. }
  rewrite file_id_try_from_ok in Hi by reflexivity. injection Hi as <-.
  specialize (T (skipn 8 bs)). cbn [enc_file] in T.
  replace (enc_address (UId (N_of_be (firstn 8 bs)))) with (firstn 8 bs) in T.
  - rewrite firstn_skipn in T. unfold file_from_bytes in *. exact T.
  - pose proof (be_N_of_be _ H1) as K. rewrite L8 in K. symmetry. exact K.
Qed.
Lemma short_file {E : Env} b k bs : u8 b -> Adv (8 * k) (read_file (file_id_of b) 0) -> (length bs < k)%nat ->
  exists e, file_from_bytes bs 0 (file_id_of b) 0 = Err e.
Proof.
  intros Hb HA Hl. unfold file_from_bytes. rewrite u_from_bytes_0.
  assert (W0 : wf_length 0) by reflexivity. pose proof (Nice_file b 0 Hb W0 (new_reader bs) (new_RWf bs)) as HN.
  destruct (read_file (file_id_of b) 0 (new_reader bs)) as [[v r]|e|] eqn:Hr; [|exists e; reflexivity|destruct HN].
  destruct (HA _ _ _ (new_RWf bs) Hr) as [L _]. rewrite view_new, bits_of_bytes_length in L. lia.
Qed.
Lemma any_file {E : Env} bs : bytes bs -> parse_any_file bs =
  Ok [if Nat.leb 8 (length bs) then PrFile (skipn 8 bs, 0%nat) (FUId (UId (N_of_be (firstn 8 bs))))
      else PrFile (bs, 0%nat) (FOther [])].
Proof.
  intros Hb. unfold parse_any_file. change all_file_ids with (0 :: 1 :: 2 :: 3 :: map N.of_nat (seq 4 43)).
  cbn [parse_any_file_loop]. rewrite !file_id_try_from_ok by reflexivity. unfold parse_file.
  destruct (Nat.leb_spec 8 (length bs)) as [L|L].
  { change (file_id_of 0) with FidUId. rewrite uid_file by assumption. reflexivity. }
  destruct (short_file 0 8 bs eq_refl) as (e0 & ->); [|exact L|].
  { change (file_id_of 0) with FidUId. cbn [read_file read_address]. adv_all. }
  destruct (short_file 1 56 bs eq_refl) as (e1 & ->); [|lia|].
  { change (file_id_of 1) with FidFactorySettings. cbn [read_file]. adv_all. }
  destruct (short_file 2 15 bs eq_refl) as (e2 & ->); [|lia|].
  { change (file_id_of 2) with FidFirmwareVersion. cbn [read_file]. adv_all. }
  rewrite untyped_exact; [|reflexivity|assumption|].
  2:{ cbn. intros H. repeat (destruct H as [H|H]; [discriminate|]). exact H. }
  cbn [N.leb N.compare N.to_nat skipn firstn or_else rbind fst snd]. destruct (N.of_nat (length bs)); reflexivity.
Qed.
Lemma any_exact {E : Env} fid s bs : spells s bs ->
  cli_main None fid s =
  Ok [match fframe_try_from bs with
      | Ok f => PrFrame f
      | _ => match bframe_try_from bs with
             | Ok f => PrBackground f
             | _ => match command_try_from bs with
                    | Ok c => PrCommand c
                    | _ => if Nat.leb 8 (length bs) then PrFile (skipn 8 bs, 0%nat) (FUId (UId (N_of_be (firstn 8 bs))))
                           else PrFile (bs, 0%nat) (FOther [])
                    end
             end
      end].
Proof.
  intros Hs. pose proof (spells_bytes _ _ Hs) as Hb. apply decode_spells in Hs. unfold cli_main. rewrite Hs.
  destruct (frames_no_panic bs) as ((B1 & _) & (F1 & _) & _). pose proof (LCommandApi.command_no_panic bs) as C1.
  unfold parse_any, parse_foreground_frame, parse_background_frame, parse_alp_command.
  destruct (fframe_try_from bs) as [f|e|]; [reflexivity| |destruct (F1 eq_refl)].
  destruct (bframe_try_from bs) as [f|e0|]; [reflexivity| |destruct (B1 eq_refl)].
  destruct (command_try_from bs) as [c|e1|]; [reflexivity| |destruct C1].
  cbn [rbind or_else parse_serial]. rewrite any_file by exact Hb. reflexivity.
Qed.
Lemma systemfile_exact {E : Env} s bs : spells s bs ->
  cli_main (Some PSystemfile) None s =
  Ok [if Nat.leb 8 (length bs) then PrFile (skipn 8 bs, 0%nat) (FUId (UId (N_of_be (firstn 8 bs))))
      else PrFile (bs, 0%nat) (FOther [])].
Proof.
  intros Hs. pose proof (spells_bytes _ _ Hs) as Hb. apply decode_spells in Hs. unfold cli_main. rewrite Hs.
  rewrite any_file by exact Hb. reflexivity.
Qed.

(** "3E" *)
Lemma x3e_spells : spells [0x33; 0x45] [0x3E].
Proof. exists [3; 14]. split; [repeat (apply dg_digit; [cbn; tauto|])|]; repeat constructor. Qed.
Lemma x3e_no_kind {E : Env} : no_kind [0x3E].
Proof.
  destruct E as [[] [] []]; repeat lazymatch goal with |- no_kind _ => split | |- _ /\ _ => split end;
    try (intros f H; vm_compute in H; discriminate);
    intros [] rest f Hi H; try (destruct Hi; fail); vm_compute in H; discriminate.
Qed.
Lemma any_refuted {E : Env} : ~ (forall fid s bs, spells s bs -> no_kind bs -> fails (cli_main None fid s)).
Proof.
  intros H. specialize (H None _ _ x3e_spells x3e_no_kind). unfold fails in H. rewrite (any_exact None _ _ x3e_spells) in H. discriminate.
Qed.
Lemma systemfile_refuted {E : Env} : ~ (forall s bs, spells s bs -> no_file bs -> fails (cli_main (Some PSystemfile) None s)).
Proof.
  intros H. specialize (H _ _ x3e_spells (proj2 (proj2 (proj2 x3e_no_kind)))). unfold fails in H.
  rewrite (systemfile_exact _ _ x3e_spells) in H. discriminate.
Qed.
Lemma fails_exact {E : Env} fid s :
  (fails (cli_main None fid s) <-> (forall bs, ~ spells s bs)) /\
  (fails (cli_main (Some PSystemfile) None s) <-> (forall bs, ~ spells s bs)).
Proof.
  split; (split; [|intros H; apply rejected, H]); intros H bs Hs; unfold fails in H;
    [rewrite (any_exact _ _ _ Hs) in H|rewrite (systemfile_exact _ _ Hs) in H]; discriminate.
Qed.
