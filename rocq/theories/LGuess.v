(** Lemmas for C98: what the parse tool takes an input for. *)
From Coq Require Import List NArith ZArith Bool Lia ZifyBool ZifyNat ZifyN Arith.
From Verif Require Import Base Deku Utils Types Physical Link Network Session Data Query Interface File
  Operation Action Command Frames Cli WellFormed SpecLayout SpecApi SpecDecode SpecFrames SpecFrameDecode SpecCli SpecGuess LFramesW
  SpecCanonical SpecFail SpecAction SpecGrow SpecJoin LBits LReader LLayout LNumbers LDecode LDecodeLoop LDecodeFrame LCanonTop DefaultCtx LCli LJoin LGrow LFrameSize LFrames LFrameStream SpecPosition LPosition LFrameCanon LFrameCanonTop LActionApi LFiles LCrc.
Import ListNotations.
Open Scope N_scope.

(** ** Which inputs are frames *)
Lemma limited_no_tx {E : Env} g : e_feat <> Wizzilab -> forall limit pos pending l c rest,
  dec_limited g limit pos pending l = Some (c, rest) -> count_tx c = 0%nat.
Proof.
  intros HE. induction g as [|g IH]; intros limit pos pending l c rest H; cbn [dec_limited] in H; cbv zeta in H;
    (destruct ((limit =? 0) || (pos <? limit)); [|injection H as <- <-; reflexivity]).
  - destruct l; [|discriminate]. destruct (_ =? 0); [|discriminate]. injection H as <- <-. reflexivity.
  - destruct l as [|b tl]; [destruct (_ =? 0); [|discriminate]; injection H as <- <-; reflexivity|].
    destruct (dec_operand _ _) as [[a rest1]|] eqn:D; [|discriminate].
    assert (T : is_tx a = false).
    { rewrite (operand_tx _ _ _ _ D).
      - destruct (N.eqb_spec (part (if limit =? 0 then pending else 0) 6 b) 38) as [Q|]; [|reflexivity]. exfalso. rewrite Q in D.
        unfold dec_operand in D. cbn in D. destruct e_feat; [discriminate D|discriminate D|congruence].
      - unfold part. apply N.mod_lt. discriminate. }
    destruct (is_indirect a) eqn:Hi.
    + injection H as <- <-. unfold count_tx. cbn [filter]. rewrite T. reflexivity.
    + destruct (dec_limited g _ _ _ rest1) as [[c1 rest2]|] eqn:ED; [|discriminate]. injection H as <- <-.
      apply IH in ED. unfold count_tx in *. cbn [filter]. rewrite T. exact ED.
Qed.
Lemma limited_stop {E : Env} g : forall limit pos pending l c rest, bytes l ->
  dec_limited g limit pos pending l = Some (c, rest) -> rest <> [] ->
  ends_in_indirect c \/ (limit <> 0 /\ limit + N.of_nat (length rest) <= pos + N.of_nat (length l)).
Proof.
  induction g as [|g IH]; intros limit pos pending l c rest B H Hr; cbn [dec_limited] in H; cbv zeta in H;
    (destruct ((limit =? 0) || (pos <? limit)) eqn:G; [|injection H as <- <-; right; lia]).
  - destruct l; [|discriminate]. destruct ((if limit =? 0 then pending else 0) =? 0); [|discriminate]. injection H as <- <-. congruence.
  - destruct l as [|b tl]; [destruct ((if limit =? 0 then pending else 0) =? 0); [|discriminate]; injection H as <- <-; congruence|].
    destruct (dec_operand _ _) as [[a rest1]|] eqn:D; [|discriminate]. destruct (is_indirect a) eqn:Hi.
    + injection H as <- <-. left. destruct a; try discriminate Hi. eexists [], _. reflexivity.
    + destruct (dec_limited g _ _ _ rest1) as [[c1 rest2]|] eqn:ED; [|discriminate]. injection H as <- <-.
      pose proof (Sz_operand _ _ _ _ D) as HS. cbv beta in HS. pose proof (operand_size _ _ _ _ B D) as (B1 & _).
      destruct (IH _ _ _ _ _ _ B1 ED Hr) as [(c' & f & ->)|(L & L')]; [left; exists (a :: c'), f; reflexivity|right].
      split; [exact L|]. cbn [length] in *. lia.
Qed.

Lemma fframe_stop {E : Env} d v rest : bytes d -> dec_fframe d = Some (v, rest) ->
  (command_held (command_of v) + 10 + length rest <= length d)%nat /\
  (ends_in_indirect (command_of v) \/ (ff_length v <> 0 /\ ff_length v + 2 + N.of_nat (length rest) <= N.of_nat (length d))).
Proof.
  intros Hd H. unfold dec_fframe in H. destruct (dec_link d) as [[[limit link] l0]|] eqn:DL; [|discriminate].
  destruct (dec_headers l0) as [[net l1]|] eqn:DH; [|discriminate].
  destruct (dec_limited _ limit _ _ l1) as [[c l2]|] eqn:DC; [|discriminate].
  destruct (host_num 2 l2) as [[crc rest']|] eqn:DN; [|discriminate].
  assert (link (net c) crc = v /\ rest' = rest) as (Q & ->) by (split; congruence). clear H.
  apply min_link in DL as ML; [|exact Hd]. cbv beta in ML. cbn [snd] in ML. destruct ML as (B0 & ML).
  pose proof (head_canon l0 B0) as HC. unfold head_can in HC. rewrite DH in HC.
  destruct HC as (ph & hb & w & H0 & Lp & Hb & Hw & Lb & _).
  assert (B1 : bytes l1) by (rewrite H0 in B0; apply Forall_app in B0; apply B0).
  pose proof (limited_size _ _ _ _ _ _ _ B1 DC) as (B2 & _ & T2).
  apply min_host in DN as T3; [|exact B2]. destruct T3 as (_ & T3). change (N.to_nat 2) with 2%nat in T3.
  assert (Qc : command_of v = c) by (rewrite <- Q; unfold command_of; rewrite (dec_link_shape _ _ _ _ DL), (dec_headers_shape _ _ _ DH); reflexivity).
  assert (Lh : (length hb + lost = 8 * length ph)%nat).
  { apply (f_equal (@length bool)) in Hb. rewrite bits_of_bytes_length, app_length, Hw, bits_of_length in Hb. lia. }
  assert (L0 : (length l0 = length ph + length l1)%nat) by (rewrite H0, app_length; reflexivity).
  pose proof (link_3 (link no_nframe 0)) as L3. pose proof (hdr_40 (net c)) as L40. rewrite Lb in L40. rewrite Qc. split; [lia|].
  assert (Ql : ff_length v = limit).
  { rewrite <- Q. unfold dec_link in DL. repeat (apply andthen_some in DL as (? & ? & ? & DL)). injection DL as <- <- <-. reflexivity. }
  rewrite Ql. destruct (limited_stop _ _ _ _ _ _ _ B1 DC) as [K|(K1 & K2)]; [intros ->; discriminate|left; exact K|right].
  split; [exact K1|]. clear - K2 T3 L0 ML. lia.
Qed.

Lemma fframe_no_tx {E : Env} d v rest : e_feat <> Wizzilab -> dec_fframe d = Some (v, rest) -> count_tx (command_of v) = 0%nat.
Proof.
  intros HE H. unfold dec_fframe in H. destruct (dec_link d) as [[[limit link] l0]|] eqn:DL; [|discriminate].
  destruct (dec_headers l0) as [[net l1]|] eqn:DH; [|discriminate].
  destruct (dec_limited _ limit _ _ l1) as [[c l2]|] eqn:DC; [|discriminate].
  destruct (host_num 2 l2) as [[crc rest']|] eqn:DN; [|discriminate].
  assert (link (net c) crc = v) as <- by congruence.
  unfold command_of. rewrite (dec_link_shape _ _ _ _ DL), (dec_headers_shape _ _ _ DH). exact (limited_no_tx _ HE _ _ _ _ _ _ DC).
Qed.

(** ** Accepted as a frame *)
Lemma try_exact {E : Env} d v : bytes d ->
  (fframe_try_from d = Ok v <-> exists rest, dec_fframe d = Some (v, rest) /\ whole_frame v (length rest)).
Proof.
  intros Hd. pose proof (decode_fframe d Hd) as D. destruct (dec_fframe d) as [[v' rest]|] eqn:ED.
  2: { destruct D as (e & _ & D). rewrite D. split; [discriminate|intros (r & H & _); discriminate]. }
  destruct D as (_ & _ & D). cbv zeta in D. rewrite D. clear D.
  destruct (fframe_stop d v' rest Hd ED) as (L & _).
  assert (X : Nat.div (SpecFrameDecode.frame_bits (length d - length rest) v') 8 = length d :> nat <-> whole_frame v' (length rest)).
  { unfold whole_frame, SpecFrameDecode.frame_bits. fold (command_of v'). pose proof (count_tx_le (command_of v')) as T.
    assert (W : match e_feat with Wizzilab => 1 | _ => 0 end%nat = one_if_wizzilab) by reflexivity. rewrite W.
    assert (W1 : (one_if_wizzilab <= 1)%nat) by (unfold one_if_wizzilab; destruct e_feat; lia).
    clear W. set (k := length (command_of v')) in *. set (t := count_tx (command_of v')) in *.
    set (x := (_ - one_if_wizzilab)%nat). pose proof (Nat.div_mod x 8 ltac:(lia)) as M. pose proof (Nat.mod_upper_bound x 8 ltac:(lia)).
    subst x. split; intros; lia. }
  destruct (Nat.eqb_spec (Nat.div (SpecFrameDecode.frame_bits (length d - length rest) v') 8) (length d)) as [Q|Q].
  - split; [intros [= ->]; exists rest; split; [reflexivity|apply X, Q]|intros (r & [= -> ->] & _); reflexivity].
  - split; [discriminate|]. intros (r & [= -> ->] & K). exfalso. apply Q, X, K.
Qed.
Lemma whole_rest {E : Env} v n : count_tx (command_of v) = 0%nat -> (whole_frame v n <-> (n + one_if_wizzilab = length (command_of v))%nat).
Proof.
  intros T. unfold whole_frame. cbv zeta. rewrite T. assert (W1 : (one_if_wizzilab <= 1)%nat) by (unfold one_if_wizzilab; destruct e_feat; lia). lia.
Qed.
Lemma whole_alone {E : Env} d v : dec_fframe d = Some (v, []) -> (whole_frame v 0 <-> length (command_of v) = one_if_wizzilab).
Proof.
  intros H. pose proof (count_tx_le (command_of v)) as T. destruct (count_tx (command_of v)) as [|t] eqn:Q.
  - rewrite whole_rest by exact Q. lia.
  - assert (W : one_if_wizzilab = 1%nat).
    { unfold one_if_wizzilab. pose proof (fframe_no_tx d v []) as K. destruct e_feat; [rewrite K in Q; [discriminate|discriminate|exact H]..|reflexivity]. }
    unfold whole_frame. cbv zeta. rewrite Q, W. lia.
Qed.

(** ** The tool *)
Ltac untaken H := match type of H with context [?m (new_reader ?d)] => destruct (m (new_reader d)) as [[? ?]| |] end; cbn [rbind fst snd] in H.
Lemma six_background {E : Env} fid s b : spells s b -> length b = 6%nat ->
  exists v, bframe_try_from b = Ok v /\ bframe_to_bytes v = Ok b /\ cli_main None fid s = Ok [PrBackground v].
Proof.
  intros Hs L. pose proof (spells_bytes _ _ Hs) as Hb. destruct (proj1 (bframe_bytes b Hb) L) as (v & V & W).
  exists v. split; [exact V|]. split; [exact W|]. rewrite (any_exact fid s b Hs).
  destruct (fframe_try_from b) as [f| |] eqn:F; [|rewrite V; reflexivity..]. exfalso. apply try_exact in F as (rest & D & _); [|exact Hb].
  apply fframe_stop in D as (D & _); [|exact Hb]. lia.
Qed.
Lemma command_shown {E : Env} fid s b c : spells s b -> command_try_from b = Ok c ->
  (cli_main None fid s = Ok [PrCommand c] <->
   length b <> 6%nat /\ forall v rest, dec_fframe b = Some (v, rest) -> ~ whole_frame v (length rest)).
Proof.
  intros Hs Hc. pose proof (spells_bytes _ _ Hs) as Hb. rewrite (any_exact fid s b Hs). destruct (bframe_bytes b Hb) as (A & B & C).
  destruct (fframe_try_from b) as [f|e|] eqn:F.
  - split; [discriminate|]. intros (_ & K). apply try_exact in F as (rest & D & W); [|exact Hb]. destruct (K _ _ D W).
  - assert (K : forall v rest, dec_fframe b = Some (v, rest) -> ~ whole_frame v (length rest)).
    { intros v rest D W. assert (X : fframe_try_from b = Ok v) by (apply try_exact; [exact Hb|exists rest; split; assumption]). congruence. }
    destruct (Nat.lt_trichotomy (length b) 6) as [L|[L|L]].
    + rewrite (B L), Hc. split; [intros _; split; [lia|exact K]|reflexivity].
    + destruct (A L) as (w & -> & _). split; [discriminate|intros (X & _); congruence].
    + rewrite (C L), Hc. split; [intros _; split; [lia|exact K]|reflexivity].
  - pose proof (decode_fframe b Hb) as D. destruct (dec_fframe b) as [[v rest]|].
    + destruct D as (_ & _ & D). cbv zeta in D. rewrite D in F. destruct (Nat.eqb _ _); discriminate.
    + destruct D as (e & _ & D). congruence.
Qed.
Lemma frame_needs {E : Env} t fid s b v : spells s b -> t = None \/ t = Some PForeground -> cli_main t fid s = Ok [PrFrame v] ->
  exists rest, dec_fframe b = Some (v, rest) /\ whole_frame v (length rest) /\ (10 + length rest <= length b)%nat /\
    (ends_in_indirect (command_of v) \/ (ff_length v <> 0 /\ ff_length v + 2 + N.of_nat (length rest) <= N.of_nat (length b))).
Proof.
  intros Hs Ht H. pose proof (spells_bytes _ _ Hs) as Hb.
  assert (F : fframe_try_from b = Ok v).
  { destruct Ht as [-> | ->].
    - rewrite (any_exact fid s b Hs) in H. destruct (fframe_try_from b); [congruence|..];
        (destruct (bframe_try_from b); [discriminate|..]; (destruct (command_try_from b); [discriminate|..]; destruct (Nat.leb 8 (length b)); discriminate)).
    - rewrite (proj1 (cli_typed fid s b Hs)) in H. destruct (fframe_try_from b); [congruence|discriminate..]. }
  apply try_exact in F as (rest & D & W); [|exact Hb]. exists rest. split; [exact D|]. split; [exact W|].
  apply fframe_stop in D as (D1 & D2); [|exact Hb]. split; [lia|exact D2].
Qed.
Lemma command_short {E : Env} fid s b c : spells s b -> command_try_from b = Ok c -> (length b < 10)%nat -> length b <> 6%nat ->
  cli_main None fid s = Ok [PrCommand c].
Proof.
  intros Hs Hc L L6. apply (command_shown fid s b c Hs Hc). split; [exact L6|]. intros v rest D _.
  apply fframe_stop in D as (D & _); [lia|exact (spells_bytes _ _ Hs)].
Qed.
Lemma frame_shown {E : Env} t fid s b v rest : spells s b -> t = None \/ t = Some PForeground -> dec_fframe b = Some (v, rest) ->
  (cli_main t fid s = Ok [PrFrame v] <-> whole_frame v (length rest)) /\
  (~ whole_frame v (length rest) -> fails (cli_main (Some PForeground) fid s)).
Proof.
  intros Hs Ht D. pose proof (spells_bytes _ _ Hs) as Hb. split.
  - split.
    + intros H. destruct (frame_needs t fid s b v Hs Ht H) as (r & D' & W & _). assert (r = rest) as <- by congruence. exact W.
    + intros W. assert (F : fframe_try_from b = Ok v) by (apply try_exact; [exact Hb|exists rest; split; assumption]).
      destruct Ht as [-> | ->]; [rewrite (any_exact fid s b Hs), F|rewrite (proj1 (cli_typed fid s b Hs)), F]; reflexivity.
  - intros W. unfold fails. rewrite (proj1 (cli_typed fid s b Hs)). destruct (fframe_try_from b) as [f| |] eqn:F; [|reflexivity..].
    apply try_exact in F as (r & D' & W'); [|exact Hb]. rewrite D in D'. injection D' as <- <-. destruct (W W').
Qed.
Lemma frame_alone {E : Env} t fid s b v : spells s b -> t = None \/ t = Some PForeground -> dec_fframe b = Some (v, []) ->
  (cli_main t fid s = Ok [PrFrame v] <-> length (command_of v) = one_if_wizzilab).
Proof. intros Hs Ht D. rewrite (proj1 (frame_shown t fid s b v [] Hs Ht D)). exact (whole_alone b v D). Qed.
Lemma file_shown {E : Env} s b id rest f : spells s b -> file_from_bytes b 0 id 0 = Ok (rest, f) ->
  (cli_main (Some PSystemfile) None s = Ok [PrFile rest f] <-> id = FidUId \/ ((length b < 8)%nat /\ f = FOther [])).
Proof.
  intros Hs H. pose proof (spells_bytes _ _ Hs) as Hb. rewrite (systemfile_exact s b Hs). unfold file_from_bytes in H. rewrite u_from_bytes_0 in H.
  split.
  - intros Q. destruct (Nat.leb_spec 8 (length b)) as [L|L]; [left|right; split; [exact L|congruence]].
    assert (f = FUId (UId (N_of_be (firstn 8 b)))) as -> by congruence. clear Q.
    destruct id; try reflexivity; exfalso; cbn [read_file] in H; unfold bind, ret in H; untaken H; discriminate.
  - intros [-> |(L & ->)].
    + destruct (Nat.leb_spec 8 (length b)) as [L|L].
      * pose proof (uid_file b Hb L) as U. unfold file_from_bytes in U. rewrite u_from_bytes_0, H in U. congruence.
      * destruct (short_file 0 8 b eq_refl) as (e & X); [change (file_id_of 0) with FidUId; cbn [read_file read_address]; adv_all|exact L|].
        change (file_id_of 0) with FidUId in X. unfold file_from_bytes in X. rewrite u_from_bytes_0, H in X. discriminate.
    + destruct (Nat.leb_spec 8 (length b)) as [L'|_]; [lia|].
      assert (V0 : read_vec_u8 0 (new_reader b) = Ok ([], new_reader b)).
      { unfold read_vec_u8. change (8 * 0) with 0. destruct (N.leb_spec 0 (N.of_nat (length (view (new_reader b))))); [reflexivity|lia]. }
      destruct id; cbn [read_file] in H; unfold bind, ret in H; try (untaken H; discriminate);
        rewrite V0 in H; cbn in H; congruence.
Qed.

(** ** Inputs that are taken for something else *)
Definition tag (n : N) : action := ARequestTag (mkRequestTag true 52 n).
Definition file_bytes {E : Env} : list N := match e_feat with Wizzilab => [16; 20; 0; 12; 14] | _ => [16; 10; 0; 6; 7] end ++
  [0x20; 0x41; 0; 19] ++ repeat 5 19 ++ [1; 2] ++ match e_feat with Wizzilab => [] | _ => [9] end.
Definition file_action {E : Env} : action := AReturnFileData (mkFileData (mkHeader false false) 32 (mkFileOffset 0x40 0) (FOther file_bytes)).
Definition hidden_frame {E : Env} : fframe :=
  mkFFrame 32 0x40 AtNbId 0 (NbId (mkVarInt (N.of_nat (length file_bytes)) false))
    (mkNFrame (mkNControl false false AtNoId NlsNone) None (mkAccessClass 1 4) NoId
      (mkTFrame no_flags 6 7 None None None None None
        [AReturnFileData (mkFileData (mkHeader false false) 32 (mkFileOffset 0x41 0) (FOther (repeat 5 19)))]))
    (match e_host with Little => 513 | Big => 258 end).
Lemma tags_background {E : Env} fid s : spells s [0xB4; 1; 0xB4; 2; 0xB4; 3] -> exists v, cli_main None fid s = Ok [PrBackground v].
Proof. intros Hs. destruct (six_background fid s _ Hs eq_refl) as (v & _ & _ & H). exists v. exact H. Qed.
Lemma tags_command {E : Env} : wf_command [tag 1; tag 2; tag 3] /\ command_to_bytes [tag 1; tag 2; tag 3] = Ok [0xB4; 1; 0xB4; 2; 0xB4; 3] /\
  command_try_from [0xB4; 1; 0xB4; 2; 0xB4; 3] = Ok [tag 1; tag 2; tag 3].
Proof.
  split; [|destruct E as [[] [] []]; split; vm_compute; reflexivity].
  split; [repeat constructor|]. intros pre a post H I. destruct a; try discriminate I.
  exfalso. assert (X : In (AIndirectForward v) [tag 1; tag 2; tag 3]) by (rewrite H; apply in_elt). cbn in X. intuition discriminate.
Qed.
Lemma file_command {E : Env} : wf_command [file_action] /\
  command_to_bytes [file_action] = Ok ([0x20; 0x40; 0; N.of_nat (length file_bytes)] ++ file_bytes) /\
  command_try_from ([0x20; 0x40; 0; N.of_nat (length file_bytes)] ++ file_bytes) = Ok [file_action].
Proof.
  split; [|destruct E as [[] [] []]; split; vm_compute; reflexivity].
  split.
  - constructor; [|constructor]. cbn [wf_action file_action]. split; [reflexivity|]. split; [split; reflexivity|].
    split; [cbn; intros H; repeat (destruct H as [H|H]; [discriminate|]); exact H|]. split; [|destruct E as [[] [] []]; vm_compute; reflexivity].
    destruct E as [[] [] []]; repeat constructor.
  - intros pre a post H I. destruct a; try discriminate I.
    exfalso. assert (X : In (AIndirectForward v) [file_action]) by (rewrite H; apply in_elt). cbn in X. intuition discriminate.
Qed.
Lemma file_as_frame {E : Env} fid s : spells s ([0x20; 0x40; 0; N.of_nat (length file_bytes)] ++ file_bytes) ->
  cli_main None fid s = Ok [PrFrame hidden_frame].
Proof.
  intros Hs. rewrite (any_exact fid s _ Hs).
  assert (F : fframe_try_from ([0x20; 0x40; 0; N.of_nat (length file_bytes)] ++ file_bytes) = Ok hidden_frame) by (destruct E as [[] [] []]; vm_compute; reflexivity).
  rewrite F. reflexivity.
Qed.
Lemma command_refuted {E : Env} : exists c1 b1 s1 v1 c2 b2 s2 v2,
  (wf_command c1 /\ command_to_bytes c1 = Ok b1 /\ command_try_from b1 = Ok c1 /\ spells s1 b1 /\ cli_main None None s1 = Ok [PrBackground v1]) /\
  (wf_command c2 /\ command_to_bytes c2 = Ok b2 /\ command_try_from b2 = Ok c2 /\ spells s2 b2 /\ cli_main None None s2 = Ok [PrFrame v2]).
Proof.
  destruct (spells_every [0xB4; 1; 0xB4; 2; 0xB4; 3]) as (s1 & S1); [repeat constructor|].
  destruct (spells_every ([0x20; 0x40; 0; N.of_nat (length file_bytes)] ++ file_bytes)) as (s2 & S2);
    [destruct E as [[] [] []]; repeat constructor|].
  destruct (tags_background None s1 S1) as (v1 & V1).
  destruct tags_command as (A1 & A2 & A3). destruct file_command as (B1 & B2 & B3).
  exists [tag 1; tag 2; tag 3], [0xB4; 1; 0xB4; 2; 0xB4; 3], s1, v1, [file_action], ([0x20; 0x40; 0; N.of_nat (length file_bytes)] ++ file_bytes), s2, hidden_frame.
  split; [|exact (conj B1 (conj B2 (conj B3 (conj S2 (file_as_frame None s2 S2)))))].
  exact (conj A1 (conj A2 (conj A3 (conj S1 V1)))).
Qed.
Definition tags_bytes {E : Env} : list N :=
  [12; 1; 66] ++ match e_feat with Wizzilab => [16; 20; 0; 12; 14] | _ => [16; 10; 0; 6; 7] end ++ [0xB4; 1; 0xB4; 2; 7; 7].
Lemma tags_frame {E : Env} : dec_fframe tags_bytes = Some (small_frame 12 [tag 1; tag 2] 0x0707, []).
Proof. destruct E as [[] [] []]; vm_compute; reflexivity. Qed.
Lemma frame_refuted {E : Env} : exists v b s, wf_fframe v /\ dec_fframe b = Some (v, []) /\ spells s b /\
  fails (cli_main (Some PForeground) None s) /\ exists rest f, cli_main None None s = Ok [PrFile rest f].
Proof.
  assert (B : bytes tags_bytes) by (destruct E as [[] [] []]; repeat constructor).
  destruct (spells_every tags_bytes B) as (s & Hs). exists (small_frame 12 [tag 1; tag 2] 0x0707), tags_bytes, s.
  split; [|split; [exact tags_frame|split; [exact Hs|]]].
  - apply LFramesW.small_wf; [reflexivity| |reflexivity]. split; [repeat constructor|]. intros pre a post H I. destruct a; try discriminate I.
    exfalso. assert (X : In (AIndirectForward v) [tag 1; tag 2]) by (rewrite H; apply in_elt). cbn in X. intuition discriminate.
  - split.
    + unfold fails. rewrite (proj1 (cli_typed None s _ Hs)). destruct E as [[] [] []]; vm_compute; reflexivity.
    + rewrite (any_exact None s _ Hs).
      assert (F : fframe_try_from tags_bytes = Err ETooMuchData /\ bframe_try_from tags_bytes = Err ETooMuchData /\ exists e, command_try_from tags_bytes = Err e).
      { destruct E as [[] [] []]; (split; [vm_compute; reflexivity|split; [vm_compute; reflexivity|]]); eexists; vm_compute; reflexivity. }
      destruct F as (-> & -> & e & ->).
      assert (L : Nat.leb 8 (length tags_bytes) = true) by (destruct E as [[] [] []]; reflexivity). rewrite L. eexists _, _. reflexivity.
Qed.
Lemma file_refuted {E : Env} : exists id f b s, file_to_bytes f = Ok b /\ file_from_bytes b 0 id 0 = Ok (([], 0%nat), f) /\ spells s b /\
  exists u, cli_main (Some PSystemfile) None s = Ok [PrFile (skipn 8 b, 0%nat) (FUId u)] /\ f <> FUId u.
Proof.
  set (d := [1; 2; 0x61; 0x62; 0x63; 0; 0; 0; 0x37; 0; 0; 0; 0; 0; 0]).
  destruct (spells_every d) as (s & Hs); [repeat constructor|].
  exists FidFirmwareVersion, (FFirmwareVersion (mkFirmware 1 2 [0x61; 0x62; 0x63; 0; 0; 0] [0x37; 0; 0; 0; 0; 0; 0])), d, s.
  split; [destruct E as [[] [] []]; reflexivity|]. split; [destruct E as [[] [] []]; reflexivity|]. split; [exact Hs|].
  eexists. split; [rewrite (systemfile_exact s d Hs); reflexivity|discriminate].
Qed.
