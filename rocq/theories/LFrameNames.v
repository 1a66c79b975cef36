(** Lemmas for C77: which error is reported for a frame. *)
From Coq Require Import List NArith ZArith Bool Lia ZifyBool ZifyNat ZifyN Arith.
From Verif Require Import Base Deku Utils Types Physical Link Network Session Data Query
  Interface File Operation Action Command Frames WellFormed SpecLayout SpecAction SpecDecode SpecStream SpecLive SpecErr LUtf8 LBits LReader LLayout
  LNice LNiceOps LActionApi LReturn LFiles LStream LDecode LDecodeTypes LDecodeOps LDecodeAct LDecodeCmd LDecodeTx LDecodeLoop LJoin
  LLive LLiveOps LLiveAct LLiveCmd LLiveTx LLiveTop LLiveLoop LErr LErrTop LFrameStream LDecodeFrame LFrameLive LFrameLiveLoop LFrameLiveTop
  SpecFrameDecode SpecFrameLive.
Import ListNotations.
Open Scope N_scope.

Lemma head_eq {E : Env} d limit link net l1 : dec_head d = Some ((limit, link, net), l1) <->
  exists l0, dec_link d = Some ((limit, link), l0) /\ dec_headers l0 = Some (net, l1).
Proof.
  split.
  - intros H. unfold dec_head in H. apply andthen_some in H as ((n & k) & l0 & E1 & H). apply andthen_some in H as (h & l0' & E2 & H).
    unfold give in H. injection H as -> -> -> ->. exists l0. split; assumption.
  - intros (l0 & E1 & E2). unfold dec_head, andthen. rewrite E1, E2. reflexivity.
Qed.
Lemma head_suffix {E : Env} d x l1 : dec_head d = Some (x, l1) -> bytes d -> bytes l1.
Proof. intros H B. destruct (Loc_head _ _ _ H) as (p & Hp & _). rewrite Hp in B. apply Forall_app in B. apply B. Qed.
Lemma reaches_dead {E : Env} d op l t : frame_reaches d op l -> dec_operand op (l ++ t) = None -> dec_fframe (d ++ t) = None.
Proof.
  intros (limit & link & l0 & net & l1 & pos & pend & b & l2 & E1 & E2 & HS & HG & -> & ->) HN.
  destruct (Loc_link _ _ _ E1) as (p1 & Hp1 & S1). destruct (Loc_headers _ _ _ E2) as (p2 & Hp2 & S2). subst l0.
  assert (Hd : d ++ t = p1 ++ p2 ++ l1 ++ t) by (rewrite Hp1, <- !app_assoc; reflexivity).
  unfold dec_fframe. rewrite Hd. rewrite S1, S2.
  replace (length (p1 ++ p2 ++ l1 ++ t) - length (l1 ++ t))%nat with (length d - length l1)%nat by (rewrite Hp1, !app_length; lia).
  destruct (steps_limited _ _ _ _ _ _ _ (steps_app _ _ _ _ _ _ _ t HS) (length (l1 ++ t)) ltac:(lia)) as (g' & c & Lg & HL).
  cbn [app] in HL, Lg. destruct g' as [|g']; [cbn in Lg; lia|]. rewrite dec_limited_step in HL by exact HG. cbn [app] in HN. rewrite HN in HL.
  rewrite HL. reflexivity.
Qed.
Lemma reaches_bytes {E : Env} d op l : frame_reaches d op l -> bytes d -> bytes l.
Proof.
  intros (limit & link & l0 & net & l1 & pos & pend & b & l2 & E1 & E2 & HS & HG & -> & ->) B.
  apply (steps_bytes _ _ _ _ _ _ _ HS). apply (head_suffix d (limit, link, net)); [|exact B]. apply head_eq. eauto.
Qed.
Lemma reaches_bound {E : Env} d op l : frame_reaches d op l -> op < 64.
Proof. intros (limit & link & l0 & net & l1 & pos & pend & b & l2 & E1 & E2 & HS & HG & -> & ->). apply opcode_in_bound. Qed.
(** Where no action can be decoded is where the reader stands. *)
Lemma reaches_same {E : Env} d op l limit link net l1 pos pend l' : frame_reaches d op l -> dec_operand op l = None ->
  dec_head d = Some ((limit, link, net), l1) -> steps limit (N.of_nat (length d - length l1)) lost_bits l1 pos pend l' ->
  (forall b tl, l' = b :: tl -> dec_operand (opcode_in limit pend b) l' = None) ->
  exists b tl, l' = b :: tl /\ l = l' /\ op = opcode_in limit pend b.
Proof.
  intros (limit' & link' & l0 & net' & l1' & pos' & pend' & b & l2 & E1 & E2 & HS & HG & -> & ->) HN HH HS' HN'.
  apply head_eq in HH as (l0' & E1' & E2'). assert (l0' = l0 /\ limit' = limit) as [-> ->] by (split; congruence).
  assert (l1' = l1) as -> by congruence. pose proof (steps_det _ _ _ _ _ _ _ _ HS HN _ _ _ HS') as G.
  inversion G as [|? ? b' ? a rest ? ? ? ? Ho]; subst.
  - exists b, l2. auto.
  - rewrite (HN' _ _ eq_refl) in Ho. discriminate.
Qed.
Lemma stuck_head {E : Env} op l : stuck op l -> exists b tl, l = b :: tl.
Proof.
  intros [(_ & b & i & rest & -> & _)|[(_ & b & l1 & o & l2 & n & x & y & q & -> & _)|(_ & _ & h & tl & l1 & n & l2 & c & x & -> & _)]]; eauto.
Qed.
Lemma stuck_none {E : Env} op l t : bytes l -> bytes t -> stuck op l -> dec_operand op (l ++ t) = None.
Proof. intros Bl Bt H. destruct (stuck_head _ _ H) as (b & tl & ->). apply stuck_ends; assumption. Qed.
Lemma cannot_end {E : Env} d : bytes d -> (forall t, bytes t -> dec_fframe (d ++ t) = None) -> ~ frame_can_end d.
Proof.
  intros Bd H (t & x & Bt & Hx). pose proof (fframe_at (d ++ t) ltac:(apply Forall_app; split; assumption)) as F. rewrite H in F by exact Bt.
  destruct F as [e F]. rewrite from_reader_0, F in Hx. discriminate.
Qed.
Lemma cut_bad {E : Env} d : method_cut d -> bad_method d.
Proof. intros (HF & x & c & HL & Hc). split; [exact HF|]. exists x, c, []. split; assumption. Qed.
Lemma bad_frame {E : Env} d t : bad_method d -> dec_fframe (d ++ t) = None.
Proof.
  intros H. pose proof (bad_head d t H) as HH. unfold dec_fframe. unfold dec_head, andthen in HH.
  destruct (dec_link (d ++ t)) as [[[limit link] l]|]; [|reflexivity]. destruct (dec_headers l) as [[net l1]|]; [discriminate|reflexivity].
Qed.
Lemma stuck_frame {E : Env} d t : bytes d -> bytes t -> frame_stuck d -> dec_fframe (d ++ t) = None.
Proof.
  intros Bd Bt [H|(op & l & HR & HS)]; [apply bad_frame, cut_bad, H|].
  apply (reaches_dead d op l t HR). apply stuck_none; [apply (reaches_bytes _ _ _ HR Bd)|exact Bt|exact HS].
Qed.
Lemma error_here {E : Env} d e : d_from_reader read_fframe d 0 = Err e <-> read_fframe (new_reader d) = Err e.
Proof. rewrite from_reader_0. destruct (read_fframe (new_reader d)) as [[v r]|x|]; split; intros H; try discriminate; congruence. Qed.
(** The reader of an operand that fails decodes to nothing. *)
Lemma reader_none {E : Env} op d p n e : bytes d -> (p <= length d)%nat -> op < 64 -> reader_of op (at_byte d p n) = Err e -> dec_operand op (skipn p d) = None.
Proof.
  intros Hd Hp Ho H. pose proof (OpAt_operand op (at_byte d p n) Ho (at_byte_wf d p n Hp) eq_refl) as O. unfold OpAt in O.
  rewrite at_byte_view in O by exact Hd. destruct (dec_operand op (skipn p d)) as [[v rest]|]; [|reflexivity].
  destruct O as (k & _ & _ & _ & O). congruence.
Qed.
Lemma frame_incomplete {E : Env} d e : bytes d -> d_from_reader read_fframe d 0 = Err e ->
  (e = EIncomplete <-> frame_can_end d \/ frame_stuck d).
Proof.
  intros Bd He. pose proof He as H. apply error_here in H. destruct (incremental_fframe 0) as (_ & I2 & _).
  assert (CE : frame_can_end d -> e = EIncomplete).
  { intros (t & x & Bt & Hx). assert (De : e = EIncomplete \/ e <> EIncomplete) by (destruct e; (left; reflexivity) || (right; discriminate)).
    destruct De as [De|De]; [exact De|]. rewrite (I2 _ t _ He De) in Hx. discriminate. }
  destruct (frame_err d e Bd H) as [(HN & _ & HB)|(limit & link & net & l1 & HH & [(-> & HL)|(n & p & pend & l & Pp & HS & HG & Hp & Hl & HR)])].
  - split.
    + intros ->. destruct (head_ends d Bd HN) as [B|(s & ((limit & link) & net) & Bs & Hs)]; [right; left; apply HB; [exact B|reflexivity]|left].
      assert (CE' : frame_can_end (d ++ s)).
      { apply (frame_ends (d ++ s) limit link net []); [apply Forall_app; split; assumption|exact Hs|].
        destruct (limited_ends limit (N.of_nat (length (d ++ s) - length (@nil N))) lost_bits) as (t & c & Bt & Ht); [unfold lost_bits; destruct e_feat; auto|].
        exists t, c, [0; 0]. split; [exact Bt|]. split; [exact Ht|cbn; lia]. }
      destruct CE' as (t & x & Bt & Hx). exists (s ++ t), x. split; [apply Forall_app; split; assumption|]. rewrite app_assoc. exact Hx.
    + intros [C|[C|(op & l & HR & _)]]; [apply CE; exact C|apply HB; [apply cut_bad; exact C|exact C]|exfalso].
      destruct HR as (limit & link & l0 & net & l1 & pos & pend & b & l2 & E1 & E2 & _).
      assert (HH : dec_head d = Some ((limit, link, net), l1)) by (apply head_eq; eauto). congruence.
  - split; [|reflexivity]. intros _. left. apply (frame_ends d limit link net l1 Bd HH).
    destruct (dec_limited (length l1) limit _ _ l1) as [[c r]|] eqn:EL; [|contradiction].
    assert (HP : lost_bits = 0 \/ lost_bits = 1 \/ lost_bits = 2) by (unfold lost_bits; destruct e_feat; auto).
    destruct (limited_continue _ _ _ _ _ _ _ (Nat.le_refl _) HP EL) as (t & c' & r' & Bt & Ht & L2).
    exists t, c', r'. auto.
  - assert (HD : forall b tl, l = b :: tl -> dec_operand (opcode_in limit pend b) l = None).
    { intros b tl ->. rewrite <- Hl. apply (reader_none _ d p n e Bd Hp (opcode_in_bound _ _ _) HR). }
    assert (Go : forall t, bytes t -> (exists c r, dec_limited (length (l ++ t)) limit (N.of_nat p) pend (l ++ t) = Some (c, r) /\ (2 <= length r)%nat) -> frame_can_end d).
    { intros t Bt (c & r & Hc & L2). apply (frame_ends d limit link net l1 Bd HH). exists t.
      destruct (steps_limited _ _ _ _ _ _ _ (steps_app _ _ _ _ _ _ _ t HS) (length (l1 ++ t)) ltac:(lia)) as (g' & c0 & Lg & HL).
      rewrite (limited_fuel g' (length (l ++ t))), Hc in HL by lia. exists (c0 ++ c), r. auto. }
    destruct l as [|b tl].
    + split; [|intros _; exact HR]. intros _. left. destruct (limited_ends limit (N.of_nat p) pend Pp) as (s & c & Bs & Hs).
      apply (Go s Bs). exists c, [0; 0]. split; [exact Hs|cbn; lia].
    + assert (Wr : RWf (at_byte d p n)) by (apply at_byte_wf; exact Hp).
      assert (Or : octets (view (at_byte d p n)) = b :: tl) by (rewrite at_byte_view by exact Bd; exact Hl).
      split.
      * intros ->. destruct (incomplete_operand _ _ b tl Wr eq_refl Or (opcode_in_bound limit pend b) HR) as [(s & v & Bs & Hv)|HSt].
        -- left. destruct (operand_takes _ _ _ _ Hv) as (b' & q & Hq & Hs). rewrite app_nil_r in Hq.
           assert (Ht : forall t, dec_operand (opcode_in limit pend b) (b :: tl ++ s ++ t) = Some (v, t)).
           { intros t. specialize (Hs t). rewrite <- Hq in Hs. cbn [app] in Hs. rewrite <- app_assoc in Hs. exact Hs. }
           destruct (is_indirect v) eqn:Hi.
           ++ apply (Go (s ++ [0; 0])); [apply Forall_app; split; [exact Bs|repeat constructor]|].
              exists [v], [0; 0]. split; [|cbn; lia]. cbn [app length]. rewrite dec_limited_step by exact HG. rewrite Ht, Hi. reflexivity.
           ++ set (pos2 := N.of_nat p + N.of_nat (length (b :: tl ++ s))).
              assert (HP : (if is_tx v then 2 else 0) = 0 \/ (if is_tx v then 2 else 0) = 1 \/ (if is_tx v then 2 else 0) = 2) by (destruct (is_tx v); auto).
              destruct (limited_ends limit pos2 (if is_tx v then 2 else 0) HP) as (t & c & Bt & Hc).
              apply (Go (s ++ t)); [apply Forall_app; split; assumption|]. exists (v :: c), [0; 0]. split; [|cbn; lia].
              cbn [app length]. rewrite dec_limited_step by exact HG. rewrite Ht, Hi.
              replace (N.of_nat p + N.of_nat (length (b :: tl ++ s ++ t) - length t)) with pos2
                by (unfold pos2; cbn [length]; rewrite !app_length; lia).
              rewrite (limited_fuel _ (length t)), Hc by (rewrite ?app_length; lia). reflexivity.
        -- right. right. exists (opcode_in limit pend b), (b :: tl). split; [|exact HSt].
           apply head_eq in HH as (l0 & E1 & E2). exists limit, link, l0, net, l1, (N.of_nat p), pend, b, tl. auto 10.
      * intros [C|C]; [apply CE; exact C|]. destruct C as [C|(op & l' & HR' & HSt)].
        -- exfalso. apply cut_bad in C. pose proof (bad_head d [] C) as X. rewrite app_nil_r in X. congruence.
        -- pose proof (stuck_none op l' [] (reaches_bytes _ _ _ HR' Bd) ltac:(constructor) HSt) as N1. rewrite app_nil_r in N1.
           destruct (reaches_same d op l' _ _ _ _ _ _ _ HR' N1 HH HS HD) as (b' & tl' & E3 & -> & ->). injection E3 as <- <-.
           rewrite (stuck_incomplete _ _ b tl Wr eq_refl Or HSt) in HR. congruence.
Qed.
Lemma frame_stuck_spec {E : Env} d : bytes d -> frame_stuck d -> d_from_reader read_fframe d 0 = Err EIncomplete /\ ~ frame_can_end d.
Proof.
  intros Bd HS. split.
  - pose proof (fframe_at d Bd) as F. pose proof (stuck_frame d [] Bd ltac:(constructor) HS) as N0. rewrite app_nil_r in N0. rewrite N0 in F.
    destruct F as [e F]. apply error_here in F. rewrite F. f_equal. apply (frame_incomplete d e Bd F). right. exact HS.
  - apply cannot_end; [exact Bd|]. intros t Bt. apply stuck_frame; assumption.
Qed.
Lemma frame_names {E : Env} d e : bytes d -> d_from_reader read_fframe d 0 = Err e ->
  (e = EInvalidParam <-> frame_unknown d) /\ (e = EIncomplete \/ e = EInvalidParam \/ e = EParse).
Proof.
  intros Bd H. apply error_here in H.
  assert (Un : forall op l, frame_reaches d op l -> ~ In op assigned_opcodes -> dec_operand op l = None).
  { intros op l HR Hn. apply unassigned_dead; [apply (reaches_bound _ _ _ HR)|apply (reaches_bytes _ _ _ HR Bd)|exact Hn]. }
  destruct (frame_err d e Bd H) as [(HN & HK & HB)|(limit & link & net & l1 & HH & [(-> & HL)|(n & p & pend & l & Pp & HS & HG & Hp & Hl & HR)])].
  - split; [|destruct HK; auto]. split; [intros ->; destruct HK; discriminate|]. intros (op & l & HR & _). exfalso.
    destruct HR as (limit & link & l0 & net & l1 & pos & pend & b & l2 & E1 & E2 & _).
    assert (HH : dec_head d = Some ((limit, link, net), l1)) by (apply head_eq; eauto). congruence.
  - split; [|auto]. split; [discriminate|]. intros (op & l & HR & Hn). exfalso. apply HL.
    pose proof (reaches_dead d op l [] HR) as D. rewrite !app_nil_r in D. specialize (D (Un _ _ HR Hn)).
    destruct HR as (limit' & link' & l0 & net' & l1' & pos' & pend' & b & l2 & E1 & E2 & HS & HG & -> & ->).
    apply head_eq in HH as (l0' & E1' & E2'). assert (l0' = l0 /\ limit' = limit) as [-> ->] by (split; congruence).
    assert (l1' = l1) as -> by congruence.
    destruct (steps_limited _ _ _ _ _ _ _ HS (length l1) ltac:(lia)) as (g' & c & Lg & HL').
    destruct g' as [|g']; [cbn in Lg; lia|]. rewrite dec_limited_step in HL' by exact HG.
    rewrite (Un (opcode_in limit pend' b) (b :: l2)) in HL'; [exact HL'| |exact Hn].
    exists limit, link, l0, net, l1, pos', pend', b, l2. assert (link' = link) by congruence. auto 10.
  - assert (HD : forall b tl, l = b :: tl -> dec_operand (opcode_in limit pend b) l = None).
    { intros b tl ->. rewrite <- Hl. apply (reader_none _ d p n e Bd Hp (opcode_in_bound _ _ _) HR). }
    destruct l as [|b tl].
    + subst e. split; [|auto]. split; [discriminate|]. intros (op & l & HR & Hn). exfalso.
      destruct (reaches_same d op l _ _ _ _ _ _ _ HR (Un _ _ HR Hn) HH HS HD) as (b' & tl' & E3 & _). discriminate.
    + destruct (reader_of_err _ (at_byte d p n) _ eq_refl HR) as [(Hn & ->)|(Hi & Hk)].
      * split; [|auto]. split; [|reflexivity]. intros _. exists (opcode_in limit pend b), (b :: tl). split; [|exact Hn].
        apply head_eq in HH as (l0 & E1 & E2). exists limit, link, l0, net, l1, (N.of_nat p), pend, b, tl. auto 10.
      * split; [|destruct Hk; auto]. split; [intros ->; destruct Hk; discriminate|]. intros (op & l & HR' & Hn). exfalso.
        destruct (reaches_same d op l _ _ _ _ _ _ _ HR' (Un _ _ HR' Hn) HH HS HD) as (b' & tl' & E3 & -> & ->). injection E3 as <- <-. contradiction.
Qed.

(** ** Background frames *)
Lemma Wide_bframe {E : Env} : Wide 6 dec_bframe.
Proof.
  unfold dec_bframe. apply (Wide_one_then 5). intros s _. apply (Wide_one_then 4). intros c _. apply Wide_type; [apply part_below|]. intros t.
  apply (Wide_bind 2 2); [apply (Wide_host 2)|]. intros p. apply (Wide_bind 2 0); [apply (Wide_host 2)|]. intros k. apply Wide_give.
Qed.
Lemma Liv_Wide {A} n (m : reader A) D : Dec m D -> Loc D -> Wide n D -> Liv m D Any.
Proof.
  intros HD HL HW. split; [apply Dec_A, HD|]. split; [exact HL|]. intros r Hr Hl He _.
  assert (HN : D (octets (view r)) = None).
  { specialize (HD r Hr). unfold DecAt in HD. destruct (D (octets (view r))) as [[v rest]|]; [|reflexivity]. destruct HD as (k & _ & _ & HD). congruence. }
  destruct (HW (octets (view r) ++ repeat 0 n)) as (v & rest & Hv & _);
    [apply Forall_app; split; [apply octets_bytes|apply bytes_repeat]|rewrite app_length, repeat_length; lia|].
  destruct (finish D _ _ v rest HL HN Hv) as (s & Hs & t & Ht). exists s, v. split; [|split; [exact Hs|exact I]].
  assert (B := bytes_repeat n). rewrite Ht in B. apply Forall_app in B. apply B.
Qed.
Lemma Liv_bframe {E : Env} : Liv read_bframe dec_bframe Any.
Proof. exact (Liv_Wide 6 _ _ Dec_bframe Loc_bframe Wide_bframe). Qed.
Lemma names_bframe {E : Env} : names_errors read_bframe.
Proof. apply (names_Liv _ dec_bframe); [apply Liv_bframe| |apply incremental_bframe]. unfold read_bframe. kd. Qed.

(** ** Witnesses and entry points *)
Lemma stuck_frame_witness {E : Env} : exists d, bytes d /\ frame_stuck d.
Proof.
  destruct E as [[] h r].
  1, 2: exists [0; 1; 66; 7]; (split; [repeat constructor|]); left; (split; [discriminate|]); eexists; exists 7; (split; [vm_compute; reflexivity|discriminate]).
  exists [0; 1; 66; 0; 0; 0; 0; 0; 0; 0x44; 2]. split; [repeat constructor|]. right. exists 34, [0x44; 2]. split.
  - do 6 eexists. exists 1, 0x44, [2]. split; [vm_compute; reflexivity|]. split; [vm_compute; reflexivity|]. split; [apply steps_here|].
    split; [left; reflexivity|]. split; reflexivity.
  - left. split; [reflexivity|]. exists 0x44, 2, []. split; [reflexivity|]. split; [reflexivity|]. split; [left; reflexivity|reflexivity].
Qed.
Lemma frame_incomplete_refuted {E : Env} : exists d, bytes d /\ d_from_reader read_fframe d 0 = Err EIncomplete /\ ~ frame_can_end d.
Proof. destruct stuck_frame_witness as (d & Bd & H). exists d. split; [exact Bd|apply frame_stuck_spec; assumption]. Qed.
Lemma frame_entry_points {E : Env} d e : bytes d ->
  (fframe_from_bytes d 0 = Err e <-> d_from_reader read_fframe d 0 = Err e) /\
  (fframe_try_from d = Err e -> d_from_reader read_fframe d 0 = Err e \/ e = ETooMuchData /\ exists x, d_from_reader read_fframe d 0 = Ok x) /\
  (d_from_reader read_fframe d 0 = Err e -> fframe_try_from d = Err e).
Proof.
  intros Bd. pose proof (decode_fframe d Bd) as D. pose proof (fframe_at d Bd) as F. rewrite from_reader_0.
  destruct (dec_fframe d) as [[v rest]|].
  - destruct F as (s & -> & _). destruct D as (_ & -> & ->).
    destruct (Nat.leb _ _), (Nat.eqb _ _); (split; [split; discriminate|]); (split; [|discriminate]); intros H; try discriminate;
      right; (split; [congruence|eexists; reflexivity]).
  - destruct F as [e' F]. rewrite F. destruct D as (e2 & D1 & D2). 
    assert (e2 = e').
    { unfold fframe_from_bytes in D1. rewrite d_from_bytes_0, F in D1. congruence. }
    subst e2. rewrite D1, D2. split; [split; intros H; congruence|]. split; [intros H; left; congruence|intros H; congruence].
Qed.
