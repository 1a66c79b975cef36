(** Lemmas for C77: the headers and the loop over the actions, on the decoders. *)
From Coq Require Import List NArith ZArith Bool Lia ZifyBool ZifyNat ZifyN Arith.
From Verif Require Import Base Deku Utils Types Physical Link Network Session Data Query
  Interface File Operation Action Command Frames WellFormed SpecLayout SpecAction SpecDecode SpecStream SpecLive LUtf8 LBits LReader LLayout
  LNice LNiceOps LActionApi LReturn LFiles LStream LDecode LDecodeTypes LDecodeOps LDecodeAct LDecodeCmd LDecodeTx LDecodeLoop LJoin
  LLive LLiveOps LLiveAct LLiveCmd LLiveTx LLiveTop LLiveLoop LErr LErrTop LFrameStream LDecodeFrame SpecFrameDecode SpecFrameLive.
Import ListNotations.
Open Scope N_scope.

(** ** Decoders that accept everything that is long enough *)
Definition Wide {A} (n : nat) (D : dec A) : Prop := forall l, bytes l -> (n <= length l)%nat ->
  exists v rest, D l = Some (v, rest) /\ bytes rest /\ (length l <= n + length rest)%nat.
Lemma Wide_le {A} n m (D : dec A) : Wide n D -> (n <= m)%nat -> Wide m D.
Proof. intros H L l Bl Hl. destruct (H l Bl ltac:(lia)) as (v & rest & Hd & Br & Hr). exists v, rest. split; [exact Hd|]. split; [exact Br|lia]. Qed.
Lemma Wide_bind {A B} n m (D : dec A) (K : A -> dec B) : Wide n D -> (forall v, Wide m (K v)) -> Wide (n + m) (andthen D K).
Proof.
  intros H G l Bl Hl. destruct (H l Bl ltac:(lia)) as (v & rest & Hd & Br & Hr).
  destruct (G v rest Br ltac:(lia)) as (w & rest' & Hw & Br' & Hr'). exists w, rest'. unfold andthen. rewrite Hd.
  split; [exact Hw|]. split; [exact Br'|lia].
Qed.
Lemma Wide_give {A} (v : A) : Wide 0 (give v).
Proof. intros l Bl _. exists v, l. split; [reflexivity|]. split; [exact Bl|lia]. Qed.
Lemma Wide_one_then {B} m (K : N -> dec B) : (forall v, v < 256 -> Wide m (K v)) -> Wide (S m) (andthen one K).
Proof.
  intros G l Bl Hl. destruct l as [|b l]; [cbn in Hl; lia|]. apply Forall_cons_iff in Bl as [Hb Bl]. cbn [length] in Hl.
  destruct (G b Hb l Bl ltac:(lia)) as (w & rest' & Hw & Br' & Hr'). exists w, rest'. unfold andthen, one.
  split; [exact Hw|]. split; [exact Br'|cbn [length]; lia].
Qed.
Lemma Wide_one : Wide 1 one.
Proof. intros [|b l] Bl Hl; [cbn in Hl; lia|]. apply Forall_cons_iff in Bl as [_ Bl]. exists b, l. split; [reflexivity|]. split; [exact Bl|cbn; lia]. Qed.
Lemma Wide_some n : Wide (N.to_nat n) (some_bytes n).
Proof.
  intros l Bl Hl. unfold some_bytes. destruct (N.leb_spec n (N.of_nat (length l))); [|lia]. eexists _, _. split; [reflexivity|].
  split; [apply bytes_skipn; exact Bl|]. rewrite skipn_length. lia.
Qed.
Lemma Wide_perhaps {A} c n (D : dec A) : Wide n D -> Wide n (perhaps c D).
Proof.
  intros H. unfold perhaps. destruct c.
  - replace n with (n + 0)%nat by lia. apply Wide_bind; [exact H|]. intros v. apply Wide_give.
  - apply (Wide_le 0); [apply Wide_give|lia].
Qed.
Ltac wide := repeat first
  [ apply Wide_give | apply Wide_one_then; intros ? ? | apply Wide_bind; [|intros ?] | apply Wide_some | apply Wide_one | apply Wide_perhaps ].
Lemma Wide_num k : Wide (N.to_nat k) (num k).
Proof. eapply Wide_le; [unfold num; wide|lia]. Qed.
Lemma Wide_host {E : Env} k : Wide (N.to_nat k) (host_num k).
Proof. eapply Wide_le; [unfold host_num; wide|lia]. Qed.
Lemma Wide_length : Wide 4 dec_length.
Proof.
  unfold dec_length. apply (Wide_one_then 3). intros b Hb. cbv zeta. apply (Wide_bind 3 0); [|intros v; apply Wide_give].
  eapply Wide_le; [apply Wide_num|]. assert (b / 64 < 4) by (apply N.div_lt_upper_bound; [discriminate|lia]). lia.
Qed.
Lemma Wide_varint : Wide 1 dec_varint.
Proof. unfold dec_varint. wide. Qed.
Lemma Wide_address t : Wide 8 (dec_address t).
Proof.
  destruct t; cbn [dec_address].
  - eapply Wide_le; [apply (Wide_bind 1 0); [apply Wide_varint|intros; apply Wide_give]|lia].
  - eapply Wide_le; [apply Wide_give|lia].
  - eapply Wide_le; [apply (Wide_bind 8 0); [apply (Wide_num 8)|intros; apply Wide_give]|lia].
  - eapply Wide_le; [apply (Wide_bind 2 0); [apply (Wide_num 2)|intros; apply Wide_give]|lia].
Qed.
Lemma Wide_type {B} m c (K : address_type -> dec B) : c < 4 -> (forall t, Wide m (K t)) ->
  Wide m (andthen (named code_address_type address_types c) K).
Proof.
  intros Hc H. assert (c = 0 \/ c = 1 \/ c = 2 \/ c = 3) as [->|[->|[->| ->]]] by lia;
  exact (Wide_bind 0 m (give _) K (Wide_give _) H).
Qed.
Lemma Wide_method {B} m c (K : nls_method -> dec B) : c < 8 -> (forall t, Wide m (K t)) -> Wide m (andthen (named code_nls all_nls c) K).
Proof.
  intros Hc H. assert (c = 0 \/ c = 1 \/ c = 2 \/ c = 3 \/ c = 4 \/ c = 5 \/ c = 6 \/ c = 7) as E by lia.
  decompose [or] E; subst c; exact (Wide_bind 0 m (give _) K (Wide_give _) H).
Qed.
Lemma part_below o w b : part o w b < 2 ^ w.
Proof. unfold part. apply N.mod_lt. apply N.pow_nonzero. discriminate. Qed.
Lemma Wide_link : Wide 14 dec_link.
Proof.
  unfold dec_link. apply (Wide_bind 4 10); [apply Wide_length|intros n]. apply (Wide_one_then 9). intros s _. apply (Wide_one_then 8). intros c _.
  apply Wide_type; [apply part_below|]. intros t. apply (Wide_bind 8 0); [apply Wide_address|]. intros; apply Wide_give.
Qed.
Lemma Wide_hopping : Wide 1 dec_hopping.
Proof. unfold dec_hopping. apply (Wide_one_then 0). intros b _. apply Wide_type; [apply part_below|]. intros; apply Wide_give. Qed.
Lemma Wide_net c n : n < 8 -> Wide 10 (dec_net c n).
Proof.
  intros Hn. unfold dec_net. apply Wide_type; [apply part_below|]. intros t. apply Wide_method; [exact Hn|]. intros m.
  apply (Wide_bind 1 9); [apply Wide_perhaps, Wide_hopping|]. intros h. apply (Wide_one_then 8). intros k _.
  apply (Wide_bind 8 0); [apply Wide_address|]. intros; apply Wide_give.
Qed.
Lemma Wide_trans c : Wide 8 (dec_trans c).
Proof.
  unfold dec_trans. apply (Wide_one_then 7). intros d _. apply (Wide_one_then 6). intros t _.
  apply (Wide_bind 1 5); [apply Wide_perhaps, Wide_one|]. intros x.
  apply (Wide_bind 1 4); [apply Wide_perhaps, Wide_varint|]. intros y.
  apply (Wide_bind 1 3); [apply Wide_perhaps, Wide_varint|]. intros e.
  apply (Wide_bind 1 2); [apply Wide_perhaps, Wide_varint|]. intros g.
  apply (Wide_bind 2 0); [apply Wide_perhaps; apply (Wide_one_then 1); intros ? _; apply (Wide_one_then 0); intros ? _; apply Wide_give|].
  intros; apply Wide_give.
Qed.
Lemma bytes_late j l : 1 <= j <= 7 -> bytes l -> bytes (late j l).
Proof.
  intros Hj. induction l as [|a [|b l] IH]; intros H; [constructor|constructor|]. apply Forall_cons_iff in H as [Ha H].
  cbn [late]. apply Forall_cons; [|exact (IH H)]. apply Forall_cons_iff in H as [Hb _].
  assert (HX : a mod 2 ^ (8 - j) < 2 ^ (8 - j)) by (apply N.mod_lt, N.pow_nonzero; discriminate).
  assert (HY : b / 2 ^ (8 - j) < 2 ^ j).
  { apply N.div_lt_upper_bound; [apply N.pow_nonzero; discriminate|]. rewrite <- N.pow_add_r. replace (8 - j + j) with 8 by lia. exact Hb. }
  assert (HP : 2 ^ (8 - j) * 2 ^ j = 256) by (rewrite <- N.pow_add_r; replace (8 - j + j) with 8 by lia; reflexivity).
  unfold byte. revert HX HY HP. generalize (a mod 2 ^ (8 - j)) (b / 2 ^ (8 - j)). intros x y. generalize (2 ^ (8 - j)) (2 ^ j).
  intros p q HX HY HP. assert ((x + 1) * q <= p * q) by (apply N.mul_le_mono_r; lia). lia.
Qed.
(** The first byte has the first bits of an assigned security method. *)
Definition method_ok {E : Env} (l : list N) : Prop := e_feat = Wizzilab \/ (exists c tl, l = c :: tl /\ part 0 3 c < 4).
Lemma Wide_headers {E : Env} l : bytes l -> (30 <= length l)%nat -> method_ok l -> exists h rest, dec_headers l = Some (h, rest).
Proof.
  intros Bl Hl HM. destruct l as [|c tl]; [cbn in Hl; lia|]. cbn [length] in Hl. apply Forall_cons_iff in Bl as [Bc Bl]. unfold dec_headers.
  assert (HF : e_feat = Wizzilab \/ e_feat <> Wizzilab) by (destruct e_feat; auto; right; discriminate).
  destruct HF as [HF|HF].
  - rewrite HF. destruct (Wide_net c (part 0 3 c) (part_below 0 3 c) tl Bl ltac:(lia)) as (net & rest & -> & Br & Lr).
    destruct rest as [|x more]; [cbn in Lr; lia|].
    destruct (Wide_trans (part 1 7 x) (late 7 (x :: more)) (bytes_late 7 _ ltac:(lia) Br)) as (tr & r2 & -> & _);
      [rewrite late_length; cbn [length] in *; lia|]. eexists _, _. reflexivity.
  - destruct HM as [HM|(c' & tl' & H & Hc)]; [contradiction|]. injection H as <- <-.
    destruct tl as [|x tl]; [cbn in Hl; lia|].
    assert (P1 : part 7 1 x < 2) by apply (part_below 7 1).
    destruct (Wide_net c (2 * part 0 3 c + part 7 1 x) ltac:(lia) (late 1 (x :: tl)) (bytes_late 1 _ ltac:(lia) Bl)) as (net & rest & EN & Br & Lr).
    { rewrite late_length. cbn [length] in *. lia. }
    rewrite EN. rewrite late_length in *. cbn [length Nat.pred] in *.
    set (q := skipn _ (x :: tl)). assert (Bq : bytes q) by (apply bytes_skipn; exact Bl).
    assert (Lq : (19 <= length q)%nat) by (unfold q; rewrite skipn_length; cbn [length]; lia).
    destruct q as [|y more]; [cbn in Lq; lia|]. apply Forall_cons_iff in Bq as [_ Bq]. cbn [length] in Lq.
    destruct (Wide_trans (part 0 7 y) more Bq ltac:(lia)) as (tr & r2 & -> & _). destruct e_feat; [eexists _, _; reflexivity..|contradiction].
Qed.
(** What comes from the bytes that were added ends exactly with them. *)
Lemma finish {A} (D : dec A) d z v rest : Loc D -> D d = None -> D (d ++ z) = Some (v, rest) ->
  exists s, D (d ++ s) = Some (v, []) /\ exists t, z = s ++ t.
Proof.
  intros HL HN HS. destruct (HL _ _ _ HS) as (p & Hp & Hs).
  destruct (Nat.le_gt_cases (length d) (length p)) as [L|L].
  - assert (Ep : p = d ++ skipn (length d) p).
    { rewrite <- (firstn_skipn (length d) p) at 1. f_equal.
      apply (f_equal (firstn (length d))) in Hp. rewrite firstn_app, Nat.sub_diag, firstn_O, app_nil_r, firstn_all in Hp.
      rewrite firstn_app in Hp. replace (length d - length p)%nat with 0%nat in Hp by lia. rewrite firstn_O, app_nil_r in Hp. symmetry. exact Hp. }
    exists (skipn (length d) p). split; [rewrite <- Ep; specialize (Hs []); rewrite app_nil_r in Hs; exact Hs|].
    exists rest. rewrite Ep, <- app_assoc in Hp. apply app_inv_head in Hp. exact Hp.
  - exfalso. assert (Ed : d = p ++ skipn (length p) d).
    { rewrite <- (firstn_skipn (length p) d) at 1. f_equal.
      apply (f_equal (firstn (length p))) in Hp. rewrite firstn_app in Hp. replace (length p - length d)%nat with 0%nat in Hp by lia.
      rewrite firstn_O, app_nil_r in Hp. rewrite Hp, firstn_app, Nat.sub_diag, firstn_O, app_nil_r, firstn_all. reflexivity. }
    rewrite Ed, Hs in HN. discriminate.
Qed.
(** Link and other headers together. *)
Definition dec_head {E : Env} : dec (N * (nframe -> N -> fframe) * (command -> nframe)) :=
  let* x := dec_link in let* h := dec_headers in give (x, h).
Lemma Loc_head {E : Env} : Loc dec_head.
Proof. unfold dec_head. apply Loc_bind; [apply Loc_link|]. intros x. apply Loc_bind; [apply Loc_headers|]. intros h. apply Loc_give. Qed.
Lemma zeros_bytes n : bytes (repeat 0 n).
Proof. apply bytes_repeat. Qed.
(** A header that is cut off can be finished, unless its security method is unassigned. *)
Definition bad_method {E : Env} (d : list N) : Prop := e_feat <> Wizzilab /\ exists x c tl, dec_link d = Some (x, c :: tl) /\ 4 <= part 0 3 c.
Lemma head_ends {E : Env} d : bytes d -> dec_head d = None -> bad_method d \/ exists s x, bytes s /\ dec_head (d ++ s) = Some (x, []).
Proof.
  intros Bd HN. assert (BZ : forall n, bytes (d ++ repeat 0 n)) by (intros n; apply Forall_app; split; [exact Bd|apply zeros_bytes]).
  assert (G : bad_method d \/ exists n x rest, dec_head (d ++ repeat 0 n) = Some (x, rest)).
  { unfold dec_head. unfold andthen at 2. destruct (dec_link d) as [[x l]|] eqn:EL.
    - destruct (Loc_link _ _ _ EL) as (p & Hp & Hs).
      assert (Bl : bytes l) by (rewrite Hp in Bd; apply Forall_app in Bd; apply Bd).
      assert (HM : bad_method d \/ method_ok (l ++ repeat 0 30)).
      { assert (HF : e_feat = Wizzilab \/ e_feat <> Wizzilab) by (destruct e_feat; auto; right; discriminate).
        destruct HF as [HF|HF]; [right; left; exact HF|]. destruct l as [|c tl].
        - right. right. exists 0, (repeat 0 29). split; reflexivity.
        - destruct (N.le_gt_cases 4 (part 0 3 c)) as [L|L]; [left; split; [exact HF|]; exists x, c, tl; split; assumption|].
          right. right. exists c, (tl ++ repeat 0 30). split; [reflexivity|exact L]. }
      destruct HM as [HM|HM]; [left; exact HM|]. right.
      destruct (Wide_headers (l ++ repeat 0 30)) as (h & rest & Hh); [apply Forall_app; split; [exact Bl|apply zeros_bytes]|rewrite app_length, repeat_length; lia|exact HM|].
      exists 30%nat, (x, h), rest. unfold andthen. rewrite Hp, <- app_assoc, Hs, Hh. reflexivity.
    - right. destruct (Wide_link (d ++ repeat 0 44)) as (x & l & Hx & Bl & Ll); [apply BZ|rewrite app_length, repeat_length; lia|].
      destruct (finish dec_link d (repeat 0 44) x l Loc_link EL Hx) as (s & Hs & t & Ht).
      assert (Hl : l = t).
      { destruct (Loc_link _ _ _ Hs) as (p & Hp & Hs'). rewrite app_nil_r in Hp. subst p. rewrite Ht, app_assoc, Hs' in Hx. congruence. }
      subst t. assert (Lz : (30 <= length l)%nat) by (rewrite app_length, repeat_length in Ll; lia).
      assert (Z : forall y, In y l -> y = 0).
      { intros y Hy. apply (repeat_spec 44 0 y). rewrite Ht. apply in_or_app. right. exact Hy. }
      destruct l as [|c tl]; [cbn in Lz; lia|]. assert (c = 0) by (apply Z; left; reflexivity).
      destruct (Wide_headers (c :: tl) Bl Lz) as (h & rest & Hh); [right; exists c, tl; subst c; split; reflexivity|].
      exists 44%nat, (x, h), rest. unfold andthen. rewrite Hx, Hh. reflexivity. }
  destruct G as [G|(n & x & rest & Hx)]; [left; exact G|right].
  destruct (finish dec_head d (repeat 0 n) x rest Loc_head HN Hx) as (s & Hs & t & Ht). exists s, x. split; [|exact Hs].
  assert (B := zeros_bytes n). rewrite Ht in B. apply Forall_app in B. apply B.
Qed.
