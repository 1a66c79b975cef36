(** The byte-range table of [utf8_valid] accepts exactly the encodings of scalar values. *)
From Coq Require Import List NArith ZArith Bool Lia ZifyBool ZifyNat ZifyN Arith.
From Verif Require Import Base Deku Utils LReader WellFormed.
Import ListNotations.
Open Scope N_scope.

Lemma cont_spec b : cont b = true <-> 0x80 <= b <= 0xBF.
Proof. unfold cont, in_range. lia. Qed.
Lemma range_spec lo hi b : in_range lo hi b = true <-> lo <= b <= hi.
Proof. unfold in_range. lia. Qed.
Lemma range_false lo hi b : in_range lo hi b = false <-> b < lo \/ hi < b.
Proof. unfold in_range. lia. Qed.

Lemma dm64 q r : r < 64 -> (q * 64 + r) / 64 = q /\ (q * 64 + r) mod 64 = r.
Proof.
  intros H. split.
  - symmetry. apply N.div_unique with r; lia.
  - symmetry. apply N.mod_unique with q; lia.
Qed.
Lemma split64 c : exists q r, c = q * 64 + r /\ r < 64.
Proof.
  exists (c / 64), (c mod 64). split; [|apply N.mod_lt; lia].
  rewrite (N.div_mod c 64) at 1 by lia. lia.
Qed.

(** Digits of the three and four byte forms. *)
Lemma digits3 q r s : r < 64 -> s < 64 ->
  let c := (q * 64 + r) * 64 + s in c / 4096 = q /\ (c / 64) mod 64 = r /\ c mod 64 = s.
Proof.
  intros Hr Hs c. unfold c. destruct (dm64 (q * 64 + r) s Hs) as [A B]. destruct (dm64 q r Hr) as [C D].
  change 4096 with (64 * 64). rewrite <- N.div_div by lia. rewrite A, B, C, D. auto.
Qed.
Lemma digits4 p q r s : q < 64 -> r < 64 -> s < 64 ->
  let c := ((p * 64 + q) * 64 + r) * 64 + s in
  c / 262144 = p /\ (c / 4096) mod 64 = q /\ (c / 64) mod 64 = r /\ c mod 64 = s.
Proof.
  intros Hq Hr Hs c. destruct (digits3 (p * 64 + q) r s Hr Hs) as (A & B & C).
  change 262144 with (4096 * 64). unfold c. rewrite <- N.div_div by lia. rewrite A.
  destruct (dm64 p q Hq) as [D F]. auto.
Qed.

Lemma range3 a b :
  ((a = 0xE0 /\ 0xA0 <= b <= 0xBF) \/ (0xE1 <= a <= 0xEC /\ 0x80 <= b <= 0xBF)
      \/ (a = 0xED /\ 0x80 <= b <= 0x9F) \/ (0xEE <= a <= 0xEF /\ 0x80 <= b <= 0xBF)) <->
  ((a =? 0xE0) && in_range 0xA0 0xBF b) || (in_range 0xE1 0xEC a && cont b)
    || ((a =? 0xED) && in_range 0x80 0x9F b) || (in_range 0xEE 0xEF a && cont b) = true.
Proof.
  unfold cont, in_range. rewrite !orb_true_iff, !andb_true_iff, !N.eqb_eq, !N.leb_le. lia.
Qed.
Lemma range4 a b :
  ((a = 0xF0 /\ 0x90 <= b <= 0xBF) \/ (0xF1 <= a <= 0xF3 /\ 0x80 <= b <= 0xBF)
      \/ (a = 0xF4 /\ 0x80 <= b <= 0x8F)) <->
  ((a =? 0xF0) && in_range 0x90 0xBF b) || (in_range 0xF1 0xF3 a && cont b)
    || ((a =? 0xF4) && in_range 0x80 0x8F b) = true.
Proof.
  unfold cont, in_range. rewrite !orb_true_iff, !andb_true_iff, !N.eqb_eq, !N.leb_le. lia.
Qed.

(** The decision procedure on one encoded character. *)
Lemma utf8_valid_char c l : scalar c -> utf8_valid (utf8_char c ++ l) = utf8_valid l.
Proof.
  intros Hs. unfold scalar in Hs. unfold utf8_char.
  destruct (N.ltb_spec c 0x80) as [A|A].
  { cbn [app utf8_valid]. rewrite (proj2 (N.ltb_lt _ _) A). reflexivity. }
  destruct (N.ltb_spec c 0x800) as [B|B].
  { destruct (split64 c) as (q & r & -> & Hr). destruct (dm64 q r Hr) as [-> ->].
    cbn [app utf8_valid].
    rewrite (proj2 (N.ltb_ge (0xC0 + q) 0x80)) by lia.
    rewrite (proj2 (range_spec 0xC2 0xDF (0xC0 + q))) by lia.
    rewrite (proj2 (cont_spec (0x80 + r))) by lia. reflexivity. }
  destruct (N.ltb_spec c 0x10000) as [C|C].
  { destruct (split64 c) as (q & s & -> & Hr). destruct (split64 q) as (p & r & -> & Hq).
    destruct (digits3 p r s Hq Hr) as (-> & -> & ->).
    cbn [app utf8_valid].
    rewrite (proj2 (N.ltb_ge (0xE0 + p) 0x80)) by lia.
    rewrite (proj2 (range_false 0xC2 0xDF (0xE0 + p))) by lia.
    rewrite (proj1 (range3 (0xE0 + p) (0x80 + r))) by lia.
    rewrite (proj2 (cont_spec (0x80 + s))) by lia. reflexivity. }
  destruct (split64 c) as (q & t & -> & Ht). destruct (split64 q) as (p & s & -> & Hq).
  destruct (split64 p) as (o & r & -> & Hp).
  destruct (digits4 o r s t Hp Hq Ht) as (-> & -> & -> & ->).
  cbn [app utf8_valid].
  rewrite (proj2 (N.ltb_ge (0xF0 + o) 0x80)) by lia.
  rewrite (proj2 (range_false 0xC2 0xDF (0xF0 + o))) by lia.
  match goal with |- (if ?t then _ else _) = _ => destruct t eqn:E end.
  { apply range3 in E. lia. }
  rewrite (proj1 (range4 (0xF0 + o) (0x80 + r))) by lia.
  rewrite (proj2 (cont_spec (0x80 + s))) by lia.
  rewrite (proj2 (cont_spec (0x80 + t))) by lia. reflexivity.
Qed.

Lemma is_utf8_valid l : is_utf8 l -> utf8_valid l = true.
Proof.
  intros (cs & H & ->). induction H as [|c cs Hc _ IH]; [reflexivity|].
  cbn [flat_map]. rewrite utf8_valid_char; assumption.
Qed.

Lemma is_utf8_cons c l : scalar c -> is_utf8 l -> is_utf8 (utf8_char c ++ l).
Proof. intros Hc (cs & H & ->). exists (c :: cs). split; [constructor; assumption|reflexivity]. Qed.

Lemma utf8_valid_is l : bytes l -> utf8_valid l = true -> is_utf8 l.
Proof.
  remember (length l) as n eqn:Hn. assert (Hle : (length l <= n)%nat) by lia. clear Hn.
  revert l Hle. induction n as [|n IH]; intros l Hle Hb Hv.
  { destruct l; [|cbn in Hle; lia]. exists []. split; [constructor|reflexivity]. }
  destruct l as [|a l1]; [exists []; split; [constructor|reflexivity]|].
  apply Forall_cons_iff in Hb as [Ha Hb]. unfold byte in Ha. cbn [length] in Hle.
  cbn [utf8_valid] in Hv. destruct (N.ltb_spec a 0x80) as [A|A].
  { change (a :: l1) with ([a] ++ l1). replace [a] with (utf8_char a).
    - apply is_utf8_cons; [unfold scalar; lia|]. apply IH; [lia|assumption|assumption].
    - unfold utf8_char. rewrite (proj2 (N.ltb_lt _ _) A). reflexivity. }
  destruct l1 as [|b l2]; [discriminate|].
  apply Forall_cons_iff in Hb as [Hb0 Hb]. cbn [length] in Hle.
  destruct (in_range 0xC2 0xDF a) eqn:R1.
  { apply range_spec in R1. apply andb_prop in Hv as [Hc Hv]. apply cont_spec in Hc.
    replace (a :: b :: l2) with (utf8_char ((a - 0xC0) * 64 + (b - 0x80)) ++ l2).
    - apply is_utf8_cons; [unfold scalar; lia|]. apply IH; [lia|assumption|assumption].
    - unfold utf8_char.
      destruct (dm64 (a - 0xC0) (b - 0x80)) as [-> ->]; [lia|].
      rewrite (proj2 (N.ltb_ge _ 0x80)) by lia. rewrite (proj2 (N.ltb_lt _ 0x800)) by lia.
      cbn [app]. repeat (f_equal; try lia). }
  destruct l2 as [|c l3]; [discriminate|].
  apply Forall_cons_iff in Hb as [Hc0 Hb]. cbn [length] in Hle.
  match goal with H : (if ?t then _ else _) = true |- _ => destruct t eqn:R2 end.
  { apply andb_prop in Hv as [Hc Hv]. apply cont_spec in Hc. apply range3 in R2.
    replace (a :: b :: c :: l3) with
      (utf8_char (((a - 0xE0) * 64 + (b - 0x80)) * 64 + (c - 0x80)) ++ l3).
    - apply is_utf8_cons; [unfold scalar; lia|]. apply IH; [lia|assumption|assumption].
    - unfold utf8_char.
      destruct (digits3 (a - 0xE0) (b - 0x80) (c - 0x80)) as (-> & -> & ->); [lia|lia|].
      rewrite (proj2 (N.ltb_ge _ 0x80)) by lia. rewrite (proj2 (N.ltb_ge _ 0x800)) by lia.
      rewrite (proj2 (N.ltb_lt _ 0x10000)) by lia.
      cbn [app]. repeat (f_equal; try lia). }
  destruct l3 as [|d l4]; [discriminate|].
  apply Forall_cons_iff in Hb as [Hd0 Hb]. cbn [length] in Hle.
  apply andb_prop in Hv as [Hv Hv4]. apply andb_prop in Hv as [Hv Hd]. apply andb_prop in Hv as [R3 Hc].
  apply cont_spec in Hc. apply cont_spec in Hd. apply range4 in R3. clear R1 R2.
  replace (a :: b :: c :: d :: l4) with
    (utf8_char ((((a - 0xF0) * 64 + (b - 0x80)) * 64 + (c - 0x80)) * 64 + (d - 0x80)) ++ l4).
  - apply is_utf8_cons; [unfold scalar; lia|]. apply IH; [lia|assumption|assumption].
  - unfold utf8_char.
    destruct (digits4 (a - 0xF0) (b - 0x80) (c - 0x80) (d - 0x80)) as (-> & -> & -> & ->); [lia|lia|lia|].
    rewrite (proj2 (N.ltb_ge _ 0x80)) by lia. rewrite (proj2 (N.ltb_ge _ 0x800)) by lia.
    rewrite (proj2 (N.ltb_ge _ 0x10000)) by lia.
    cbn [app]. repeat (f_equal; try lia).
Qed.
