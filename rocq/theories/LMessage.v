(** Error messages (C90, C91). *)
From Coq Require Import List NArith ZArith Bool Lia String.
From Verif Require Import Base Deku Utils Types WellFormed Display Cli Debug Message SpecMessage LNumbers LUtf8 LText LDebugTop LReader LFiles.
Import ListNotations.
Open Scope list_scope.
Open Scope N_scope.

(** ** VarInt *)
Lemma value_message v ceil : varint_max < v ->
  exists t, names "VarInt: Value too large: " v varint_max t /\
    new_failure v ceil = Some (mkFailure EInvalidParam t) /\
    compress_failure v ceil = Some (mkFailure EInvalidParam t) /\
    write_varint_failure (mkVarInt v ceil) = Some (mkFailure EInvalidParam t).
Proof.
  intros H. eexists. split; [reflexivity|].
  assert (V : varint_is_valid v = false) by (apply N.leb_gt; exact H).
  unfold new_failure, write_varint_failure, compress_failure, varint_new, compress. cbn [vi_value vi_ceil].
  rewrite V. cbn [negb]. auto.
Qed.
Lemma value_largest ceil :
  largest (fun v => new_failure v ceil = None) varint_max /\ largest (fun v => compress_failure v ceil = None) varint_max.
Proof.
  split; (split; [destruct ceil; reflexivity|]); intros n H;
  destruct (value_message n ceil H) as (t & _ & A & B & _); intros C; congruence.
Qed.
Lemma write_failure_kind v :
  match write_varint_failure v with Some f => write_varint v = Err (f_kind f) | None => exists l, write_varint v = Ok l end.
Proof.
  unfold write_varint_failure, compress_failure, write_varint.
  destruct (compress (vi_value v) (vi_ceil v)) as [[e m]|x]; cbn [failure_of].
  - eexists. reflexivity.
  - destruct x; reflexivity.
Qed.
Lemma decompress_none e m : e < 256 -> m < 256 -> (decompress_failure e m = None <-> e < 8 /\ m < 32).
Proof.
  intros He Hm. unfold decompress_failure. rewrite decompress_spec by assumption.
  destruct (N.ltb_spec e 8), (N.ltb_spec m 32); cbn [failure_of]; split; intros K; try discriminate; try lia; reflexivity.
Qed.
Lemma exponent_largest m : m < 32 -> largest (fun e => e < 256 /\ decompress_failure e m = None) 7.
Proof.
  intros H. split.
  - split; [lia|]. apply decompress_none; lia.
  - intros n L (A & B). apply decompress_none in B; lia.
Qed.
Lemma mantissa_largest e : e < 8 -> largest (fun m => m < 256 /\ decompress_failure e m = None) 31.
Proof.
  intros H. split.
  - split; [lia|]. apply decompress_none; lia.
  - intros n L (A & B). apply decompress_none in B; lia.
Qed.
Lemma largest_same ok a b : largest ok a -> largest ok b -> a = b.
Proof.
  intros (A & A') (B & B'). destruct (N.lt_trichotomy a b) as [L|[L|L]]; [|exact L|].
  - destruct (A' b L B).
  - destruct (B' a L A).
Qed.
Lemma wrong_limit : ~ (forall e m f, e < 256 -> m < 32 -> decompress_failure e m = Some f ->
  exists what max, names what e max (f_text f) /\ largest (fun x => x < 256 /\ decompress_failure x m = None) max).
Proof.
  intros H. destruct (H 8 0 (varint_failure (ExponentTooLarge 8))) as (w & max & A & B); [lia|lia|reflexivity|].
  rewrite (largest_same _ _ _ B (exponent_largest 0 ltac:(lia))) in A. unfold names in A. cbn [varint_failure f_text] in A.
  change (show_N 8) with "8"%string in A. change (show_N 7) with "7"%string in A. change (show_N (N.lxor 2 3)) with "1"%string in A.
  cbn [append] in A.
  repeat (destruct w as [|? w]; cbn [append] in A; [discriminate A|injection A as _ A]).
  destruct w; discriminate A.
Qed.
Lemma decompress_messages e m : e < 256 -> m < 256 ->
  (8 <= e -> exists t, decompress_failure e m = Some (mkFailure EInvalidParam t) /\ names "VarInt: Exponent too large " e 1 t) /\
  (e < 8 -> 32 <= m -> exists t, decompress_failure e m = Some (mkFailure EInvalidParam t) /\ names "VarInt: Exponent too large " m 1 t) /\
  (e < 8 -> m < 32 -> decompress_failure e m = None).
Proof.
  intros He Hm. unfold decompress_failure. rewrite decompress_spec by assumption.
  destruct (N.ltb_spec e 8), (N.ltb_spec m 32); (repeat split); intros; try lia; try reflexivity;
  eexists; (split; [reflexivity|reflexivity]).
Qed.
Lemma mantissa_message m : names "VarInt: Mantissa too large " m 7 (f_text (varint_failure (MantissaTooLarge m))) /\
  (forall x, decompress x m <> inr (MantissaTooLarge m)) /\ (forall v c, compress v c <> inr (MantissaTooLarge m)) /\
  (forall v c, varint_new v c <> inr (MantissaTooLarge m)).
Proof.
  split; [reflexivity|]. split; [|split].
  - intros x. unfold decompress. repeat destruct (_ <? _); discriminate.
  - intros v c. unfold compress. destruct (negb _); [discriminate|].
    generalize [0; 1; 2; 3; 4; 5; 6; 7]. intros l. induction l as [|i l IH]; cbn [compress_loop]; [discriminate|].
    destruct (v <=? 4 ^ i * 31); [discriminate|exact IH].
  - intros v c. unfold varint_new. destruct (negb _); discriminate.
Qed.

(** ** UTF-8: the first character *)
Inductive outcome := Full (n : nat) | Short | Bad (k : nat).
Definition second3 (a b : N) : bool :=
  ((a =? 0xE0) && in_range 0xA0 0xBF b) || (in_range 0xE1 0xEC a && cont b)
  || ((a =? 0xED) && in_range 0x80 0x9F b) || (in_range 0xEE 0xEF a && cont b).
Definition second4 (a b : N) : bool :=
  ((a =? 0xF0) && in_range 0x90 0xBF b) || (in_range 0xF1 0xF3 a && cont b)
  || ((a =? 0xF4) && in_range 0x80 0x8F b).
Definition step (l : list N) : outcome :=
  match l with
  | [] => Short
  | a :: l1 =>
      if a <? 0x80 then Full 1
      else if in_range 0xC2 0xDF a then
        match l1 with [] => Short | b :: _ => if cont b then Full 2 else Bad 1 end
      else if in_range 0xE0 0xEF a then
        match l1 with
        | [] => Short
        | b :: l2 => if second3 a b then match l2 with [] => Short | c :: _ => if cont c then Full 3 else Bad 2 end
                     else Bad 1
        end
      else if in_range 0xF0 0xF4 a then
        match l1 with
        | [] => Short
        | b :: l2 =>
            if second4 a b then
              match l2 with
              | [] => Short
              | c :: l3 => if cont c then match l3 with [] => Short | d :: _ => if cont d then Full 4 else Bad 3 end
                           else Bad 2
              end
            else Bad 1
        end
      else Bad 1
  end.
Lemma range_or lo hi b : in_range lo hi b = true <-> lo <= b <= hi.
Proof. unfold in_range. rewrite andb_true_iff, !N.leb_le. lia. Qed.
Ltac ranges := repeat match goal with
  | H : in_range _ _ _ = true |- _ => apply range_or in H
  | H : in_range ?l ?h ?b = false |- _ =>
      let K := fresh in assert (K : ~ (l <= b <= h)) by (intros K; apply range_or in K; congruence); clear H
  | H : (_ =? _) = true |- _ => apply N.eqb_eq in H
  | H : (_ <? _) = true |- _ => apply N.ltb_lt in H
  | H : (_ <? _) = false |- _ => apply N.ltb_ge in H
  end.
Lemma not_three a b : in_range 0xE0 0xEF a = false -> second3 a b = false.
Proof.
  intros H. destruct (second3 a b) eqn:K; [|reflexivity]. exfalso. unfold second3 in K.
  rewrite !orb_true_iff, !andb_true_iff in K. destruct K as [[[[K _]|[K _]]|[K _]]|[K _]]; ranges; lia.
Qed.
Lemma not_four a b : in_range 0xF0 0xF4 a = false -> second4 a b = false.
Proof.
  intros H. destruct (second4 a b) eqn:K; [|reflexivity]. exfalso. unfold second4 in K.
  rewrite !orb_true_iff, !andb_true_iff in K. destruct K as [[[K _]|[K _]]|[K _]]; ranges; lia.
Qed.
Lemma three_not_four a b : in_range 0xE0 0xEF a = true -> second4 a b = false.
Proof. intros H. apply not_four. destruct (in_range 0xF0 0xF4 a) eqn:K; [|reflexivity]. ranges. lia. Qed.
Lemma valid_step l : l <> [] -> utf8_valid l = match step l with Full n => utf8_valid (skipn n l) | _ => false end.
Proof.
  destruct l as [|a [|b [|c [|d l]]]]; [congruence|intros _..]; cbn [utf8_valid step]; fold (second3 a).
  - destruct (a <? 0x80); [reflexivity|]. destruct (in_range 0xC2 0xDF a), (in_range 0xE0 0xEF a), (in_range 0xF0 0xF4 a); reflexivity.
  - destruct (a <? 0x80); [reflexivity|]. destruct (in_range 0xC2 0xDF a); [destruct (cont b); reflexivity|].
    destruct (in_range 0xE0 0xEF a); [destruct (second3 a b); reflexivity|].
    destruct (in_range 0xF0 0xF4 a); [destruct (second4 a b); reflexivity|reflexivity].
  - destruct (a <? 0x80); [reflexivity|]. destruct (in_range 0xC2 0xDF a); [destruct (cont b); reflexivity|].
    fold (second3 a b). destruct (in_range 0xE0 0xEF a) eqn:T.
    + destruct (second3 a b); [destruct (cont c); reflexivity|reflexivity].
    + rewrite not_three by exact T. destruct (in_range 0xF0 0xF4 a); [destruct (second4 a b), (cont c); reflexivity|reflexivity].
  - destruct (a <? 0x80); [reflexivity|]. destruct (in_range 0xC2 0xDF a); [destruct (cont b); reflexivity|].
    fold (second3 a b) (second4 a b). destruct (in_range 0xE0 0xEF a) eqn:T.
    + destruct (second3 a b); [destruct (cont c); reflexivity|]. rewrite three_not_four by exact T. reflexivity.
    + rewrite not_three by exact T. destruct (in_range 0xF0 0xF4 a) eqn:F.
      * destruct (second4 a b), (cont c), (cont d); reflexivity.
      * rewrite not_four by exact F. reflexivity.
Qed.
Lemma error_step i l : l <> [] -> utf8_error i l =
  match step l with
  | Full n => utf8_error (i + N.of_nat n) (skipn n l)
  | Short => Some (i, None)
  | Bad k => Some (i, Some (N.of_nat k))
  end.
Proof.
  destruct l as [|a [|b [|c [|d l]]]]; [congruence|intros _..]; cbn [utf8_error step];
  try fold (second3 a b); try fold (second4 a b);
  repeat match goal with |- (if ?t then _ else _) = _ => destruct t; try reflexivity end.
Qed.

Ltac first_char K :=
  repeat match type of K with (if ?t then _ else _) = _ => destruct t eqn:?; try discriminate K end.
Ltac known := cbn [step firstn List.app]; repeat match goal with H : ?t = _ :> bool |- context [?t] => rewrite H end; try reflexivity.
Ltac upto j := repeat (destruct j as [|j]; [known|try lia]); try lia.
Lemma step_full l n : step l = Full n -> (1 <= n <= List.length l)%nat /\
  (forall t, step (firstn n l ++ t) = Full n) /\ (forall j, (j < n)%nat -> step (firstn j l) = Short).
Proof.
  destruct l as [|a [|b [|c [|d l]]]]; cbn [step]; intros K; [discriminate|..];
  first_char K; injection K as <-; cbn [List.length]; (split; [lia|split; [intros t; known|intros j L; upto j]]).
Qed.
Lemma step_bad l k : step l = Bad k -> exists m, (m < List.length l)%nat /\ k = Nat.max 1 m /\
  (forall t, step (firstn (S m) l ++ t) = Bad k) /\ (forall j, (j <= m)%nat -> step (firstn j l) = Short).
Proof.
  destruct l as [|a [|b [|c [|d l]]]]; cbn [step]; intros K; [discriminate|..];
  first_char K; injection K as <-;
  first [ exists 0%nat; (split; [cbn [List.length]; lia|split; [reflexivity|split; [solve [intros t; known]|solve [intros j L; upto j]]]])
        | exists 1%nat; (split; [cbn [List.length]; lia|split; [reflexivity|split; [solve [intros t; known]|solve [intros j L; upto j]]]])
        | exists 2%nat; (split; [cbn [List.length]; lia|split; [reflexivity|split; [solve [intros t; known]|solve [intros j L; upto j]]]])
        | exists 3%nat; (split; [cbn [List.length]; lia|split; [reflexivity|split; [solve [intros t; known]|solve [intros j L; upto j]]]]) ].
Qed.
Ltac all_bytes := repeat (apply Forall_cons; [unfold byte; first [assumption|lia]|]); apply Forall_nil.
Lemma second3_some a : in_range 0xE0 0xEF a = true -> exists b, b < 256 /\ second3 a b = true.
Proof.
  intros H. ranges. assert (a = 0xE0 \/ a = 0xE1 \/ a = 0xE2 \/ a = 0xE3 \/ a = 0xE4 \/ a = 0xE5 \/ a = 0xE6 \/ a = 0xE7 \/
    a = 0xE8 \/ a = 0xE9 \/ a = 0xEA \/ a = 0xEB \/ a = 0xEC \/ a = 0xED \/ a = 0xEE \/ a = 0xEF) as C by lia.
  destruct C as [-> | C]; [exists 0xA0; split; reflexivity|].
  repeat destruct C as [-> | C]; try subst a; exists 0x80; split; reflexivity.
Qed.
Lemma second4_some a : in_range 0xF0 0xF4 a = true -> exists b, b < 256 /\ second4 a b = true.
Proof.
  intros H. ranges. assert (a = 0xF0 \/ a = 0xF1 \/ a = 0xF2 \/ a = 0xF3 \/ a = 0xF4) as C by lia.
  destruct C as [-> | C]; [exists 0x90; split; reflexivity|].
  repeat destruct C as [-> | C]; try subst a; exists 0x80; split; reflexivity.
Qed.
Lemma step_short l : l <> [] -> step l = Short -> exists t, bytes t /\ step (l ++ t) = Full (List.length (l ++ t)) /\
  (forall j, (j <= List.length l)%nat -> step (firstn j l) = Short).
Proof.
  destruct l as [|a [|b [|c [|d l]]]]; cbn [step]; intros NE K; [congruence|..]; first_char K.
  - exists [0x80]. split; [all_bytes|]. split; [known|]. intros j L; cbn [List.length] in L; upto j.
  - destruct (second3_some a) as (b & Hb & S3); [assumption|]. exists [b; 0x80].
    split; [all_bytes|]. split; [known|]. intros j L; cbn [List.length] in L; upto j.
  - destruct (second4_some a) as (b & Hb & S4); [assumption|]. exists [b; 0x80; 0x80].
    split; [all_bytes|]. split; [known|]. intros j L; cbn [List.length] in L; upto j.
  - exists [0x80]. split; [all_bytes|]. split; [known|]. intros j L; cbn [List.length] in L; upto j.
  - exists [0x80; 0x80]. split; [all_bytes|]. split; [known|]. intros j L; cbn [List.length] in L; upto j.
  - exists [0x80]. split; [all_bytes|]. split; [known|]. intros j L; cbn [List.length] in L; upto j.
Qed.

(** ** Where a text stops *)
Definition begins (l : list N) : Prop := exists t, bytes t /\ utf8_valid (l ++ t) = true.
(* [stops_at] in terms of [utf8_valid]. *)
Definition stops (v : list N) (p : nat) (k : option nat) : Prop :=
  (p < List.length v)%nat /\ utf8_valid (firstn p v) = true /\
  (forall q, (p < q <= List.length v)%nat -> utf8_valid (firstn q v) = false) /\
  match k with
  | None => begins v
  | Some j => exists m, (m < List.length v)%nat /\ begins (firstn m v) /\ ~ (exists t, utf8_valid (firstn (S m) v ++ t) = true) /\
      j = Nat.max 1 (m - p)
  end.
Lemma valid_nil : utf8_valid [] = true. Proof. reflexivity. Qed.
Lemma valid_first l n : step l = Full n -> forall t, utf8_valid (firstn n l ++ t) = utf8_valid t.
Proof.
  intros H t. destruct (step_full l n H) as (A & B & _). rewrite valid_step.
  - rewrite B. rewrite skipn_app, skipn_firstn_comm, Nat.sub_diag. cbn [firstn]. rewrite firstn_length_le by lia.
    rewrite Nat.sub_diag. reflexivity.
  - intros K. apply (f_equal (@List.length N)) in K. rewrite app_length, firstn_length_le in K by lia. cbn in K. lia.
Qed.
Lemma valid_short l : l <> [] -> step l = Short -> utf8_valid l = false.
Proof. intros NE H. rewrite valid_step by exact NE. rewrite H. reflexivity. Qed.
Lemma begins_short l : step l = Short -> begins l.
Proof.
  intros H. destruct l as [|a l]; [exists []; split; [constructor|reflexivity]|].
  destruct (step_short (a :: l) ltac:(discriminate) H) as (t & Bt & F & _). exists t. split; [exact Bt|].
  pose proof (valid_first _ _ F []) as V. rewrite firstn_all in V. rewrite app_nil_r in V. rewrite V. reflexivity.
Qed.
Lemma firstn_nonempty (l : list N) q : (0 < q)%nat -> l <> [] -> firstn q l <> [].
Proof. destruct q, l; cbn; try lia; congruence. Qed.
Lemma firstn_split (l : list N) n q : (n <= q)%nat -> firstn q l = firstn n l ++ firstn (q - n) (skipn n l).
Proof.
  intros L. rewrite <- (firstn_skipn n l) at 1. rewrite firstn_app, firstn_firstn. rewrite Nat.min_r by lia.
  destruct (Nat.le_gt_cases n (List.length l)).
  - rewrite firstn_length_le by assumption. reflexivity.
  - rewrite (skipn_all2 l) by lia. rewrite !firstn_nil. reflexivity.
Qed.
Lemma stops_later l n p k : step l = Full n -> stops (skipn n l) p k -> stops l (n + p) k.
Proof.
  intros H (A & B & C & D). destruct (step_full l n H) as (R & F & S').
  rewrite skipn_length in A. split; [lia|]. split; [|split].
  - rewrite (firstn_split l n) by lia. replace (n + p - n)%nat with p by lia. rewrite valid_first by exact H. exact B.
  - intros q L. rewrite (firstn_split l n) by lia. rewrite valid_first by exact H. apply C. rewrite skipn_length. lia.
  - destruct k as [j|].
    + destruct D as (m & M1 & (t & Bt & M2) & M3 & M4). rewrite skipn_length in M1. exists (n + m)%nat. split; [lia|].
      split; [|split; [|lia]].
      * exists t. split; [exact Bt|]. rewrite (firstn_split l n) by lia. replace (n + m - n)%nat with m by lia.
        rewrite <- app_assoc, valid_first by exact H. exact M2.
      * intros (u & U). apply M3. exists u. rewrite (firstn_split l n) in U by lia.
        replace (S (n + m) - n)%nat with (S m) in U by lia. rewrite <- app_assoc, valid_first in U by exact H. exact U.
    + destruct D as (t & Bt & D). exists t. split; [exact Bt|]. rewrite <- (firstn_skipn n l), <- app_assoc, valid_first by exact H. exact D.
Qed.
Lemma error_stops : forall len l i, (List.length l <= len)%nat ->
  match utf8_error i l with
  | None => utf8_valid l = true
  | Some (p, k) => utf8_valid l = false /\ exists p' k', p = i + N.of_nat p' /\ k = option_map N.of_nat k' /\ stops l p' k'
  end.
Proof.
  induction len as [|len IH]; intros l i L.
  - destruct l; [reflexivity|cbn in L; lia].
  - destruct l as [|a l0]; [reflexivity|]. remember (a :: l0) as l. assert (NE : l <> []) by (subst; discriminate).
    rewrite error_step by exact NE. rewrite (valid_step l) by exact NE. destruct (step l) as [n| |k] eqn:H.
    + destruct (step_full l n H) as (R & _ & _). specialize (IH (skipn n l) (i + N.of_nat n)).
      rewrite skipn_length in IH. specialize (IH ltac:(lia)).
      destruct (utf8_error (i + N.of_nat n) (skipn n l)) as [[p k]|]; [|exact IH].
      destruct IH as (V & p' & k' & -> & -> & St). split; [exact V|]. exists (n + p')%nat, k'.
      split; [lia|]. split; [reflexivity|]. apply stops_later; assumption.
    + split; [reflexivity|]. exists 0%nat, None. split; [lia|]. split; [reflexivity|].
      destruct (step_short l NE H) as (t & Bt & F & P). split; [subst; cbn; lia|]. split; [reflexivity|]. split.
      * intros q Q. apply valid_short; [apply firstn_nonempty; [lia|exact NE]|]. apply P. lia.
      * apply begins_short; exact H.
    + split; [reflexivity|]. exists 0%nat, (Some k). split; [lia|]. split; [reflexivity|].
      destruct (step_bad l k H) as (m & M & -> & F & P). split; [subst; cbn; lia|]. split; [reflexivity|]. split.
      * intros q Q. assert (NQ : firstn q l <> []) by (apply firstn_nonempty; [lia|exact NE]).
        destruct (Nat.le_gt_cases q m) as [G|G]; [apply valid_short; [exact NQ|apply P; exact G]|].
        rewrite valid_step by exact NQ. rewrite (firstn_split l (S m)) by lia. rewrite F. reflexivity.
      * exists m. split; [exact M|]. split; [apply begins_short; apply P; lia|]. split; [|lia].
        intros (t & T). rewrite valid_step in T; [rewrite F in T; discriminate|].
        intros K. apply app_eq_nil in K. destruct K as (K & _). revert K. apply firstn_nonempty; [lia|exact NE].
Qed.
Lemma bytes_part (l : list N) n : bytes l -> bytes (firstn n l).
Proof. intros H. unfold bytes in *. rewrite Forall_forall in *. intros x I'. apply H. rewrite <- (firstn_skipn n l). apply in_or_app. left. exact I'. Qed.
Lemma begins_is l : bytes l -> begins l -> begins_text l.
Proof. intros B (t & Bt & V). exists t. apply utf8_valid_is; [apply Forall_app; split; assumption|exact V]. Qed.
Lemma stops_is v p k : bytes v -> stops v p k -> stops_at v p k.
Proof.
  intros B (A & V & C & D). split; [exact A|]. split; [apply utf8_valid_is; [apply bytes_part; exact B|exact V]|]. split.
  - intros q Q K. apply is_utf8_valid in K. rewrite C in K by exact Q. discriminate.
  - destruct k as [j|]; [|apply begins_is; assumption].
    destruct D as (m & M & M1 & M2 & M3). exists m. split; [exact M|]. split; [apply begins_is; [apply bytes_part; exact B|exact M1]|].
    split; [|exact M3]. intros (t & T). apply M2. exists t. apply is_utf8_valid. exact T.
Qed.

(** ** The text *)
Lemma commas_bytes plain l : concat ", " (map (show_dv plain) (map d_n l)) = commas l.
Proof.
  induction l as [|x [|y l] IH]; [reflexivity| |].
  - cbn [map concat commas]. symmetry. apply show_N_dv.
  - change (commas (x :: y :: l)) with (show_N x ++ ", " ++ commas (y :: l))%string. rewrite <- IH.
    cbn [map concat]. rewrite <- show_N_dv. reflexivity.
Qed.
Lemma optional_text plain k : show_dv plain (d_opt d_n (option_map N.of_nat k)) = optional k.
Proof. destruct k as [j|]; [|reflexivity]. cbn [option_map d_opt show_dv map concat optional]. rewrite <- show_N_dv. reflexivity. Qed.
Lemma string_text v p k : string_failure v (N.of_nat p, option_map N.of_nat k) =
  mkFailure EParse ("Could not parse bytes into string FromUtf8Error { bytes: [" ++ commas v
    ++ "], error: Utf8Error { valid_up_to: " ++ show_N (N.of_nat p) ++ ", error_len: " ++ optional k ++ " } }")%string.
Proof.
  unfold string_failure, d_from_utf8_error, d_bytes. cbn [fst snd show_dv map concat]. rewrite commas_bytes, optional_text.
  fold (d_n (N.of_nat p)). change (show_Z (Z.of_N (N.of_nat p))) with (show_dv (fun _ => true) (d_n (N.of_nat p))).
  rewrite <- show_N_dv. f_equal. rewrite !sapp_assoc. cbn [append]. reflexivity.
Qed.
Lemma text_message v t r : bytes v -> RWf r -> view r = bits_of_bytes v ++ t ->
  (is_utf8 v -> (exists r', read_string (List.length v) r = Ok (v, r')) /\ read_string_failure (List.length v) r = None) /\
  (~ is_utf8 v -> read_string (List.length v) r = Err EParse /\
    exists p k, stops_at v p k /\ read_string_failure (List.length v) r = Some (mkFailure EParse
      ("Could not parse bytes into string FromUtf8Error { bytes: [" ++ commas v
       ++ "], error: Utf8Error { valid_up_to: " ++ show_N (N.of_nat p) ++ ", error_len: " ++ optional k ++ " } }")%string)).
Proof.
  intros B Hr V.
  assert (R : read_list (List.length v) read_u8 r = Ok (v, adv r (List.length (bits_of_bytes v)))).
  { apply Reads_bytes_at; [exact B|exact Hr|]. exists t. exact V. }
  unfold read_string, read_string_failure, bind. rewrite R.
  pose proof (error_stops _ v 0 (Nat.le_refl _)) as E. split.
  - intros U. apply is_utf8_valid in U. rewrite U in *. destruct (utf8_error 0 v) as [[p k]|]; [destruct E; discriminate|].
    split; [eexists; reflexivity|reflexivity].
  - intros U. destruct (utf8_valid v) eqn:W; [destruct U; apply utf8_valid_is; assumption|]. split; [reflexivity|].
    destruct (utf8_error 0 v) as [[p k]|]; [|discriminate]. destruct E as (_ & p' & k' & -> & -> & S').
    exists p', k'. split; [apply stops_is; assumption|]. cbn [option_map]. rewrite N.add_0_l, string_text. reflexivity.
Qed.
Lemma begins_prefix l n : begins_text l -> begins_text (firstn n l).
Proof. intros (t & T). exists (skipn n l ++ t). rewrite app_assoc, firstn_skipn. exact T. Qed.
Lemma begins_less l m n : (m <= n)%nat -> begins_text (firstn n l) -> begins_text (firstn m l).
Proof. intros L H. apply (begins_prefix _ m) in H. rewrite firstn_firstn, Nat.min_l in H by exact L. exact H. Qed.
Lemma stops_unique v p k q j : stops_at v p k -> stops_at v q j -> p = q /\ k = j.
Proof.
  intros (A & B & C & D) (A' & B' & C' & D').
  assert (p = q) as ->.
  { destruct (Nat.lt_trichotomy p q) as [L|[L|L]]; [|exact L|].
    - destruct (C q ltac:(lia) B').
    - destruct (C' p ltac:(lia) B). }
  split; [reflexivity|]. destruct k as [k|], j as [j|]; [| | |reflexivity].
  - destruct D as (m & M & M1 & M2 & ->), D' as (n & L & L1 & L2 & ->). assert (m = n) as ->; [|reflexivity].
    destruct (Nat.lt_trichotomy m n) as [K|[K|K]]; [|exact K|]; exfalso.
    + apply M2. apply (begins_less _ (S m) n); [lia|exact L1].
    + apply L2. apply (begins_less _ (S n) m); [lia|exact M1].
  - destruct D as (m & _ & _ & M2 & _). destruct M2. apply begins_prefix. exact D'.
  - destruct D' as (m & _ & _ & M2 & _). destruct M2. apply begins_prefix. exact D.
Qed.

Lemma value_both v ceil :
  (507904 < v -> exists t, names "VarInt: Value too large: " v 507904 t /\
    new_failure v ceil = Some (mkFailure EInvalidParam t) /\
    compress_failure v ceil = Some (mkFailure EInvalidParam t) /\
    write_varint_failure (mkVarInt v ceil) = Some (mkFailure EInvalidParam t)) /\
  largest (fun v => new_failure v ceil = None) 507904 /\ largest (fun v => compress_failure v ceil = None) 507904.
Proof. exact (conj (value_message v ceil) (value_largest ceil)). Qed.
Lemma write_failure_both v : (forall f, write_varint_failure v = Some f -> write_varint v = Err (f_kind f)) /\
  (write_varint_failure v = None -> exists bs, write_varint v = Ok bs).
Proof.
  pose proof (write_failure_kind v) as H. destruct (write_varint_failure v) as [f|]; split; intros; try discriminate.
  - congruence.
  - exact H.
Qed.
Lemma decompress_all e m : e < 256 -> m < 256 ->
  ((8 <= e -> exists t, decompress_failure e m = Some (mkFailure EInvalidParam t) /\ names "VarInt: Exponent too large " e 1 t) /\
   (e < 8 -> 32 <= m -> exists t, decompress_failure e m = Some (mkFailure EInvalidParam t) /\ names "VarInt: Exponent too large " m 1 t) /\
   (e < 8 -> m < 32 -> decompress_failure e m = None)) /\
  (m < 32 -> largest (fun x => x < 256 /\ decompress_failure x m = None) 7) /\
  (e < 8 -> largest (fun x => x < 256 /\ decompress_failure e x = None) 31).
Proof.
  intros He Hm. split; [apply decompress_messages; assumption|]. split; [apply exponent_largest|apply mantissa_largest].
Qed.
