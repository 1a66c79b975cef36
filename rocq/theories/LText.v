(** Text: names, numbers, escaped strings, and trees of them are read back unambiguously when
    something follows that cannot continue them. *)
From Coq Require Import List NArith ZArith Bool Lia String Ascii DecimalString HexadecimalString
  DecimalZ DecimalN DecimalFacts HexadecimalN HexadecimalFacts.
From Verif Require Import Base Deku Utils WellFormed LUtf8 Debug.
Import ListNotations.
Open Scope string_scope.

Lemma sapp_assoc (a b c : string) : (a ++ b) ++ c = a ++ (b ++ c).
Proof. induction a as [|x a IH]; [reflexivity|]. cbn. rewrite IH. reflexivity. Qed.
Lemma sapp_nil (a : string) : a ++ "" = a.
Proof. induction a as [|x a IH]; [reflexivity|]. cbn. rewrite IH. reflexivity. Qed.
Lemma sapp_cancel (a b c : string) : a ++ b = a ++ c -> b = c.
Proof. induction a as [|x a IH]; cbn; [auto|]. intros H. injection H as H. auto. Qed.

Fixpoint all (p : ascii -> bool) (s : string) : bool :=
  match s with "" => true | String c s' => p c && all p s' end.
Definition starts (p : ascii -> bool) (s : string) : Prop :=
  match s with "" => True | String c _ => p c = true end.

Lemma all_app p a b : all p (a ++ b) = all p a && all p b.
Proof. induction a as [|c a IH]; [reflexivity|]. cbn. rewrite IH, andb_assoc. reflexivity. Qed.
Lemma all_impl (p q : ascii -> bool) s : (forall c, p c = true -> q c = true) -> all p s = true -> all q s = true.
Proof.
  intros I. induction s as [|c s IH]; [reflexivity|]. cbn. rewrite !andb_true_iff.
  intros [A B]. auto.
Qed.

(** A maximal run of characters of one kind. *)
Lemma run_split p a b r s :
  all p a = true -> all p b = true -> starts (fun c => negb (p c)) r -> starts (fun c => negb (p c)) s ->
  a ++ r = b ++ s -> a = b /\ r = s.
Proof.
  revert b. induction a as [|x a IH]; intros [|y b] Ha Hb Hr Hs H; cbn in *.
  - auto.
  - subst r. cbn in Hr. apply andb_prop in Hb as [Hy _]. rewrite Hy in Hr. discriminate.
  - subst s. cbn in Hs. apply andb_prop in Ha as [Hy _]. rewrite Hy in Hs. discriminate.
  - injection H as -> H. apply andb_prop in Ha as [_ Ha]. apply andb_prop in Hb as [_ Hb].
    destruct (IH b Ha Hb Hr Hs H) as [-> ->]. auto.
Qed.

(** ** Numbers *)
Definition digit (c : ascii) : bool :=
  match c with
  | "0" | "1" | "2" | "3" | "4" | "5" | "6" | "7" | "8" | "9" => true
  | _ => false
  end%char.
Definition hexdigit (c : ascii) : bool :=
  (digit c || match c with "a" | "b" | "c" | "d" | "e" | "f" => true | _ => false end%char)%bool.

Lemma uint_digits d : all digit (DecimalString.NilEmpty.string_of_uint d) = true.
Proof. induction d; cbn; auto. Qed.
Lemma uint0_digits d : all digit (DecimalString.NilZero.string_of_uint d) = true.
Proof. destruct d; try apply uint_digits; reflexivity. Qed.
Lemma uint0_nonempty d : exists c s, DecimalString.NilZero.string_of_uint d = String c s /\ digit c = true.
Proof. destruct d; cbn; eauto. Qed.
Lemma hex_digits d : all hexdigit (HexadecimalString.NilEmpty.string_of_uint d) = true.
Proof. induction d; cbn; auto. Qed.
Lemma hex0_digits d : all hexdigit (HexadecimalString.NilZero.string_of_uint d) = true.
Proof. destruct d; try apply hex_digits; reflexivity. Qed.

Lemma to_uint_nonnil n : N.to_uint n <> Decimal.Nil.
Proof.
  rewrite <- (DecimalN.Unsigned.of_to n), DecimalN.Unsigned.to_of. unfold Decimal.unorm.
  destruct (Decimal.nzhead (N.to_uint n)); discriminate.
Qed.
Lemma to_hex_nonnil n : N.to_hex_uint n <> Hexadecimal.Nil.
Proof.
  rewrite <- (HexadecimalN.Unsigned.of_to n), HexadecimalN.Unsigned.to_of. unfold Hexadecimal.unorm.
  destruct (Hexadecimal.nzhead (N.to_hex_uint n)); discriminate.
Qed.
Lemma to_int_nonnil z : Z.to_int z <> Decimal.Pos Decimal.Nil /\ Z.to_int z <> Decimal.Neg Decimal.Nil.
Proof.
  rewrite <- (DecimalZ.of_to z), DecimalZ.to_of. destruct (Z.to_int z); cbn; unfold Decimal.unorm;
  destruct (Decimal.nzhead _); split; discriminate.
Qed.

Lemma show_N_inj a b : Display.show_N a = Display.show_N b -> a = b.
Proof.
  unfold Display.show_N. intros H.
  apply (f_equal DecimalString.NilZero.uint_of_string) in H.
  rewrite !DecimalString.NilZero.usu in H by apply to_uint_nonnil.
  injection H as H. apply DecimalN.Unsigned.to_uint_inj. exact H.
Qed.
Lemma show_hex_inj a b :
  HexadecimalString.NilZero.string_of_uint (N.to_hex_uint a)
  = HexadecimalString.NilZero.string_of_uint (N.to_hex_uint b) -> a = b.
Proof.
  intros H. apply (f_equal HexadecimalString.NilZero.uint_of_string) in H.
  rewrite !HexadecimalString.NilZero.usu in H by apply to_hex_nonnil.
  injection H as H. apply HexadecimalN.Unsigned.to_uint_inj. exact H.
Qed.
Lemma show_Z_inj a b : show_Z a = show_Z b -> a = b.
Proof.
  unfold show_Z. intros H. apply (f_equal DecimalString.NilZero.int_of_string) in H.
  destruct (to_int_nonnil a) as [A1 A2], (to_int_nonnil b) as [B1 B2].
  rewrite !DecimalString.NilZero.isi in H by assumption.
  injection H as H. apply DecimalZ.to_int_inj. exact H.
Qed.
Definition numeric (c : ascii) : bool := (digit c || Ascii.eqb c "-")%bool.
Lemma show_Z_numeric z : all numeric (show_Z z) = true.
Proof.
  unfold show_Z, DecimalString.NilZero.string_of_int. destruct (Z.to_int z).
  - apply (all_impl digit); [|apply uint0_digits]. unfold numeric. intros c ->. reflexivity.
  - cbn. apply (all_impl digit); [|apply uint0_digits]. unfold numeric. intros c' ->. reflexivity.
Qed.
Lemma show_Z_start z : exists c s, show_Z z = String c s /\ numeric c = true.
Proof.
  unfold show_Z, DecimalString.NilZero.string_of_int. destruct (Z.to_int z) as [d|d].
  - destruct (uint0_nonempty d) as (c & s & -> & H). exists c, s. unfold numeric. rewrite H. auto.
  - eauto.
Qed.

(** ** Characters of a string *)
Lemma ascii_N_inj a b : (a < 256)%N -> (b < 256)%N -> ascii_of_N a = ascii_of_N b -> a = b.
Proof.
  intros Ha Hb H. apply (f_equal N_of_ascii) in H. rewrite !N_ascii_embedding in H by assumption.
  exact H.
Qed.

(** One character, escaped. *)
Definition esc (plain : N -> bool) (c : N) : string :=
  if (c <? 0x80)%N then escape_ascii c else escape_wide plain c (utf8_char c).

Open Scope N_scope.
Lemma escape_str_char plain c l : scalar c ->
  (escape_str plain (utf8_char c ++ l) = esc plain c ++ escape_str plain l)%string.
Proof.
  intros Hs. unfold esc, scalar in *. unfold utf8_char.
  destruct (N.ltb_spec c 0x80) as [A|A].
  { cbn [app escape_str]. rewrite (proj2 (N.ltb_lt _ _) A). reflexivity. }
  destruct (N.ltb_spec c 0x800) as [B|B].
  { destruct (split64 c) as (q & r & -> & Hr). destruct (dm64 q r Hr) as [-> ->].
    cbn [app escape_str].
    rewrite (proj2 (N.ltb_ge (0xC0 + q) 0x80)) by lia.
    rewrite (proj2 (N.ltb_lt (0xC0 + q) 0xE0)) by lia.
    do 2 f_equal. lia. }
  destruct (N.ltb_spec c 0x10000) as [C|C].
  { destruct (split64 c) as (q & s & -> & Hr). destruct (split64 q) as (p & r & -> & Hq).
    destruct (digits3 p r s Hq Hr) as (-> & -> & ->).
    cbn [app escape_str].
    rewrite (proj2 (N.ltb_ge (0xE0 + p) 0x80)) by lia.
    rewrite (proj2 (N.ltb_ge (0xE0 + p) 0xE0)) by lia.
    rewrite (proj2 (N.ltb_lt (0xE0 + p) 0xF0)) by lia.
    do 2 f_equal. lia. }
  destruct (split64 c) as (q & t & -> & Ht). destruct (split64 q) as (p & s & -> & Hq).
  destruct (split64 p) as (o & r & -> & Hp).
  destruct (digits4 o r s t Hp Hq Ht) as (-> & -> & -> & ->).
  cbn [app escape_str].
  rewrite (proj2 (N.ltb_ge (0xF0 + o) 0x80)) by lia.
  rewrite (proj2 (N.ltb_ge (0xF0 + o) 0xE0)) by lia.
  rewrite (proj2 (N.ltb_ge (0xF0 + o) 0xF0)) by lia.
  do 2 f_equal. lia.
Qed.

(** The four ways a character is written. *)
Definition short_escapes : list (N * ascii) :=
  [(0, "0"%char); (9, "t"%char); (10, "n"%char); (13, "r"%char); (34, """"%char); (92, "\"%char)].
Inductive written (c : N) : string -> Prop :=
| w_plain : 32 <= c -> c < 127 -> c <> 34 -> c <> 92 -> written c (byte_text c)
| w_short x : In (c, x) short_escapes -> written c (String "\" (String x ""))
| w_hex : written c (escape_unicode c)
| w_wide : 0x80 <= c -> scalar c -> written c (bytes_text (utf8_char c)).
Lemma esc_written plain c : scalar c -> written c (esc plain c).
Proof.
  intros Hs. unfold esc. destruct (N.ltb_spec c 0x80) as [A|A].
  2:{ unfold escape_wide. destruct (plain c); constructor; assumption. }
  unfold escape_ascii.
  destruct (N.eqb_spec c 0) as [->|]; [apply w_short; cbn; auto|].
  destruct (N.eqb_spec c 9) as [->|]; [apply w_short; cbn; auto|].
  destruct (N.eqb_spec c 10) as [->|]; [apply w_short; cbn; auto|].
  destruct (N.eqb_spec c 13) as [->|]; [apply w_short; cbn; auto|].
  destruct (N.eqb_spec c 34) as [->|]; [apply w_short; cbn; auto 8|].
  destruct (N.eqb_spec c 92) as [->|]; [apply w_short; cbn; auto 8|].
  destruct (N.ltb_spec c 32) as [B|B]; cbn [orb]; [constructor|].
  destruct (N.eqb_spec c 127) as [->|]; constructor; auto; lia.
Qed.

Lemma short_inj c d x : In (c, x) short_escapes -> In (d, x) short_escapes -> c = d.
Proof. cbn. intros H K. decompose [or] H; decompose [or] K; try contradiction; congruence. Qed.
Lemma short_not_u c : ~ In (c, "u"%char) short_escapes.
Proof. cbn. intros H. decompose [or] H; try contradiction; congruence. Qed.

Lemma split4 c : exists o r s t, c = ((o * 64 + r) * 64 + s) * 64 + t /\ r < 64 /\ s < 64 /\ t < 64.
Proof.
  destruct (split64 c) as (q & t & -> & Ht). destruct (split64 q) as (p & s & -> & Hq).
  destruct (split64 p) as (o & r & -> & Hp). exists o, r, s, t. auto.
Qed.
(** The encoding of a character above 0x7F, byte by byte. *)
Inductive wide (c : N) : list N -> Prop :=
| wd2 q r : c = q * 64 + r -> r < 64 -> q < 32 -> 2 <= q -> wide c [0xC0 + q; 0x80 + r]
| wd3 p q r : c = (p * 64 + q) * 64 + r -> q < 64 -> r < 64 -> p < 16 ->
    wide c [0xE0 + p; 0x80 + q; 0x80 + r]
| wd4 o p q r : c = ((o * 64 + p) * 64 + q) * 64 + r -> p < 64 -> q < 64 -> r < 64 -> o < 8 ->
    wide c [0xF0 + o; 0x80 + p; 0x80 + q; 0x80 + r].
Lemma utf8_wide c : 0x80 <= c -> scalar c -> wide c (utf8_char c).
Proof.
  intros A Hs. unfold scalar in Hs. unfold utf8_char. rewrite (proj2 (N.ltb_ge _ _) A).
  destruct (N.ltb_spec c 0x800) as [B|B].
  { destruct (split64 c) as (q & r & -> & Hr). destruct (dm64 q r Hr) as [-> ->].
    constructor; auto; lia. }
  destruct (N.ltb_spec c 0x10000) as [C|C].
  { destruct (split64 c) as (q & s & -> & Hr). destruct (split64 q) as (p & r & -> & Hq).
    destruct (digits3 p r s Hq Hr) as (-> & -> & ->). constructor; auto; lia. }
  destruct (split4 c) as (o & r & s & t & -> & Hp & Hq & Ht).
  destruct (digits4 o r s t Hp Hq Ht) as (-> & -> & -> & ->). constructor; auto; lia.
Qed.
Lemma byte_eq a b (r s : string) : a < 256 -> b < 256 ->
  String (ascii_of_N a) r = String (ascii_of_N b) s -> a = b /\ r = s.
Proof. intros Ha Hb H. injection H as H ->. split; [apply ascii_N_inj; assumption|reflexivity]. Qed.

Ltac next_byte H :=
  let K := fresh "K" in apply byte_eq in H; [destruct H as [K H]|lia|lia].
Lemma wide_inj c d l k r s : wide c l -> wide d k ->
  (bytes_text l ++ r = bytes_text k ++ s)%string -> c = d /\ r = s.
Proof.
  intros W V H. destruct W, V; cbn [bytes_text byte_text append] in H; repeat next_byte H;
  try (exfalso; lia); subst; (split; [lia|reflexivity]).
Qed.
Lemma wide_first c l : wide c l -> exists b k, l = b :: k /\ 0x80 <= b < 256.
Proof. intros []; eexists _, _; (split; [reflexivity|lia]). Qed.

Lemma written_inj c d a b (r s : string) : written c a -> written d b -> (a ++ r = b ++ s)%string ->
  c = d /\ r = s.
Proof.
  intros W V H. destruct W as [A1 A2 A3 A4|x Ax| |A Ac], V as [B1 B2 B3 B4|y By| |B Bd];
    unfold byte_text, escape_unicode in H; rewrite ?sapp_assoc in H; cbn [append] in H.
  - next_byte H. auto.
  - change "\"%char with (ascii_of_N 92) in H. next_byte H. lia.
  - change "\"%char with (ascii_of_N 92) in H. next_byte H. lia.
  - destruct (wide_first _ _ (utf8_wide d B Bd)) as (b0 & k & Ek & Hb). rewrite Ek in H.
    cbn [bytes_text byte_text append] in H. next_byte H. lia.
  - change "\"%char with (ascii_of_N 92) in H. next_byte H. lia.
  - injection H as -> ->. split; [eapply short_inj; eassumption|reflexivity].
  - injection H as -> H. destruct (short_not_u c Ax).
  - destruct (wide_first _ _ (utf8_wide d B Bd)) as (b0 & k & Ek & Hb). rewrite Ek in H.
    change "\"%char with (ascii_of_N 92) in H. cbn [bytes_text byte_text append] in H. next_byte H. lia.
  - change "\"%char with (ascii_of_N 92) in H. next_byte H. lia.
  - injection H as <- H. destruct (short_not_u d By).
  - injection H as H. apply (run_split hexdigit) in H as [H1 H2]; try apply hex0_digits; try reflexivity.
    injection H2 as ->. split; [apply show_hex_inj; exact H1|reflexivity].
  - destruct (wide_first _ _ (utf8_wide d B Bd)) as (b0 & k & Ek & Hb). rewrite Ek in H.
    change "\"%char with (ascii_of_N 92) in H. cbn [bytes_text byte_text append] in H. next_byte H. lia.
  - destruct (wide_first _ _ (utf8_wide c A Ac)) as (b0 & k & Ek & Hb). rewrite Ek in H.
    cbn [bytes_text byte_text append] in H. next_byte H. lia.
  - destruct (wide_first _ _ (utf8_wide c A Ac)) as (b0 & k & Ek & Hb). rewrite Ek in H.
    change "\"%char with (ascii_of_N 92) in H. cbn [bytes_text byte_text append] in H. next_byte H. lia.
  - destruct (wide_first _ _ (utf8_wide c A Ac)) as (b0 & k & Ek & Hb). rewrite Ek in H.
    change "\"%char with (ascii_of_N 92) in H. cbn [bytes_text byte_text append] in H. next_byte H. lia.
  - eapply wide_inj; [apply utf8_wide|apply utf8_wide|exact H]; assumption.
Qed.

(** What is written for a character does not start with a double quote. *)
Lemma written_not_quote c a (r s : string) : written c a -> (a ++ r <> quote ++ s)%string.
Proof.
  intros W H. destruct W as [A1 A2 A3 A4|x Ax| |A Ac]; unfold byte_text, escape_unicode, quote in H;
    rewrite ?sapp_assoc in H; cbn [append] in H.
  - next_byte H. lia.
  - change "\"%char with (ascii_of_N 92) in H. next_byte H. lia.
  - change "\"%char with (ascii_of_N 92) in H. next_byte H. lia.
  - destruct (wide_first _ _ (utf8_wide c A Ac)) as (b0 & k & Ek & Hb). rewrite Ek in H.
    cbn [bytes_text byte_text append] in H. next_byte H. lia.
Qed.

Lemma escape_inj plain a b (r s : string) : is_utf8 a -> is_utf8 b ->
  (escape_str plain a ++ quote ++ r = escape_str plain b ++ quote ++ s)%string -> a = b /\ r = s.
Proof.
  intros (cs & Hc & ->) (ds & Hd & ->). revert ds Hd.
  induction Hc as [|c cs Hc _ IH]; intros ds Hd; destruct Hd as [|d ds Hd Hds]; cbn [flat_map];
    rewrite ?escape_str_char, ?sapp_assoc by assumption; intros H.
  - cbn [escape_str append] in H. apply sapp_cancel in H. auto.
  - symmetry in H. cbn [escape_str append] in H.
    exfalso. eapply written_not_quote; [apply (esc_written plain d Hd)|exact H].
  - cbn [escape_str append] in H.
    exfalso. eapply written_not_quote; [apply (esc_written plain c Hc)|exact H].
  - apply (written_inj c d) in H; [|apply esc_written; assumption|apply esc_written; assumption].
    destruct H as [-> H]. destruct (IH ds Hds H) as [-> ->]. auto.
Qed.

(** ** Names *)
Open Scope string_scope.
Definition between (a b : N) (c : ascii) : bool := ((a <=? N_of_ascii c) && (N_of_ascii c <=? b))%N.
Definition letter (c : ascii) : bool := (between 65 90 c || between 97 122 c)%bool.
Definition namechar (c : ascii) : bool :=
  (letter c || between 48 57 c || Ascii.eqb c "_")%bool.
Definition name (s : string) : bool :=
  match s with "" => false | String c _ => letter c && all namechar s end.

Lemma name_start s : name s = true -> exists c t, s = String c t /\ letter c = true.
Proof. destruct s as [|c t]; [discriminate|]. cbn. intros H. apply andb_prop in H as [H _]. eauto. Qed.
Lemma name_all s : name s = true -> all namechar s = true.
Proof. destruct s as [|c t]; [discriminate|]. unfold name. intros H. apply andb_prop in H as [_ H]. exact H. Qed.

(** What may follow a tree: nothing, a comma, a closing bracket, a blank and a closing brace, or
    the end of the line. *)
Definition stop (r : string) : Prop :=
  match r with
  | "" => True
  | String c t =>
      In c [","; ")"; "]"; "010"]%char
      \/ (c = " "%char /\ match t with String "}" _ => True | _ => False end)
  end.
Lemma stop_chars r : stop r ->
  starts (fun c => negb (namechar c)) r /\ starts (fun c => negb (numeric c)) r
  /\ (forall t, r <> "(" ++ t) /\ (forall t, r <> " { " ++ t).
Proof.
  intros H. destruct r as [|c t]; [repeat split; discriminate|].
  cbn in H. destruct H as [H|[-> H]].
  - decompose [or] H; subst; try contradiction; repeat split; discriminate.
  - repeat split; try discriminate. intros t' K. cbn [append] in K. injection K as K. subst t.
    exact H.
Qed.

(** ** Trees *)
Inductive good : dv -> Prop :=
| g_num z : good (DNum z)
| g_text s : is_utf8 s -> good (DText s)
| g_unit n : name n = true -> good (DUnit n)
| g_tuple n l : n = "" \/ name n = true -> l <> [] -> Forall good l -> good (DTuple n l)
| g_struct n l : name n = true -> l <> [] ->
    Forall (fun p : string * dv => name (fst p) = true /\ good (snd p)) l -> good (DStruct n l)
| g_list l : Forall good l -> good (DList l).

Section Induct.
  Variable P : dv -> Prop.
  Hypothesis Hnum : forall z, P (DNum z).
  Hypothesis Htext : forall s, is_utf8 s -> P (DText s).
  Hypothesis Hunit : forall n, name n = true -> P (DUnit n).
  Hypothesis Htuple : forall n l, n = "" \/ name n = true -> l <> [] -> Forall good l -> Forall P l -> P (DTuple n l).
  Hypothesis Hstruct : forall n l, name n = true -> l <> [] ->
    Forall (fun p : string * dv => name (fst p) = true /\ good (snd p)) l ->
    Forall (fun p : string * dv => P (snd p)) l -> P (DStruct n l).
  Hypothesis Hlist : forall l, Forall good l -> Forall P l -> P (DList l).
  Fixpoint good_induct (v : dv) (g : good v) {struct g} : P v :=
    match g in good v return P v with
    | g_num z => Hnum z
    | g_text s h => Htext s h
    | g_unit n h => Hunit n h
    | g_tuple n l h k f => Htuple n l h k f
        ((fix go l (f : Forall good l) : Forall P l :=
            match f with
            | Forall_nil _ => Forall_nil _
            | @Forall_cons _ _ x tl hx ht => @Forall_cons _ P x tl (good_induct x hx) (go tl ht)
            end) l f)
    | g_struct n l h k f => Hstruct n l h k f
        ((fix go l (f : Forall (fun p : string * dv => name (fst p) = true /\ good (snd p)) l)
            : Forall (fun p => P (snd p)) l :=
            match f with
            | Forall_nil _ => Forall_nil _
            | @Forall_cons _ _ x tl (conj _ hx) ht =>
                @Forall_cons _ (fun p => P (snd p)) x tl (good_induct (snd x) hx) (go tl ht)
            end) l f)
    | g_list l f => Hlist l f
        ((fix go l (f : Forall good l) : Forall P l :=
            match f with
            | Forall_nil _ => Forall_nil _
            | @Forall_cons _ _ x tl hx ht => @Forall_cons _ P x tl (good_induct x hx) (go tl ht)
            end) l f)
    end.
End Induct.

(** [v] is recognised in front of anything that stops it. *)
Definition told plain (v : dv) : Prop :=
  forall w r s, good w -> stop r -> stop s -> show_dv plain v ++ r = show_dv plain w ++ s -> v = w /\ r = s.

(** What follows the first of several items. *)
Lemma concat_cons sep (x : string) l t :
  concat sep (x :: l) ++ t = x ++ match l with [] => t | _ => sep ++ concat sep l ++ t end.
Proof. destruct l; cbn [concat]; rewrite ?sapp_assoc; reflexivity. Qed.

(** The first character tells the kind of a tree. *)
Definition kind_of (c : ascii) : nat :=
  if numeric c then 1 else if Ascii.eqb c (ascii_of_N 34) then 2 else if letter c then 3
  else if Ascii.eqb c "(" then 4 else if Ascii.eqb c "[" then 5 else 0.
Definition kind (v : dv) : nat :=
  match v with
  | DNum _ => 1
  | DText _ => 2
  | DUnit _ | DStruct _ _ => 3
  | DTuple "" _ => 4
  | DTuple _ _ => 3
  | DList _ => 5
  end.
Lemma kind_letter c : letter c = true -> kind_of c = 3%nat.
Proof. destruct c as [[] [] [] [] [] [] [] []]; vm_compute; congruence. Qed.
Lemma name_kind n t : name n = true -> exists c u, n ++ t = String c u /\ kind_of c = 3%nat.
Proof.
  intros H. destruct (name_start n H) as (c & u & -> & Hc). cbn [append].
  exists c, (u ++ t). split; [reflexivity|]. apply kind_letter. exact Hc.
Qed.
Lemma show_first plain v : good v -> exists c t, show_dv plain v = String c t /\ kind_of c = kind v.
Proof.
  intros [z|s Hs|n Hn|n l Hn _ _|n l Hn _ _|l _]; cbn [show_dv kind].
  - destruct (show_Z_start z) as (c & t & -> & H). exists c, t. split; [reflexivity|].
    unfold kind_of. rewrite H. reflexivity.
  - eexists _, _. split; reflexivity.
  - rewrite <- (sapp_nil n). apply name_kind. exact Hn.
  - destruct Hn as [->|Hn]; [eexists _, _; split; reflexivity|].
    destruct (name_kind n ("(" ++ concat ", " (map (show_dv plain) l) ++ ")") Hn) as (c & u & E & K).
    exists c, u. split; [exact E|]. destruct n; [discriminate|exact K].
  - apply name_kind. exact Hn.
  - eexists _, _. split; reflexivity.
Qed.
Lemma same_kind plain v w r s : good v -> good w -> show_dv plain v ++ r = show_dv plain w ++ s ->
  kind v = kind w.
Proof.
  intros Hv Hw H. destruct (show_first plain v Hv) as (c & t & E1 & <-).
  destruct (show_first plain w Hw) as (d & u & E2 & <-). rewrite E1, E2 in H.
  injection H as -> _. reflexivity.
Qed.
Lemma kind_pos v : kind v <> 0%nat.
Proof. destruct v as [| | |[]| |]; discriminate. Qed.

Definition closer (c : ascii) : Prop := c = ")"%char \/ c = "]"%char.
Lemma closer_stop c r : closer c -> stop (String c r).
Proof. intros [-> | ->]; cbn; auto 6. Qed.
Lemma closer_not plain v c r s : closer c -> good v -> show_dv plain v ++ r <> String c s.
Proof.
  intros C Hv H. destruct (show_first plain v Hv) as (d & u & E & K). rewrite E in H.
  injection H as -> _. destruct C as [-> | ->]; cbn in K; symmetry in K; exact (kind_pos v K).
Qed.

Lemma items_told plain c l : closer c -> Forall good l -> Forall (told plain) l ->
  forall k r s, Forall good k ->
  concat ", " (map (show_dv plain) l) ++ String c r = concat ", " (map (show_dv plain) k) ++ String c s ->
  l = k /\ r = s.
Proof.
  intros C G T. induction T as [|x l Tx T IH]; intros k r s Gk H.
  - destruct Gk as [|y k Gy Gk].
    + cbn in H. injection H as ->. auto.
    + cbn [map] in H. rewrite concat_cons in H. cbn [map concat append] in H. symmetry in H.
      apply closer_not in H; [contradiction|exact C|exact Gy].
  - apply Forall_cons_iff in G as [Gx G]. destruct Gk as [|y k Gy Gk].
    + cbn [map] in H. rewrite concat_cons in H. cbn [map concat append] in H.
      apply closer_not in H; [contradiction|exact C|exact Gx].
    + cbn [map] in H. rewrite !concat_cons in H.
      apply Tx in H; [|exact Gy| |].
      * destruct H as [-> H].
        destruct l as [|x' l], k as [|y' k]; cbn [map] in H.
        -- injection H as ->. auto.
        -- destruct C as [-> | ->]; discriminate.
        -- destruct C as [-> | ->]; discriminate.
        -- apply sapp_cancel in H. destruct (IH G (y' :: k) r s Gk H) as [-> ->]. auto.
      * destruct (map (show_dv plain) l); [apply closer_stop; exact C|cbn; auto].
      * destruct (map (show_dv plain) k); [apply closer_stop; exact C|cbn; auto].
Qed.

Definition field_text plain (p : string * dv) : string := let (f, x) := p in f ++ ": " ++ show_dv plain x.
Lemma name_not_blank n r s : name n = true -> n ++ r <> String " " s.
Proof. intros H K. destruct (name_start n H) as (c & t & -> & L). injection K as -> _. discriminate. Qed.
Lemma fields_told plain l :
  Forall (fun p : string * dv => name (fst p) = true /\ good (snd p)) l ->
  Forall (fun p : string * dv => told plain (snd p)) l ->
  forall k r s, Forall (fun p : string * dv => name (fst p) = true /\ good (snd p)) k ->
  concat ", " (map (field_text plain) l) ++ " }" ++ r = concat ", " (map (field_text plain) k) ++ " }" ++ s ->
  l = k /\ r = s.
Proof.
  intros G T. induction T as [|[f x] l Tx T IH]; intros k r s Gk H.
  - destruct Gk as [|[g y] k [Gn Gy] Gk].
    + cbn in H. injection H as ->. auto.
    + cbn [map] in H. rewrite concat_cons in H. cbn [field_text map concat append] in H. symmetry in H.
      rewrite sapp_assoc in H. apply name_not_blank in H; [contradiction|exact Gn].
  - apply Forall_cons_iff in G as [[Gf Gx] G]. destruct Gk as [|[g y] k [Gn Gy] Gk].
    + cbn [map] in H. rewrite concat_cons in H. cbn [field_text map concat append] in H.
      rewrite sapp_assoc in H. apply name_not_blank in H; [contradiction|exact Gf].
    + cbn [map] in H. rewrite !concat_cons in H. cbn [field_text fst snd] in *. rewrite !sapp_assoc in H.
      apply (run_split namechar) in H; [|apply name_all; exact Gf|apply name_all; exact Gn|reflexivity|reflexivity].
      destruct H as [-> H]. apply sapp_cancel in H.
      apply Tx in H; [|exact Gy| |].
      * destruct H as [-> H].
        destruct l as [|x' l], k as [|y' k]; cbn [map] in H; try discriminate.
        -- injection H as ->. auto.
        -- apply sapp_cancel in H. destruct (IH G (y' :: k) r s Gk H) as [-> ->]. auto.
      * destruct (map (field_text plain) l); cbn; auto.
      * destruct (map (field_text plain) k); cbn; auto.
Qed.

Lemma after_name n m r s : name n = true -> name m = true ->
  starts (fun c => negb (namechar c)) r -> starts (fun c => negb (namechar c)) s ->
  n ++ r = m ++ s -> n = m /\ r = s.
Proof. intros A B R S. apply (run_split namechar); auto using name_all. Qed.

Lemma good_told plain v : good v -> told plain v.
Proof.
  intros Hv. induction Hv as [z|t Ht|n Hn|n l Hn Hl Gl IH|n l Hn Hl Gl IH|l Gl IH] using good_induct;
    intros w r s Hw Hr Hs H.
  - assert (K := same_kind plain _ w r s (g_num z) Hw H).
    destruct Hw as [z'|t' Ht'|n' Hn'|n' l' Hn' Hl' Gl'|n' l' Hn' Hl' Gl'|l' Gl']; try discriminate K.
    2:{ destruct n'; discriminate K. }
    cbn [show_dv] in H. apply (run_split numeric) in H; try apply show_Z_numeric; try apply stop_chars; auto.
    destruct H as [H ->]. apply show_Z_inj in H. subst. auto.
  - assert (K := same_kind plain _ w r s (g_text t Ht) Hw H).
    destruct Hw as [z'|t' Ht'|n' Hn'|n' l' Hn' Hl' Gl'|n' l' Hn' Hl' Gl'|l' Gl']; try discriminate K.
    2:{ destruct n'; discriminate K. }
    cbn [show_dv] in H. rewrite !sapp_assoc in H. apply sapp_cancel in H.
    apply escape_inj in H as [-> ->]; auto.
  - assert (K := same_kind plain _ w r s (g_unit n Hn) Hw H).
    destruct Hw as [z'|t' Ht'|n' Hn'|n' l' Hn' Hl' Gl'|n' l' Hn' Hl' Gl'|l' Gl']; try discriminate K.
    + cbn [show_dv] in H. apply after_name in H; auto; try (apply stop_chars; assumption).
      destruct H as [-> ->]. auto.
    + destruct Hn' as [->|Hn']; [discriminate K|]. cbn [show_dv] in H. rewrite !sapp_assoc in H.
      apply after_name in H; auto; try (apply stop_chars; assumption); try reflexivity.
      destruct H as [_ H]. destruct (stop_chars r Hr) as (_ & _ & N1 & _). destruct (N1 _ H).
    + cbn [show_dv] in H. rewrite !sapp_assoc in H.
      apply after_name in H; auto; try (apply stop_chars; assumption); try reflexivity.
      destruct H as [_ H]. destruct (stop_chars r Hr) as (_ & _ & _ & N2). destruct (N2 _ H).
  - assert (K := same_kind plain _ w r s (g_tuple n l Hn Hl Gl) Hw H).
    destruct Hw as [z'|t' Ht'|n' Hn'|n' l' Hn' Hl' Gl'|n' l' Hn' Hl' Gl'|l' Gl'];
      try (destruct n; discriminate K).
    + destruct Hn as [->|Hn]; [discriminate K|]. cbn [show_dv] in H. rewrite !sapp_assoc in H.
      apply after_name in H; auto; try (apply stop_chars; assumption); try reflexivity.
      destruct H as [_ H]. destruct (stop_chars s Hs) as (_ & _ & N1 & _). symmetry in H. destruct (N1 _ H).
    + cbn [show_dv] in H. rewrite !sapp_assoc in H.
      assert (E : n = n' /\ "(" ++ concat ", " (map (show_dv plain) l) ++ ")" ++ r
                  = "(" ++ concat ", " (map (show_dv plain) l') ++ ")" ++ s).
      { destruct Hn as [->|Hn], Hn' as [->|Hn']; auto.
        - destruct n'; [discriminate Hn'|discriminate K].
        - destruct n; [discriminate Hn|discriminate K].
        - apply after_name in H; auto; reflexivity. }
      destruct E as [-> E]. apply sapp_cancel in E.
      apply (items_told plain ")") in E; [|left; reflexivity|exact Gl|exact IH|exact Gl'].
      destruct E as [-> ->]. auto.
    + destruct Hn as [->|Hn]; [discriminate K|]. cbn [show_dv] in H. rewrite !sapp_assoc in H.
      apply after_name in H; auto; try reflexivity. destruct H as [_ H]. discriminate H.
  - assert (K := same_kind plain _ w r s (g_struct n l Hn Hl Gl) Hw H).
    destruct Hw as [z'|t' Ht'|n' Hn'|n' l' Hn' Hl' Gl'|n' l' Hn' Hl' Gl'|l' Gl']; try discriminate K.
    + cbn [show_dv] in H. rewrite !sapp_assoc in H.
      apply after_name in H; auto; try (apply stop_chars; assumption); try reflexivity.
      destruct H as [_ H]. destruct (stop_chars s Hs) as (_ & _ & _ & N2). symmetry in H. destruct (N2 _ H).
    + destruct Hn' as [->|Hn']; [discriminate K|]. cbn [show_dv] in H. rewrite !sapp_assoc in H.
      apply after_name in H; auto; try reflexivity. destruct H as [_ H]. discriminate H.
    + cbn [show_dv] in H. rewrite !sapp_assoc in H.
      apply after_name in H; auto; try reflexivity.
      destruct H as [-> H]. apply sapp_cancel in H.
      apply (fields_told plain l Gl IH l' r s Gl') in H. destruct H as [-> ->]. auto.
  - assert (K := same_kind plain _ w r s (g_list l Gl) Hw H).
    destruct Hw as [z'|t' Ht'|n' Hn'|n' l' Hn' Hl' Gl'|n' l' Hn' Hl' Gl'|l' Gl']; try discriminate K.
    1:{ destruct n'; discriminate K. }
    cbn [show_dv] in H. rewrite !sapp_assoc in H. apply sapp_cancel in H.
    apply (items_told plain "]") in H; [|right; reflexivity|exact Gl|exact IH|exact Gl'].
    destruct H as [-> ->]. auto.
Qed.

Lemma show_inj plain v w : good v -> good w -> show_dv plain v = show_dv plain w -> v = w.
Proof.
  intros Hv Hw H. rewrite <- (sapp_nil (show_dv plain v)), <- (sapp_nil (show_dv plain w)) in H.
  apply (good_told plain v Hv w "" "" Hw I I) in H. apply H.
Qed.

(** ** No control characters *)
Definition visible (c : ascii) : bool :=
  ((32 <=? N_of_ascii c) && negb (N_of_ascii c =? 127))%N.
Lemma visible_byte b : (b < 256)%N -> (32 <= b)%N -> b <> 127%N -> visible (ascii_of_N b) = true.
Proof. intros A B C. unfold visible. rewrite N_ascii_embedding by exact A. lia. Qed.
Lemma ascii_cases (p q : ascii -> bool) :
  forallb (fun n => implb (p (ascii_of_nat n)) (q (ascii_of_nat n))) (seq 0 256) = true ->
  forall c, p c = true -> q c = true.
Proof.
  intros F c H. rewrite forallb_forall in F. specialize (F (nat_of_ascii c)).
  rewrite ascii_nat_embedding, H in F. apply F. apply in_seq.
  split; [apply Nat.le_0_l|]. apply nat_ascii_bounded.
Qed.
Lemma numeric_visible c : numeric c = true -> visible c = true.
Proof. revert c. apply ascii_cases. vm_compute. reflexivity. Qed.
Lemma hex_visible c : hexdigit c = true -> visible c = true.
Proof. revert c. apply ascii_cases. vm_compute. reflexivity. Qed.
Lemma name_visible c : namechar c = true -> visible c = true.
Proof. revert c. apply ascii_cases. vm_compute. reflexivity. Qed.
Lemma bytes_visible l : Forall (fun b => 0x80 <= b < 256)%N l -> all visible (bytes_text l) = true.
Proof.
  intros H. induction H as [|b l Hb _ IH]; [reflexivity|]. cbn [bytes_text]. rewrite all_app, IH.
  unfold byte_text. cbn [all]. rewrite visible_byte; [reflexivity|lia|lia|lia].
Qed.
Lemma written_visible c a : written c a -> all visible a = true.
Proof.
  intros [A B C D|x Hx| |A Hs].
  - unfold byte_text. cbn [all]. rewrite visible_byte; [reflexivity|lia|lia|lia].
  - cbn in Hx. decompose [or] Hx; try contradiction; match goal with H : (_, _) = _ |- _ => injection H as <- <- end; reflexivity.
  - unfold escape_unicode. rewrite !all_app. rewrite (all_impl hexdigit visible (HexadecimalString.NilZero.string_of_uint _) hex_visible (hex0_digits _)). reflexivity.
  - apply bytes_visible. destruct (utf8_wide c A Hs); repeat constructor; lia.
Qed.
Lemma escape_visible plain s : is_utf8 s -> all visible (escape_str plain s) = true.
Proof.
  intros (cs & H & ->). induction H as [|c cs Hc _ IH]; [reflexivity|]. cbn [flat_map].
  rewrite escape_str_char by exact Hc. rewrite all_app, IH, andb_true_r.
  eapply written_visible. apply esc_written. exact Hc.
Qed.
Lemma concat_visible l : Forall (fun s => all visible s = true) l -> all visible (concat ", " l) = true.
Proof.
  intros H. induction H as [|x l Hx Hl IH]; [reflexivity|].
  rewrite <- (sapp_nil (concat ", " (x :: l))), concat_cons, all_app, Hx.
  destruct l; [reflexivity|]. rewrite !all_app, IH. reflexivity.
Qed.
Lemma name_all_visible n : name n = true -> all visible n = true.
Proof. intros H. apply (all_impl namechar); [apply name_visible|apply name_all; exact H]. Qed.
Lemma good_visible plain v : good v -> all visible (show_dv plain v) = true.
Proof.
  intros Hv. induction Hv as [z|t Ht|n Hn|n l Hn Hl Gl IH|n l Hn Hl Gl IH|l Gl IH] using good_induct;
    cbn [show_dv]; rewrite ?all_app.
  - apply (all_impl numeric); [apply numeric_visible|apply show_Z_numeric].
  - rewrite escape_visible by exact Ht. reflexivity.
  - apply name_all_visible. exact Hn.
  - rewrite concat_visible by (apply Forall_map; exact IH).
    destruct Hn as [->|Hn]; [|rewrite name_all_visible by exact Hn]; reflexivity.
  - rewrite name_all_visible by exact Hn. rewrite concat_visible; [reflexivity|].
    apply Forall_map. clear Hl. induction l as [|[f x] l IHl]; constructor.
    + apply Forall_cons_iff in Gl as [[A _] _]. apply Forall_cons_iff in IH as [B _].
      cbn [fst snd] in *. rewrite !all_app, B, (name_all_visible f A). reflexivity.
    + apply Forall_cons_iff in Gl as [_ Gl]. apply Forall_cons_iff in IH as [_ IH]. auto.
  - rewrite concat_visible by (apply Forall_map; exact IH). reflexivity.
Qed.
