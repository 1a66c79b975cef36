(** Lemmas for C70 and C71: standard output. *)
From Coq Require Import List NArith ZArith Bool Lia String Ascii DecimalString.
From Verif Require Import Base Deku Utils Types Physical Link Network Session Data Query
  Interface File Operation Action Command Display Frames Cli Debug Output WellFormed SpecAction SpecAccess SpecCli
  SpecDebug SpecDecode
  LReader LNice LNiceFile LNiceOps LCommandApi LFrames LText LAccess LDebug LReturn LFiles LCli LActionApi LLayout
  LDebugTop LDecodeLoop LErrTop LFramesW LFrames SpecOutput.
Import ListNotations.
Open Scope string_scope.

(** ** The library *)
Lemma from_bytes_io_eq {A} (v : A -> value) (m : reader A) d off :
  from_bytes_io v m d off = (written v (u_from_reader m d off) d off, u_from_bytes m d off).
Proof.
  unfold from_bytes_io, u_from_reader, u_from_bytes, io_bind, silent. cbn [fst snd].
  destruct (start m d off) as [[a r]|e|]; reflexivity.
Qed.
Lemma try_from_io_eq {A} (v : A -> value) (m : reader A) d :
  try_from_io v m d = (written v (u_from_reader m d 0) d 0, u_try_from m d).
Proof.
  unfold try_from_io, u_try_from, io_bind, silent. rewrite from_bytes_io_eq. cbn [fst snd].
  destruct (u_from_bytes m d 0) as [[rest a]|e|]; cbn [rbind fst snd]; rewrite ?app_nil_r; reflexivity.
Qed.
Theorem lines_exact {E : Env} d off :
  action_from_bytes_io d off = (written VAction (action_from_reader d off) d off, action_from_bytes d off) /\
  action_try_from_io d = (written VAction (action_from_reader d 0) d 0, action_try_from d) /\
  command_from_bytes_io d off = (written VCommand (command_from_reader d off) d off, command_from_bytes d off) /\
  command_try_from_io d = (written VCommand (command_from_reader d 0) d 0, command_try_from d) /\
  forall id n, file_from_bytes_io d off id n = (written VFile (d_from_reader (read_file id n) d off) d off, file_from_bytes d off id n).
Proof.
  repeat split; [apply from_bytes_io_eq|apply try_from_io_eq|apply from_bytes_io_eq|apply try_from_io_eq|].
  intros id n. apply from_bytes_io_eq.
Qed.
Theorem not_silent {E : Env} : ~ (forall d, fst (command_try_from_io d) = []).
Proof. intros H. specialize (H []). destruct E as [[] [] []]; discriminate H. Qed.

(** A call that fails writes a line exactly if the error is about bytes left over. *)
Lemma writes_iff {A} (v : A -> value) (m : reader A) d :
  (exists e, m (new_reader d) = Err e) \/ (exists x, m (new_reader d) = Ok x) ->
  (fst (try_from_io v m d) <> [] <-> exists x, m (new_reader d) = Ok x).
Proof.
  intros H. rewrite try_from_io_eq. cbn [fst]. unfold u_from_reader. rewrite start_0.
  destruct H as [[e H]|[[a r] H]]; rewrite H; cbn [rbind written]; split.
  - intros K. destruct K. reflexivity.
  - intros [x K]. discriminate.
  - intros _. eauto.
  - intros _ K. discriminate.
Qed.
Theorem failed_command_writes {E : Env} d e : bytes d -> snd (command_try_from_io d) = Err e ->
  (fst (command_try_from_io d) <> [] <-> e = ETooMuchData).
Proof.
  intros Hd He. unfold command_try_from_io in *. rewrite (try_from_io_eq VCommand) in He. cbn [snd] in He.
  destruct (command_names d e Hd He) as (N1 & _). rewrite N1.
  pose proof (decode_command d Hd) as D.
  destruct (dec_command d) as [[c rest]|].
  - destruct D as (s & _ & D & _). rewrite writes_iff by eauto. split; [discriminate|eauto].
  - destruct D as (e' & D). rewrite writes_iff by eauto. split; [intros [x K]; congruence|intros K; destruct K; reflexivity].
Qed.

(** ** The tool: the results are those of Cli.v *)
Definition agrees (x : io unit) (y : res (list Cli.printed)) : Prop :=
  match y with
  | Ok l => snd x = Ok tt /\ results (fst x) = l
  | Err e => snd x = Err e /\ results (fst x) = []
  | Panic => snd x = Panic /\ results (fst x) = []
  end.
Lemma results_app a b : results (a ++ b)%list = (results a ++ results b)%list.
Proof. induction a as [|[v n d off|p] a IH]; cbn; [reflexivity|exact IH|rewrite IH; reflexivity]. Qed.
Lemma results_written {A} (v : A -> value) x d off : results (written v x d off) = [].
Proof. destruct x as [[n a]| |]; reflexivity. Qed.
Lemma agrees_frame {E : Env} d : agrees (parse_foreground_frame_io d) (single (parse_foreground_frame d)).
Proof. unfold parse_foreground_frame_io, parse_foreground_frame. destruct (fframe_try_from d); split; reflexivity. Qed.
Lemma agrees_background {E : Env} d : agrees (parse_background_frame_io d) (single (parse_background_frame d)).
Proof. unfold parse_background_frame_io, parse_background_frame. destruct (bframe_try_from d); split; reflexivity. Qed.
Lemma parse_alp_lines {E : Env} d : parse_alp_command_io d =
  (command_lines d, match command_try_from d with Ok _ => Ok tt | Err e => Err e | Panic => Panic end).
Proof.
  unfold parse_alp_command_io, command_lines. destruct (lines_exact d 0) as (_ & _ & _ & H & _). rewrite H.
  unfold io_bind, say. cbn [fst snd]. destruct (command_try_from d); cbn [fst snd]; rewrite ?app_nil_r; reflexivity.
Qed.
Lemma agrees_command {E : Env} d : agrees (parse_alp_command_io d) (single (parse_alp_command d)).
Proof.
  rewrite parse_alp_lines. unfold parse_alp_command, command_lines.
  destruct (command_try_from d); split; cbn [fst snd]; rewrite ?results_app, ?results_written; reflexivity.
Qed.
Definition id_lines {E : Env} (id : file_id) (d : list N) : list line :=
  (written VFile (d_from_reader (read_file id 0) d 0) d 0
  ++ match file_from_bytes d 0 id 0 with Ok (rest, f) => [LnShown (PrFile rest f)] | _ => [] end)%list.
Lemma parse_file_lines {E : Env} d id : parse_file_io d id =
  (id_lines id d, match file_from_bytes d 0 id 0 with Ok _ => Ok tt | Err e => Err e | Panic => Panic end).
Proof.
  unfold parse_file_io, id_lines. destruct (lines_exact d 0) as (_ & _ & _ & _ & H). rewrite H.
  unfold io_bind, say. cbn [fst snd]. destruct (file_from_bytes d 0 id 0) as [[rest f]| |]; cbn [fst snd]; rewrite ?app_nil_r; reflexivity.
Qed.
Lemma agrees_file {E : Env} d id : agrees (parse_file_io d id) (single (parse_file d id)).
Proof.
  rewrite parse_file_lines. unfold parse_file, id_lines.
  destruct (file_from_bytes d 0 id 0) as [[rest f]| |]; split; cbn [fst snd]; rewrite ?results_app, ?results_written; reflexivity.
Qed.
Lemma agrees_or x y k l : agrees x (single y) -> agrees k l -> agrees (or_else_io x k) (or_else y l).
Proof.
  intros Hx Hk. unfold or_else_io, or_else. destruct y as [p|e|]; cbn [single rbind agrees] in Hx; destruct Hx as [Hx Rx]; rewrite Hx.
  - split; assumption.
  - destruct l; cbn [agrees fst snd] in *; rewrite results_app, Rx; exact Hk.
  - split; assumption.
Qed.
Lemma agrees_files {E : Env} d ids : agrees (parse_any_file_io d ids) (parse_any_file_loop d ids).
Proof.
  induction ids as [|i ids IH]; [split; reflexivity|]. cbn [parse_any_file_io parse_any_file_loop].
  unfold io_bind, silent. cbn [fst snd]. destruct (file_id_try_from i) as [id|e|]; [|split; reflexivity..].
  assert (A := agrees_or _ _ _ _ (agrees_file d id) IH). destruct (or_else (parse_file d id) _); exact A.
Qed.
Lemma agrees_any {E : Env} d : agrees (parse_any_io d) (parse_any d).
Proof.
  unfold parse_any_io, parse_any. apply agrees_or; [apply agrees_frame|]. apply agrees_or; [apply agrees_background|].
  apply agrees_or; [apply agrees_command|]. apply agrees_or; [split; reflexivity|].
  pose proof (agrees_files d all_file_ids) as A. unfold or_else_io. fold (parse_any_file d) in A.
  destruct (parse_any_file d); cbn [agrees] in A |- *; destruct A as [A R]; rewrite A; cbn [fst snd silent]; rewrite ?app_nil_r; split; auto.
Qed.
Lemma agrees_expect x y : agrees x y -> agrees (expect_io x) (expect y).
Proof. unfold expect_io. destruct y; cbn [agrees expect]; intros [A R]; rewrite A; split; auto. Qed.
Theorem cli_agrees {E : Env} t fid s : cli_main t fid s =
  match snd (cli_io t fid s) with Ok _ => Ok (results (fst (cli_io t fid s))) | Err e => Err e | Panic => Panic end.
Proof.
  enough (A : agrees (cli_io t fid s) (cli_main t fid s)).
  { destruct (cli_main t fid s); cbn [agrees] in A; destruct A as [A R]; rewrite A, ?R; reflexivity. }
  unfold cli_io, cli_main. destruct (hex_decode (remove_whitespace s)) as [d|]; [|split; reflexivity].
  destruct t as [[]|]; try (apply agrees_expect).
  - apply agrees_frame.
  - apply agrees_background.
  - apply agrees_command.
  - split; reflexivity.
  - destruct fid as [i|]; [|apply agrees_expect; unfold parse_any_file; apply agrees_files].
    unfold io_bind, silent. cbn [fst snd]. destruct (file_id_try_from i) as [id|e|]; cbn [expect rbind]; [|split; reflexivity..].
    pose proof (agrees_expect _ _ (agrees_file d id)) as A. destruct (expect (single (parse_file d id))); exact A.
  - apply agrees_any.
Qed.

(** ** Which lines the tool writes *)
Lemma no_file_line {E : Env} d id e : file_from_bytes d 0 id 0 = Err e -> parse_file_io d id = ([], Err e).
Proof.
  intros H. rewrite parse_file_lines. unfold id_lines. rewrite H, app_nil_r. f_equal.
  unfold d_from_reader. rewrite start_0. unfold file_from_bytes in H. rewrite u_from_bytes_0 in H.
  destruct (read_file id 0 (new_reader d)) as [[f r]|x|]; try reflexivity. discriminate.
Qed.
Lemma uid_bits {E : Env} d f r : read_file FidUId 0 (new_reader d) = Ok (f, r) -> bread r = 64%nat.
Proof.
  cbn [read_file read_address]. unfold read_u64be, read_uint, bind, read_bits, ret.
  destruct (Nat.leb _ _); [|discriminate]. intros H. injection H as _ <-. reflexivity.
Qed.
Lemma any_file_out {E : Env} d : bytes d -> parse_any_file_io d all_file_ids = (any_file_lines d, Ok tt).
Proof.
  intros Hb. change all_file_ids with (0 :: 1 :: 2 :: 3 :: map N.of_nat (seq 4 43))%N.
  cbn [parse_any_file_io]. unfold silent, io_bind. cbn [fst snd]. rewrite !file_id_try_from_ok by reflexivity.
  cbn [fst snd app]. unfold any_file_lines. destruct (Nat.leb_spec 8 (List.length d)) as [L|L].
  - rewrite (parse_file_lines d (file_id_of 0)). unfold id_lines. change (file_id_of 0) with FidUId. pose proof (uid_file d Hb L) as U. rewrite U.
    unfold or_else_io at 1. cbn [fst snd]. unfold or_else_io at 1. cbn [fst snd]. f_equal.
    unfold d_from_reader. rewrite start_0.
    unfold file_from_bytes in U. rewrite u_from_bytes_0 in U.
    destruct (read_file FidUId 0 (new_reader d)) as [[f r]|x|] eqn:Er; try discriminate.
    apply uid_bits in Er. cbn [rbind fst snd written]. rewrite Er.
    assert (f = FUId (UId (N_of_be (firstn 8 d)))) as -> by congruence. reflexivity.
  - destruct (short_file 0 8 d eq_refl) as (e0 & H0); [|exact L|].
    { change (file_id_of 0) with FidUId. cbn [read_file read_address]. adv_all. }
    destruct (short_file 1 56 d eq_refl) as (e1 & H1); [|lia|].
    { change (file_id_of 1) with FidFactorySettings. cbn [read_file]. adv_all. }
    destruct (short_file 2 15 d eq_refl) as (e2 & H2); [|lia|].
    { change (file_id_of 2) with FidFirmwareVersion. cbn [read_file]. adv_all. }
    rewrite (no_file_line _ _ _ H0), (no_file_line _ _ _ H1), (no_file_line _ _ _ H2), (parse_file_lines d (file_id_of 3)).
    unfold or_else_io. cbn [fst snd app]. unfold id_lines.
    rewrite untyped_exact; [|reflexivity|assumption|].
    2:{ cbn. intros H. repeat (destruct H as [H|H]; [discriminate|]). exact H. }
    replace (0 <=? N.of_nat (List.length d))%N with true by (destruct (N.of_nat (List.length d)); reflexivity).
    cbn [fst snd N.to_nat firstn skipn]. f_equal. unfold d_from_reader. rewrite start_0.
    assert (R : read_file (file_id_of 3) 0 (new_reader d) = Ok (FOther [], new_reader d)).
    { cbn -[N.mul N.leb]. unfold bind, read_vec_u8.
      replace (8 * 0 <=? N.of_nat (List.length (view (new_reader d))))%N with true
        by (change (8 * 0)%N with 0%N; destruct (N.of_nat (List.length (view (new_reader d)))); reflexivity).
      reflexivity. }
    rewrite R. reflexivity.
Qed.
Lemma single_or {E : Env} x y k : agrees x (single y) ->
  or_else_io x k = match y with Err _ => ((fst x ++ fst k)%list, snd k) | _ => x end.
Proof. unfold or_else_io. destruct y; cbn [single rbind agrees]; intros [H _]; rewrite H; reflexivity. Qed.
Theorem tool_lines_exact {E : Env} t fid s bs : spells s bs -> fst (cli_io t fid s) = tool_lines t fid bs.
Proof.
  intros Hs. pose proof (spells_bytes _ _ Hs) as Hb. apply decode_spells in Hs. unfold cli_io. rewrite Hs.
  destruct t as [[]|]; cbn [tool_lines].
  - unfold frame_lines, parse_foreground_frame_io. destruct (fframe_try_from bs); reflexivity.
  - unfold background_lines, parse_background_frame_io. destruct (bframe_try_from bs); reflexivity.
  - rewrite parse_alp_lines. reflexivity.
  - reflexivity.
  - destruct fid as [i|].
    + unfold file_lines. unfold io_bind, silent. cbn [fst snd]. destruct (file_id_try_from i) as [id|e|]; try reflexivity.
      cbn [expect fst snd app]. rewrite parse_file_lines. reflexivity.
    + rewrite any_file_out by exact Hb. reflexivity.
  - unfold expect_io. cbn [fst]. unfold parse_any_io. rewrite (any_file_out bs Hb).
    destruct (frames_no_panic bs) as ((B1 & _) & (F1 & _) & _). pose proof (LCommandApi.command_no_panic bs) as C1.
    unfold any_lines. rewrite parse_alp_lines.
    assert (RC : results (command_lines bs) = match command_try_from bs with Ok c => [PrCommand c] | _ => [] end).
    { unfold command_lines. rewrite results_app, results_written. destruct (command_try_from bs); reflexivity. }
    rewrite RC. unfold frame_lines, background_lines, parse_foreground_frame_io, parse_background_frame_io.
    destruct (fframe_try_from bs) as [f|e|]; [reflexivity| |destruct (F1 eq_refl)].
    destruct (bframe_try_from bs) as [f|e0|]; [reflexivity| |destruct (B1 eq_refl)].
    destruct (command_try_from bs) as [c|e1|] eqn:Ec; [|reflexivity|destruct C1].
    cbn [or_else_io fst snd io_bind silent app results]. reflexivity.
Qed.

(** ** The lines are made of values that exist, results come last, a command only after its line *)
Definition real_value {E : Env} (v : value) : Prop :=
  match v with VAction a => real_action a | VCommand c => Forall real_action c | VFile f => real_file f end.
Inductive shape {E : Env} : option value -> list line -> Prop :=
| sh_end prev : shape prev []
| sh_read prev v n d off l : real_value v -> shape (Some v) l -> shape prev (LnRead v n d off :: l)
| sh_shown prev p : real_printed p -> (forall c, p = PrCommand c -> prev = Some (VCommand c)) -> shape prev [LnShown p].

Definition read_text {E : Env} plain v n d off : string :=
  "value " ++ show_dv plain (d_value v) ++ ", reader.bits_read " ++ show_N (N.of_nat n) ++ "  "
  ++ show_dv plain (DTuple "" [d_bytes d; d_n (N.of_nat off)]).
Lemma good_value {E : Env} v : real_value v -> good (d_value v).
Proof. destruct v; cbn; auto using good_action, good_command, good_file. Qed.
Lemma d_value_inj {E : Env} v w : real_value v -> real_value w -> d_value v = d_value w -> v = w.
Proof.
  destruct v as [a|c|f], w as [b|d|g]; cbn [real_value d_value]; intros Rv Rw H; try discriminate H.
  - f_equal. apply d_action_inj; assumption.
  - destruct a; discriminate.
  - destruct a, g; try discriminate; injection H as H _; cbn in H; discriminate.
  - destruct b; discriminate.
  - f_equal. apply d_command_inj; assumption.
  - destruct g; discriminate.
  - destruct b, f; try discriminate; injection H as H _; cbn in H; discriminate.
  - destruct f; discriminate.
  - f_equal. apply d_file_inj; assumption.
Qed.
Lemma good_input d n : good (DTuple "" [d_bytes d; d_n n]).
Proof. apply g_tuple; [left; reflexivity|discriminate|]. constructor; [apply good_bytes|]. repeat constructor. Qed.
Lemma read_text_visible {E : Env} plain v n d off : real_value v -> all visible (read_text plain v n d off) = true.
Proof.
  intros R. unfold read_text. rewrite !all_app, !(show_N_dv plain), !good_visible; try reflexivity.
  - apply good_input.
  - constructor.
  - apply good_value, R.
Qed.
Lemma read_text_inj {E : Env} plain v n d off w m e o (r s : string) : real_value v -> real_value w ->
  stop r -> stop s -> read_text plain v n d off ++ r = read_text plain w m e o ++ s ->
  v = w /\ n = m /\ d = e /\ off = o /\ r = s.
Proof.
  intros Rv Rw Sr Ss H. unfold read_text in H. rewrite !sapp_assoc in H. apply sapp_cancel in H.
  apply (good_told plain _ (good_value v Rv)) in H; [|apply good_value, Rw|cbn; auto|cbn; auto].
  destruct H as [Hv H]. apply d_value_inj in Hv; [|assumption..]. subst w. apply sapp_cancel in H.
  apply (run_split digit) in H; [|apply uint0_digits|apply uint0_digits|reflexivity|reflexivity].
  destruct H as [Hn H]. apply show_N_inj, Nat2N.inj in Hn. apply sapp_cancel in H.
  apply (good_told plain _ (good_input d (N.of_nat off))) in H; [|apply good_input|assumption|assumption].
  destruct H as [Hi H]. injection Hi as H1 H2. apply N2Z.inj, Nat2N.inj in H2.
  assert (d = e) by (apply d_bytes_inj; unfold d_bytes; rewrite H1; reflexivity). auto.
Qed.
Lemma line_read {E : Env} plain v n d off : line_text plain (LnRead v n d off) = read_text plain v n d off ++ nl.
Proof. unfold line_text, read_text. rewrite !sapp_assoc. reflexivity. Qed.
Lemma shown_not_v {E : Env} plain p r : exists c s, printed_text plain p ++ r = String c s /\ c <> "v"%char.
Proof. destruct p; unfold printed_text; cbn; do 2 eexists; (split; [reflexivity|discriminate]). Qed.
Theorem stdout_same {E : Env} plain : forall l k prev, shape prev l -> shape prev k ->
  stdout plain l = stdout plain k -> l = k.
Proof.
  induction l as [|x l IH]; intros k prev Hl Hk H.
  - destruct k as [|y k]; [reflexivity|]. exfalso. cbn [stdout] in H. inversion Hk; subst.
    + rewrite line_read in H. discriminate.
    + destruct (shown_not_v plain p (stdout plain [])) as (c & s & X & _). cbn [line_text] in H. rewrite X in H. discriminate.
  - inversion Hl as [|prev' v n d off l' Rv Sl|prev' p Rp Lp]; subst.
    + inversion Hk as [|prev' w m e o k' Rw Sk|prev' q Rq Lq]; subst; cbn [stdout] in H.
      * rewrite line_read in H. discriminate.
      * rewrite !line_read, !sapp_assoc in H. apply read_text_inj in H; [|assumption|assumption|cbn; auto 6|cbn; auto 6].
        destruct H as (-> & -> & -> & -> & H). f_equal. eapply IH; [exact Sl|exact Sk|]. exact (sapp_cancel _ _ _ H).
      * rewrite line_read in H. cbn [line_text] in H. destruct (shown_not_v plain q "") as (c & s & X & Y). rewrite X in H.
        unfold read_text in H. cbn in H. congruence.
    + inversion Hk as [|prev' w m e o k' Rw Sk|prev' q Rq Lq]; subst; cbn [stdout line_text] in H.
      * destruct (shown_not_v plain p "") as (c & s & X & Y). rewrite X in H. discriminate.
      * destruct (shown_not_v plain p "") as (c & s & X & Y). rewrite X in H. rewrite <- (line_read plain w m e o) in H || idtac.
        cbn in H. congruence.
      * rewrite !sapp_nil in H. apply printed_same in H; [|assumption|assumption].
        destruct p as [f|f|c|r f], q as [g|g|c'|r' g]; cbn [printed_alike] in H; try contradiction; try (rewrite H; reflexivity).
        pose proof (Lp c eq_refl). pose proof (Lq c' eq_refl). congruence.
Qed.
Lemma stdout_plain {E : Env} plain prev l : shape prev l -> plain_text (stdout plain l).
Proof.
  induction 1 as [prev|prev v n d off l R S IH|prev p R L]; cbn [stdout].
  - plain_lit.
  - rewrite line_read. apply plain_app; [|exact IH]. apply plain_app; [|plain_lit].
    apply one_line_plain, visible_one_line, read_text_visible, R.
  - rewrite sapp_nil. apply plain_printed, R.
Qed.

(** ** The lines of a run have this shape *)
Lemma shape_prev {E : Env} l : (exists v n d off k, l = LnRead v n d off :: k) \/ l = [] -> forall p q, shape p l -> shape q l.
Proof.
  intros [(v & n & d & off & k & ->)| ->] p q H; [|constructor]. inversion H; subst. constructor; assumption.
Qed.
Lemma command_read_real {E : Env} d n c : command_from_reader d 0 = Ok (n, c) -> Forall real_action c.
Proof.
  unfold command_from_reader, u_from_reader. rewrite start_0. intros H.
  destruct (read_command 0 (new_reader d)) as [[x r]|e|] eqn:Er; try discriminate. injection H as _ <-.
  eapply actions_real; [apply new_RWf| |exact Er]. constructor.
Qed.
Lemma command_same {E : Env} d c : command_try_from d = Ok c -> exists n, command_from_reader d 0 = Ok (n, c).
Proof.
  unfold command_try_from, command_from_reader, u_from_reader. rewrite u_try_from_eq, start_0.
  destruct (read_command 0 (new_reader d)) as [[x r]|e|]; try discriminate. destruct (Nat.leb _ _); try discriminate.
  intros H. exists (bread r). cbn [rbind fst snd]. congruence.
Qed.
Lemma shape_command {E : Env} d prev : shape prev (command_lines d).
Proof.
  unfold command_lines. destruct (command_try_from d) as [c|e|] eqn:Ec.
  - destruct (command_same d c Ec) as (n & Hn). rewrite Hn. cbn [written app].
    pose proof (command_read_real d n c Hn) as R. constructor; [exact R|]. constructor; [exact R|]. congruence.
  - destruct (command_from_reader d 0) as [[n c]| |] eqn:Hn; cbn [written app]; [|constructor..].
    constructor; [exact (command_read_real d n c Hn)|constructor].
  - destruct (command_from_reader d 0) as [[n c]| |] eqn:Hn; cbn [written app]; [|constructor..].
    constructor; [exact (command_read_real d n c Hn)|constructor].
Qed.
Lemma shape_file {E : Env} i d prev : (i < 256)%N -> shape prev (file_lines i d).
Proof.
  intros Hi. unfold file_lines. rewrite file_id_try_from_ok by exact Hi. unfold d_from_reader. rewrite start_0.
  unfold file_from_bytes. rewrite u_from_bytes_0.
  assert (W0 : wf_length 0) by reflexivity. pose proof (Nice_file i 0 Hi W0 (new_reader d) (new_RWf d)) as HN.
  destruct (read_file (file_id_of i) 0 (new_reader d)) as [[v r]|e|]; cbn [rbind written app fst snd]; try constructor.
  - eapply wf_real_file, HN.
  - constructor; [eapply wf_real_file, HN|discriminate].
Qed.
Lemma shape_any_file {E : Env} d prev : shape prev (any_file_lines d).
Proof.
  unfold any_file_lines. destruct (Nat.leb 8 (List.length d)); (constructor; [exact I|]; constructor; [exact I|discriminate]).
Qed.
Lemma shape_tool {E : Env} t fid d : (forall i, fid = Some i -> (i < 256)%N) -> shape None (tool_lines t fid d).
Proof.
  intros Hf.
  assert (S1 : shape None (frame_lines d)).
  { unfold frame_lines. destruct (fframe_try_from d) as [f| |] eqn:Ef; constructor; [exact (fframe_real d f Ef)|discriminate]. }
  assert (S2 : shape None (background_lines d)).
  { unfold background_lines. destruct (bframe_try_from d) as [f| |] eqn:Ef; constructor; [exact I|discriminate]. }
  destruct t as [[]|]; cbn [tool_lines]; try assumption.
  - apply shape_command.
  - constructor.
  - destruct fid as [i|]; [apply shape_file, Hf; reflexivity|apply shape_any_file].
  - unfold any_lines. destruct (results (frame_lines d)); [|exact S1]. destruct (results (background_lines d)); [|exact S2].
    destruct (results (command_lines d)) eqn:Rc; [|apply shape_command].
    pose proof (shape_command d None) as S3.
    assert (X : command_lines d = [] \/ exists v n off, real_value v /\ command_lines d = [LnRead v n d off]).
    { unfold command_lines in *. rewrite results_app in Rc. apply app_eq_nil in Rc. destruct Rc as [_ Rc].
      destruct (command_try_from d); [discriminate| |]; rewrite app_nil_r in *;
        (destruct (command_from_reader d 0) as [[n c]| |]; cbn [written] in *; [|left; reflexivity..];
         right; do 3 eexists; split; [|reflexivity]; inversion S3; assumption). }
    destruct X as [-> |(v & n & off & Rv & ->)]; [apply shape_any_file|]. cbn [app]. constructor; [exact Rv|apply shape_any_file].
Qed.
Lemma not_spelled {E : Env} t fid s : (forall bs, ~ spells s bs) -> cli_io t fid s = ([], Panic).
Proof.
  intros H. unfold cli_io. destruct (hex_decode (remove_whitespace s)) as [bs|] eqn:Hd; [|reflexivity].
  apply decode_spells in Hd. destruct (H bs Hd).
Qed.
Lemma shape_cli {E : Env} t fid s : (forall i, fid = Some i -> (i < 256)%N) -> shape None (fst (cli_io t fid s)).
Proof.
  intros Hf. unfold cli_io. destruct (hex_decode (remove_whitespace s)) as [bs|] eqn:Hd; [|constructor].
  apply decode_spells in Hd. pose proof (tool_lines_exact t fid s bs Hd) as T. unfold cli_io in T.
  apply decode_spells in Hd. rewrite Hd in T. rewrite T. apply shape_tool, Hf.
Qed.
Theorem run_same {E : Env} plain t fid a t' fid' b :
  (forall i, fid = Some i -> (i < 256)%N) -> (forall i, fid' = Some i -> (i < 256)%N) ->
  stdout plain (fst (cli_io t fid a)) = stdout plain (fst (cli_io t' fid' b)) <-> fst (cli_io t fid a) = fst (cli_io t' fid' b).
Proof.
  intros F F'. split; [|congruence]. eapply stdout_same; apply shape_cli; assumption.
Qed.
Theorem run_plain {E : Env} plain t fid a : (forall i, fid = Some i -> (i < 256)%N) ->
  plain_text (stdout plain (fst (cli_io t fid a))).
Proof. intros F. eapply stdout_plain, shape_cli, F. Qed.
Theorem failed_action_writes {E : Env} d e : bytes d -> snd (action_try_from_io d) = Err e ->
  (fst (action_try_from_io d) <> [] <-> e = ETooMuchData).
Proof.
  intros Hd He. unfold action_try_from_io in *. rewrite (try_from_io_eq VAction) in He. cbn [snd] in He.
  rewrite u_try_from_eq in He. pose proof (action_names d) as A. unfold action_from_bytes in A. 
  destruct (read_action (new_reader d)) as [[v r]|x|] eqn:Er; try discriminate.
  - rewrite writes_iff by eauto. split; [|eauto]. intros _. destruct (Nat.leb _ _); congruence.
  - rewrite writes_iff by eauto. split; [intros [y K]; congruence|]. intros ->. injection He as ->.
    exfalso. destruct (A ETooMuchData Hd) as (_ & [B|[B|B]]); try discriminate.
    rewrite u_from_bytes_0, Er. reflexivity.
Qed.

(** ** Consequences *)
Lemma lines_input {E : Env} t fid d v n x off : In (LnRead v n x off) (tool_lines t fid d) -> x = d.
Proof.
  assert (W : forall A (f : A -> value) y, In (LnRead v n x off) (written f y d 0) -> x = d).
  { intros A f [[m a]| |]; cbn; [|contradiction..]. intros [H|[]]. congruence. }
  assert (S : forall p, ~ In (LnRead v n x off) [LnShown p]) by (intros p [H|[]]; discriminate).
  assert (C : In (LnRead v n x off) (command_lines d) -> x = d).
  { unfold command_lines. rewrite in_app_iff. intros [H|H]; [exact (W _ _ _ H)|]. destruct (command_try_from d); [destruct (S _ H)|destruct H..]. }
  assert (G : In (LnRead v n x off) (any_file_lines d) -> x = d).
  { unfold any_file_lines. destruct (Nat.leb 8 (List.length d)); intros [H|H]; try congruence; destruct (S _ H). }
  assert (F1 : ~ In (LnRead v n x off) (frame_lines d)).
  { unfold frame_lines. destruct (fframe_try_from d); [apply S|intros []..]. }
  assert (F2 : ~ In (LnRead v n x off) (background_lines d)).
  { unfold background_lines. destruct (bframe_try_from d); [apply S|intros []..]. }
  destruct t as [[]|]; cbn [tool_lines]; auto; try contradiction.
  - destruct fid as [i|]; [|exact G]. unfold file_lines. destruct (file_id_try_from i) as [id| |]; [|intros []..].
    rewrite in_app_iff. intros [H|H]; [exact (W _ _ _ H)|]. destruct (file_from_bytes d 0 id 0) as [[rest f]| |]; [destruct (S _ H)|destruct H..].
  - unfold any_lines. destruct (results (frame_lines d)); [|contradiction]. destruct (results (background_lines d)); [|contradiction].
    destruct (results (command_lines d)); [|exact C]. rewrite in_app_iff. intros [H|H]; auto.
Qed.
Theorem run_input {E : Env} plain t fid a bs t' fid' b bs' v n x off :
  (forall i, fid = Some i -> (i < 256)%N) -> (forall i, fid' = Some i -> (i < 256)%N) -> spells a bs -> spells b bs' ->
  In (LnRead v n x off) (fst (cli_io t fid a)) ->
  stdout plain (fst (cli_io t fid a)) = stdout plain (fst (cli_io t' fid' b)) -> bs = bs'.
Proof.
  intros F F' Ha Hb Hi H. apply run_same in H; [|assumption|assumption]. pose proof Hi as Hj. rewrite H in Hj.
  rewrite (tool_lines_exact _ _ _ _ Ha) in Hi. rewrite (tool_lines_exact _ _ _ _ Hb) in Hj.
  apply lines_input in Hi, Hj. congruence.
Qed.
Theorem one_line_refuted {E : Env} plain : ~ (forall t fid a p, cli_main t fid a = Ok [p] -> one_line_result p = true ->
  exists s, stdout plain (fst (cli_io t fid a)) = s ++ nl /\ one_line s).
Proof.
  intros H. destruct (H (Some PSystemfile) None [] (PrFile ([], 0%nat) (FOther [])) ltac:(destruct E as [[] [] []]; reflexivity) eq_refl) as (s & Hs & Ho).
  assert (X : stdout plain (fst (cli_io (Some PSystemfile) None [])) = "value Other([]), reader.bits_read 0  ([], 0)" ++ nl ++ "(([], 0), Other([]))" ++ nl)
    by (destruct E as [[] [] []]; reflexivity).
  rewrite X in Hs. rewrite <- !sapp_assoc in Hs. apply cancel_r in Hs. subst s.
  destruct (Ho "010"%char) as [K _]; [|cbn in K; lia]. rewrite !list_app, !in_app_iff. left. right. left. reflexivity.
Qed.
Lemma first_line {E : Env} t fid d p : results (tool_lines t fid d) = [p] ->
  if is_frame p then tool_lines t fid d = [LnShown p]
  else exists v n x off k, tool_lines t fid d = LnRead v n x off :: k /\ (k <> []).
Proof.
  assert (F1 : forall r, results (frame_lines d) = p :: r -> frame_lines d = [LnShown p] /\ is_frame p = true).
  { unfold frame_lines. destruct (fframe_try_from d); intros r H; try discriminate. injection H as <- _. auto. }
  assert (F2 : forall r, results (background_lines d) = p :: r -> background_lines d = [LnShown p] /\ is_frame p = true).
  { unfold background_lines. destruct (bframe_try_from d); intros r H; try discriminate. injection H as <- _. auto. }
  assert (C : forall r, results (command_lines d) = p :: r -> is_frame p = false /\ exists v n x off k, command_lines d = LnRead v n x off :: k /\ k <> []).
  { unfold command_lines. intros r. rewrite results_app, results_written. destruct (command_try_from d) as [c| |] eqn:Ec; try discriminate.
    intros H. injection H as <- _. split; [reflexivity|]. destruct (command_same d c Ec) as (n & ->). cbn [written app].
    do 5 eexists. split; [reflexivity|discriminate]. }
  assert (G : forall r, results (any_file_lines d) = p :: r -> is_frame p = false /\ exists v n x off k, any_file_lines d = LnRead v n x off :: k /\ k <> []).
  { unfold any_file_lines. destruct (Nat.leb 8 (List.length d)); intros r H; injection H as <- _; (split; [reflexivity|]);
      do 5 eexists; (split; [reflexivity|discriminate]). }
  intros H. destruct t as [[]|]; cbn [tool_lines] in *.
  - destruct (F1 _ H) as [-> ->]. reflexivity.
  - destruct (F2 _ H) as [-> ->]. reflexivity.
  - destruct (C _ H) as [-> X]. exact X.
  - discriminate.
  - destruct fid as [i|]; [|destruct (G _ H) as [-> X]; exact X].
    unfold file_lines in *. destruct (file_id_try_from i) as [id| |]; try discriminate.
    rewrite results_app, results_written in H. unfold file_from_bytes, d_from_reader in *. rewrite u_from_bytes_0 in *.
    rewrite start_0. destruct (read_file id 0 (new_reader d)) as [[f r]| |]; try discriminate. injection H as <-.
    cbn [rbind written app fst snd is_frame]. do 5 eexists. split; [reflexivity|discriminate].
  - unfold any_lines in *. destruct (results (frame_lines d)) as [|q r] eqn:R1.
    + destruct (results (background_lines d)) as [|q r] eqn:R2.
      * destruct (results (command_lines d)) as [|q r] eqn:R3.
        -- rewrite results_app, R3 in H. destruct (G _ H) as [-> (v & n & x & off & k & -> & K)].
           destruct (command_lines d) as [|[w m y o|q] l]; cbn [app results] in *; try discriminate; do 5 eexists; (split; [reflexivity|]).
           ++ exact K.
           ++ destruct l; discriminate.
        -- rewrite R3 in H. destruct (C _ H) as [-> X]. exact X.
      * rewrite R2 in H. destruct (F2 _ H) as [-> ->]. reflexivity.
    + rewrite R1 in H. destruct (F1 _ H) as [-> ->]. reflexivity.
Qed.
Lemma nl_not_one_line a b : b <> "" -> forall s, a ++ nl ++ b = s ++ nl -> ~ one_line s.
Proof.
  intros Hb s H Ho.
  assert (X : exists b', a ++ nl ++ b' = s).
  { revert s H Ho. induction a as [|c a IH]; intros s H Ho; cbn [append] in H.
    - destruct s as [|x s]; cbn [append] in H.
      + injection H as H. destruct b; [destruct Hb; reflexivity|discriminate].
      + injection H as Hx H. subst x. destruct b as [|y b]; [destruct Hb; reflexivity|]. exists s. reflexivity.
    - destruct s as [|x s]; cbn [append] in H.
      + exfalso. injection H as _ H. destruct a; discriminate.
      + injection H as Hx H. subst x. destruct (IH s H) as (b' & X); [|exists b'; rewrite <- X; reflexivity].
        intros z Hz. apply Ho. right. exact Hz. }
  destruct X as (b' & <-). destruct (Ho "010"%char) as [K _]; [|cbn in K; lia].
  rewrite !list_app, !in_app_iff. right. left. left. reflexivity.
Qed.
Theorem one_line_exact {E : Env} plain t fid a p : (forall i, fid = Some i -> (i < 256)%N) -> cli_main t fid a = Ok [p] ->
  ((exists s, stdout plain (fst (cli_io t fid a)) = s ++ nl /\ one_line s) <-> is_frame p = true).
Proof.
  intros F H.
  destruct (hex_decode (remove_whitespace a)) as [bs|] eqn:Hd; [|unfold cli_main in H; rewrite Hd in H; discriminate].
  apply decode_spells in Hd. pose proof (shape_cli t fid a F) as S. rewrite cli_agrees in H.
  rewrite (tool_lines_exact t fid a bs Hd) in *. destruct (snd (cli_io t fid a)); try discriminate. injection H as H.
  pose proof (first_line t fid bs p H) as L. destruct (is_frame p) eqn:Fp.
  - split; [reflexivity|intros _]. rewrite L in *. cbn [stdout line_text]. rewrite sapp_nil. inversion S as [| |x y Rp Q]; subst.
    destruct p as [f|f|c|r f]; try discriminate; (eexists; split; [reflexivity|]); apply good_one_line; [apply good_fframe, Rp|apply good_bframe].
  - destruct L as (v & n & x & off & k & L & K). rewrite L in *. cbn [stdout]. rewrite line_read, sapp_assoc.
    split; [|discriminate]. intros (s & Hs & Ho). exfalso. eapply nl_not_one_line; [|exact Hs|exact Ho].
    inversion S; subst. destruct k as [|y k]; [destruct K; reflexivity|]. cbn [stdout].
    match goal with Z : shape _ (y :: k) |- _ => inversion Z; subst end.
    + rewrite line_read. discriminate.
    + cbn [line_text]. destruct (shown_not_v plain p0 (stdout plain [])) as (c & u & Q & _). rewrite Q. discriminate.
Qed.
Theorem same_results_refuted {E : Env} plain :
  ~ (forall t fid a b l, cli_main t fid a = Ok l -> cli_main t fid b = Ok l ->
     stdout plain (fst (cli_io t fid a)) = stdout plain (fst (cli_io t fid b))).
Proof.
  intros H.
  set (txt s := map N_of_ascii (list_ascii_of_string s)).
  pose (f c := match cli_main (Some PAlp) None c with Ok l => l | _ => [] end).
  assert (A : cli_main (Some PAlp) None (txt "01040001") = Ok (f (txt "01040001"))) by (destruct E as [[] [] []]; reflexivity).
  assert (B : cli_main (Some PAlp) None (txt "0104400001") = Ok (f (txt "01040001"))) by (destruct E as [[] [] []]; reflexivity).
  specialize (H _ _ _ _ _ A B). revert H. clear. destruct E as [[] [] []]; vm_compute; discriminate.
Qed.
