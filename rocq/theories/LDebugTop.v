(** Lemmas for C68 to C70: the text of values, commands and tool output. *)
From Coq Require Import List NArith ZArith Bool Lia String Ascii DecimalString.
From Verif Require Import Base Deku Utils Types Physical Link Network Session Data Query
  Interface File Operation Action Command Display Frames Cli Debug WellFormed SpecAction SpecAccess SpecCli SpecDebug
  LReader LNice LNiceFile LNiceOps LCommandApi LFrames LText LAccess LDebug LReturn LFiles LCli LActionApi LLayout LReturn .
Import ListNotations.
Open Scope string_scope.

(** ** Text of one value *)
Lemma text_inj plain {A} (d : A -> dv) (real : A -> Prop) :
  (forall a b, real a -> real b -> d a = d b -> a = b) -> (forall a, real a -> good (d a)) ->
  forall a b, real a -> real b -> show_dv plain (d a) = show_dv plain (d b) -> a = b.
Proof. intros I G a b Ra Rb H. apply I; auto. eapply show_inj; eauto. Qed.
Lemma visible_one_line s : all visible s = true -> one_line s.
Proof.
  induction s as [|c s IH]; cbn [all]; [intros _ c []|].
  intros H. apply andb_prop in H as [H1 H2]. intros x [<-|Hx]; [|exact (IH H2 x Hx)].
  unfold visible in H1. clear -H1. destruct c as [[] [] [] [] [] [] [] []]; cbn in *; try discriminate; split; lia.
Qed.
Lemma good_one_line plain v : good v -> one_line (show_dv plain v).
Proof. intros G. apply visible_one_line, good_visible, G. Qed.

(** ** Strings *)
Lemma list_app a b : list_ascii_of_string (a ++ b) = (list_ascii_of_string a ++ list_ascii_of_string b)%list.
Proof. induction a as [|c a IH]; cbn; [reflexivity|]. f_equal. exact IH. Qed.
Lemma cancel_r a b c : a ++ c = b ++ c -> a = b.
Proof.
  intros H. apply (f_equal list_ascii_of_string) in H. rewrite !list_app in H. apply app_inv_tail in H.
  apply (f_equal string_of_list_ascii) in H. rewrite !string_of_list_ascii_of_string in H. exact H.
Qed.
Lemma show_N_dv plain n : show_N n = show_dv plain (d_n n).
Proof. unfold d_n. cbn. unfold show_Z, show_N. destruct n; reflexivity. Qed.
Lemma show_bool_dv plain b : show_bool b = show_dv plain (d_bool b).
Proof. destruct b; reflexivity. Qed.
(** ** Display of an interface status *)
Ltac peel plain G H :=
  apply (good_told plain _ G) in H; [destruct H as [?F H]|auto with dbg|cbn; auto|cbn; auto].
Lemma status_shown {E : Env} plain s t : real_interface_status s -> real_interface_status t ->
  show_interface_status (derived plain) s = show_interface_status (derived plain) t
  <-> without_rounding s = without_rounding t.
Proof.
  intros Rs Rt. split.
  - intros H. destruct s as [| |a|l], t as [| |b|k]; try reflexivity; try discriminate.
    + cbn [show_interface_status] in H. unfold show_dash7_status in H. cbn [derived dbg_channel dbg_addressee] in H.
      rewrite !(show_N_dv plain), !(show_bool_dv plain) in H. rewrite ?sapp_assoc in H.
      Ltac lit H := apply sapp_cancel in H.
      do 2 lit H.
      peel plain (good_channel (ds_channel a)) H. do 2 lit H.
      peel plain (good_n (ds_rx_level a)) H. do 2 lit H.
      peel plain (good_n (ds_link_budget a)) H. do 2 lit H.
      peel plain (good_n (ds_target_rx_level a)) H. do 2 lit H.
      peel plain (good_bool (ds_nls a)) H. do 2 lit H.
      peel plain (good_bool (ds_missed a)) H. do 2 lit H.
      peel plain (good_bool (ds_retry a)) H. do 2 lit H.
      peel plain (good_bool (ds_unicast a)) H. do 2 lit H.
      peel plain (good_n (ds_fifo_token a)) H. do 2 lit H.
      peel plain (good_n (ds_seq a)) H. do 2 lit H.
      peel plain (good_n (vi_value (ds_timeout a))) H. do 2 lit H.
      peel plain (good_addressee (ds_addressee a)) H.
      apply d_channel_inj in F. apply d_n_inj in F0, F1, F2, F7, F8, F9. apply d_bool_inj in F3, F4, F5, F6.
      apply d_addressee_inj in F10; [|exact Rs|exact Rt].
      cbn [without_rounding]. congruence.
    + cbn [show_interface_status derived dbg_bytes] in H. apply sapp_cancel in H.
      peel plain (good_bytes l) H. apply d_bytes_inj in F. subst. reflexivity.
  - intros H. destruct s as [| |a|l], t as [| |b|k]; cbn [without_rounding] in H; try discriminate; try congruence.
    injection H. intros. cbn [show_interface_status]. unfold show_dash7_status.
    cbn [derived dbg_channel dbg_addressee]. congruence.
Qed.

(** ** Display of a command *)
Lemma action_lines_told {E : Env} plain c : Forall real_action c -> forall d r s, Forall real_action d ->
  starts (fun x => negb (Ascii.eqb x "009")) r -> starts (fun x => negb (Ascii.eqb x "009")) s ->
  action_lines (derived plain) c ++ r = action_lines (derived plain) d ++ s -> c = d /\ r = s.
Proof.
  induction c as [|a c IH]; intros Rc d r s Rd Sr Ss H.
  - destruct d as [|b d]; [auto|]. cbn in H. subst r. cbn in Sr. discriminate.
  - apply Forall_cons_iff in Rc as [Ra Rc]. destruct d as [|b d].
    { cbn in H. subst s. cbn in Ss. discriminate. }
    apply Forall_cons_iff in Rd as [Rb Rd]. cbn [action_lines] in H. unfold action_line in H.
    cbn [derived dbg_action] in H. rewrite !sapp_assoc in H. do 2 apply sapp_cancel in H.
    apply (good_told plain _ (good_action a Ra)) in H; [|apply good_action, Rb|cbn; auto 8|cbn; auto 8].
    destruct H as [F H]. apply d_action_inj in F; [|exact Ra|exact Rb]. subst b. apply sapp_cancel in H.
    apply IH in H; auto. destruct H as [-> ->]. auto.
Qed.
Definition body {E : Env} plain acts st : string :=
  match acts, st with
  | [], None => ""
  | [], Some s => tab ++ "interface status: " ++ show_interface_status (derived plain) s ++ nl
  | _, None => nl ++ tab ++ "actions:" ++ nl ++ action_lines (derived plain) acts
  | _, Some s => nl ++ tab ++ "actions:" ++ nl ++ action_lines (derived plain) acts
                 ++ nl ++ tab ++ "interface status: " ++ show_interface_status (derived plain) s ++ nl
  end.
Definition real_opt_status {E : Env} (o : option interface_status) : Prop :=
  match o with Some s => real_interface_status s | None => True end.
Definition last_line {E : Env} plain (st : option interface_status) : string :=
  match st with
  | None => ""
  | Some s => nl ++ tab ++ "interface status: " ++ show_interface_status (derived plain) s ++ nl
  end.
Lemma body_cons {E : Env} plain a c st :
  body plain (a :: c) st = nl ++ tab ++ "actions:" ++ nl ++ action_lines (derived plain) (a :: c) ++ last_line plain st.
Proof. destruct st; cbn [body last_line]; [reflexivity|]. rewrite sapp_nil. reflexivity. Qed.
Lemma body_told {E : Env} plain c s d t : Forall real_action c -> Forall real_action d ->
  real_opt_status s -> real_opt_status t ->
  body plain c s = body plain d t ->
  c = d /\ option_map without_rounding s = option_map without_rounding t.
Proof.
  intros Rc Rd Rs Rt H.
  destruct c as [|a c], d as [|b d].
  - split; [reflexivity|]. destruct s as [s|], t as [t|]; cbn [body] in H; try discriminate; [|reflexivity].
    do 2 apply sapp_cancel in H. apply cancel_r in H. apply status_shown in H; try assumption.
    cbn [option_map]. f_equal. exact H.
  - rewrite body_cons in H. destruct s; discriminate H.
  - rewrite body_cons in H. destruct t; discriminate H.
  - rewrite !body_cons in H. do 4 apply sapp_cancel in H.
    apply action_lines_told in H; [|assumption|assumption|destruct s; reflexivity|destruct t; reflexivity].
    destruct H as [F H]. split; [exact F|].
    destruct s as [s|], t as [t|]; cbn [last_line] in H; try discriminate; [|reflexivity].
    do 3 apply sapp_cancel in H. apply cancel_r in H. apply status_shown in H; try assumption.
    cbn [option_map]. f_equal. exact H.
Qed.

Definition head tag resp : string :=
  match tag with None => "" | Some i => "with tag " ++ show_N i ++ " " end ++ "(" ++ completion resp.
Lemma printed_split {E : Env} plain tag resp acts st :
  SpecAccess.printed (derived plain) tag resp acts st = "Command " ++ head tag resp ++ ")" ++ body plain acts st.
Proof. unfold SpecAccess.printed, head, body. rewrite ?sapp_assoc. reflexivity. Qed.
Lemma head_plain tag resp : all (fun c => negb (Ascii.eqb c ")")) (head tag resp) = true.
Proof.
  unfold head. rewrite !all_app. apply andb_true_intro. split.
  - destruct tag as [i|]; [|reflexivity]. rewrite !all_app. apply andb_true_intro. split; [reflexivity|].
    rewrite andb_true_r. eapply all_impl; [|apply uint0_digits]. intros c Hc.
    destruct (Ascii.eqb_spec c ")"); [subst; discriminate|reflexivity].
  - destruct resp as [[[] [] ? ?]|]; reflexivity.
Qed.
Lemma listed_in c a : In a c -> In a (listed c) \/ exists s, status_of a = Some s.
Proof.
  intros H. destruct (status_of a) as [s|] eqn:Es; [right; exists s; reflexivity|left].
  apply filter_In. rewrite Es. auto.
Qed.
Lemma listed_real {E : Env} c : Forall real_action c -> Forall real_action (listed c).
Proof. rewrite !Forall_forall. intros H a Ha. apply filter_In in Ha as [Ha _]. auto. Qed.
Lemma status_real {E : Env} c s : Forall real_action c -> first_is status_of c s -> real_opt_status s.
Proof.
  intros R F. destruct s as [s|]; cbn; [|exact I]. cbn [first_is] in F.
  destruct F as (pre & a & post & -> & Hs & _). apply Forall_app in R as [_ R]. apply Forall_cons_iff in R as [R _].
  destruct a; cbn in Hs; try discriminate. destruct v as [ty op [x|[tt st]|x]]; cbn in *; try discriminate.
  injection Hs as <-. exact R.
Qed.
(** The tags are among the listed actions. *)
Lemma listed_request c : request_tag_of (listed c) = request_tag_of c.
Proof.
  induction c as [|a c IH]; [reflexivity|]. unfold listed in *. cbn [filter].
  destruct a; cbn [status_of request_tag_of]; try exact IH; try reflexivity.
  destruct v as [ty op [x|[tt st]|x]]; exact IH.
Qed.
Lemma listed_response c : response_tag_of (listed c) = response_tag_of c.
Proof.
  induction c as [|a c IH]; [reflexivity|]. unfold listed in *. cbn [filter].
  destruct a; cbn [status_of response_tag_of]; try exact IH; try reflexivity.
  destruct v as [ty op [x|[tt st]|x]]; exact IH.
Qed.
Theorem command_shown {E : Env} plain c d : Forall real_action c -> Forall real_action d ->
  show_command (derived plain) c = show_command (derived plain) d <-> shown_alike c d.
Proof.
  intros Rc Rd.
  assert (X : forall c, exists q p s, first_is request_of c q /\ first_is response_of c p /\ first_is status_of c s).
  { clear. intros c. exists (request_tag_of c), (response_tag_of c), (interface_status_of c).
    split; [|split]; [apply request_first|apply response_first|apply status_first]; reflexivity. }
  destruct (X c) as (q & p & s & Hq & Hp & Hs). destruct (X d) as (q' & p' & t & Hq' & Hp' & Ht).
  rewrite (LAccess.show _ c q p s Hq Hp Hs), (LAccess.show _ d q' p' t Hq' Hp' Ht), !printed_split.
  change (filter _ c) with (listed c). change (filter _ d) with (listed d).
  pose proof (status_real c s Rc Hs) as Rs. pose proof (status_real d t Rd Ht) as Rt.
  split.
  - intros H. apply sapp_cancel in H.
    apply (run_split (fun x => negb (Ascii.eqb x ")"))) in H; [|apply head_plain|apply head_plain|reflexivity|reflexivity].
    destruct H as [_ H]. apply sapp_cancel in H. apply body_told in H; auto using listed_real.
    destruct H as [Hl Hst]. split; [exact Hl|]. exists s, t. auto.
  - intros [Hl (s' & t' & Hs' & Ht' & Hst)].
    assert (s' = s) as -> by (apply status_first in Hs, Hs'; congruence).
    assert (t' = t) as -> by (apply status_first in Ht, Ht'; congruence).
    assert (q' = q) as ->.
    { apply request_first in Hq, Hq'. rewrite <- Hq, <- Hq', <- (listed_request c), <- (listed_request d), Hl. reflexivity. }
    assert (p' = p) as ->.
    { apply response_first in Hp, Hp'. rewrite <- Hp, <- Hp', <- (listed_response c), <- (listed_response d), Hl. reflexivity. }
    rewrite Hl. do 3 f_equal.
    assert (Eq : match s, t with Some a, Some b => show_interface_status (derived plain) a = show_interface_status (derived plain) b
                 | None, None => True | _, _ => False end).
    { destruct s as [s|], t as [t|]; cbn [option_map] in Hst; try discriminate; [|exact I].
      apply status_shown; auto. congruence. }
    unfold body. destruct (listed d), s as [s|], t as [t|]; try contradiction; try reflexivity; rewrite Eq; reflexivity.
Qed.

(** ** Everything the parsers return is real *)
Lemma wf_real_addressee {E : Env} a : wf_addressee a -> real_addressee a.
Proof. intros [[H|H] _]; unfold real_addressee; [rewrite H; exact I|]. destruct e_feat; auto. Qed.
Lemma wf_real_file b f : wf_file b f -> real_file f.
Proof. destruct f; cbn; try (intros; exact I). - intros (H & _). exact H. - intros (_ & _ & _ & H & _ & K & _). split; assumption. Qed.
Lemma wf_real {E : Env} a : wf_action a -> real_action a.
Proof.
  destruct a; cbn [wf_action real_action]; try (intros; exact I); try contradiction.
  1-3: intros (_ & _ & H); eapply wf_real_file, H.
  - intros (_ & H). destruct (so_type v), (so_status v) as [x|i|x]; try contradiction; try exact I.
    unfold wf_itf_status_op in H. destruct (iso_type i), (iso_status i); try contradiction; try exact I.
    apply wf_real_addressee, H.
  - intros (_ & H). destruct (fw_config v); cbn in *; try exact I. split; [|apply wf_real_addressee, H].
    destruct H as (_ & _ & H & _). destruct e_feat; auto.
  - intros (_ & H). destruct (if_overloaded v), (if_config v) as [[]|]; try contradiction; try exact I.
    apply wf_real_addressee, H.
Qed.
Lemma parsed_real {E : Env} a : parsed_action a -> real_action a.
Proof.
  intros [H|[(l & -> & _)|(_ & v & -> & _ & _ & H)]]; [apply wf_real, H|exact I|].
  cbn. unfold real_tx_status. destruct (txo_status v); [|exact I]. apply wf_real_addressee, H.
Qed.
Lemma opcode_real {E : Env} o a : real_action (with_opcode o a) -> real_action a.
Proof. destruct a; exact (fun H => H). Qed.
Lemma action_real {E : Env} r a r' : RWf r -> read_action r = Ok (a, r') -> real_action a.
Proof.
  intros Hr H. pose proof (Nice_action r Hr) as N8. rewrite H in N8. destruct N8 as (P & _).
  apply parsed_real in P. destruct (is_tx_status a); [exact P|]. eapply opcode_real, P.
Qed.
Lemma actions_real {E : Env} fuel : forall len acc r c r', RWf r -> Forall real_action acc ->
  read_actions fuel len acc r = Ok (c, r') -> Forall real_action c.
Proof.
  induction fuel as [|fuel IH]; intros len acc r c r' Hr Ha H; [discriminate|].
  cbn [read_actions] in H. unfold bind in H.
  assert (exists ok r1, valid_length len r = Ok (ok, r1) /\ RWf r1) as (ok & r1 & E1 & Hr1).
  { unfold valid_length. destruct (len =? 0)%N.
    - do 2 eexists. split; [reflexivity|exact Hr].
    - unfold bind, stream_position, ret. do 2 eexists. split; [reflexivity|].
      destruct Hr as (R1 & R2 & R3). unfold RWf. cbn [data pos left List.length]. repeat split; lia. }
  rewrite E1 in H. destruct ok; [|injection H as <- _; exact Ha].
  destruct (at_end_spec r1 Hr1) as (e & r2 & E2 & Hr2 & _). rewrite E2 in H.
  destruct e; [injection H as <- _; exact Ha|].
  destruct (last_is_indirect acc) eqn:Hl; [injection H as <- _; exact Ha|].
  destruct (read_action r2) as [[a r3]|er|] eqn:Ea; try discriminate.
  pose proof (Nice_action r2 Hr2) as N8. rewrite Ea in N8. destruct N8 as (_ & Hr3 & _).
  eapply IH; [exact Hr3| |exact H]. rewrite Forall_app. split; [exact Ha|].
  constructor; [|constructor]. eapply action_real; [exact Hr2|exact Ea].
Qed.
Lemma command_real {E : Env} d c : command_try_from d = Ok c -> Forall real_action c.
Proof.
  unfold command_try_from. rewrite u_try_from_eq. intros H.
  destruct (read_command 0 (new_reader d)) as [[x r]|e|] eqn:Er; try discriminate.
  assert (x = c) as -> by (destruct (Nat.leb (List.length d) (bread r / 8)) in H; congruence).
  eapply actions_real; [apply new_RWf| |exact Er]. constructor.
Qed.
Lemma fframe_real {E : Env} d f : fframe_try_from d = Ok f -> real_frame f.
Proof.
  unfold fframe_try_from. rewrite d_try_from_eq, read_fframe_eq. unfold bind, ret. intros H.
  pose proof (Nice_head (new_reader d) (new_RWf d)) as N8.
  destruct (read_head (new_reader d)) as [[h r]|e|]; try discriminate. destruct N8 as (_ & Hr & _).
  destruct (read_command (ff_length h) r) as [[m r1]|e|] eqn:Er; try discriminate.
  destruct (read_native 2 r1) as [[n r2]|e|]; try discriminate.
  assert (with_body h m n = f) as <- by (destruct (Nat.eqb _ _) in H; congruence).
  unfold real_frame. cbn. eapply actions_real; [exact Hr| |exact Er]. constructor.
Qed.
Lemma file_real {E : Env} d i id x : (i < 256)%N -> file_id_try_from i = Ok id -> file_from_bytes d 0 id 0 = Ok x -> real_file (snd x).
Proof.
  intros Hi Hid H. rewrite file_id_try_from_ok in Hid by exact Hi. injection Hid as <-.
  unfold file_from_bytes in H. rewrite u_from_bytes_0 in H.
  assert (W0 : wf_length 0) by reflexivity. pose proof (Nice_file i 0 Hi W0 (new_reader d) (new_RWf d)) as HN.
  destruct (read_file (file_id_of i) 0 (new_reader d)) as [[v r]|e|]; try discriminate.
  injection H as <-. cbn [snd]. eapply wf_real_file, HN.
Qed.

(** ** What the tool prints *)
Definition real_printed {E : Env} (p : Cli.printed) : Prop :=
  match p with
  | PrFrame f => real_frame f
  | PrBackground _ => True
  | PrCommand c => Forall real_action c
  | PrFile _ f => real_file f
  end.
Lemma Ok_inj {A} (a b : A) : Ok a = Ok b -> b = a.
Proof. congruence. Qed.
Lemma cli_real {E : Env} t fid s l : (forall i, fid = Some i -> (i < 256)%N) -> cli_main t fid s = Ok l ->
  exists p, l = [p] /\ real_printed p.
Proof.
  intros Hf H.
  assert (Hs : exists bs, spells s bs).
  { unfold cli_main in H. destruct (hex_decode (remove_whitespace s)) as [bs|] eqn:Hd; [|discriminate].
    exists bs. apply decode_spells. exact Hd. }
  destruct Hs as [bs Hs].
  destruct (cli_typed fid s bs Hs) as (T1 & T2 & T3 & T4 & T5).
  destruct t as [[]|].
  - rewrite T1 in H. destruct (fframe_try_from bs) eqn:Er; try discriminate. injection H as <-.
    eexists. split; [reflexivity|]. eapply fframe_real, Er.
  - rewrite T2 in H. destruct (bframe_try_from bs) eqn:Er; try discriminate. injection H as <-.
    eexists. split; [reflexivity|]. exact I.
  - rewrite T3 in H. destruct (command_try_from bs) eqn:Er; try discriminate. injection H as <-.
    eexists. split; [reflexivity|]. eapply command_real, Er.
  - rewrite T4 in H. discriminate.
  - destruct fid as [i|].
    + rewrite T5 in H. destruct (file_id_try_from i) as [id| |] eqn:Ei; try discriminate.
      destruct (file_from_bytes bs 0 id 0) as [[rest f]| |] eqn:Er; try discriminate. injection H as <-.
      eexists. split; [reflexivity|]. exact (file_real bs i id _ (Hf i eq_refl) Ei Er).
    + rewrite (systemfile_exact s bs Hs) in H. apply Ok_inj in H. subst l. eexists. split; [reflexivity|].
      destruct (Nat.leb 8 (List.length bs)); exact I.
  - rewrite (any_exact fid s bs Hs) in H. apply Ok_inj in H. subst l. eexists. split; [reflexivity|].
    destruct (fframe_try_from bs) eqn:E1; [eapply fframe_real, E1| |].
    all: destruct (bframe_try_from bs); [exact I| |].
    all: destruct (command_try_from bs) eqn:E2; [eapply command_real, E2| |].
    all: destruct (Nat.leb 8 (List.length bs)); exact I.
Qed.
Lemma d_parsed_file_inj r f q g : real_file f -> real_file g -> d_parsed_file r f = d_parsed_file q g -> r = q /\ f = g.
Proof.
  intros Rf Rg H. unfold d_parsed_file in H. injection H as H1 H2 H3.
  apply d_file_inj in H3; [|exact Rf|exact Rg]. split; [|exact H3].
  destruct r, q. cbn in *. f_equal; [apply d_bytes_inj; unfold d_bytes; rewrite H1; reflexivity|apply Nat2Z.inj; exact H2].
Qed.
Lemma good_parsed_file r f : real_file f -> good (d_parsed_file r f).
Proof.
  intros R. unfold d_parsed_file. apply g_tuple; [left; reflexivity|discriminate|].
  constructor; [|constructor; [apply good_file, R|constructor]].
  apply g_tuple; [left; reflexivity|discriminate|]. constructor; [apply good_bytes|]. repeat constructor.
Qed.
Lemma printed_same {E : Env} plain p q : real_printed p -> real_printed q ->
  printed_text plain p = printed_text plain q <-> printed_alike p q.
Proof.
  intros Rp Rq. split.
  - intros H. unfold printed_text in H. apply cancel_r in H.
    destruct p as [f|f|c|r f], q as [g|g|d|q g]; cbn [real_printed printed_alike] in *.
    all: try (discriminate H).
    + f_equal. revert H. apply (text_inj plain d_fframe real_frame); auto using d_fframe_inj, good_fframe.
    + f_equal. revert H. apply (text_inj plain d_bframe (fun _ => True)); auto using d_bframe_inj, good_bframe.
    + apply command_shown in H; assumption.
    + apply show_inj in H; [|apply good_parsed_file; assumption|apply good_parsed_file; assumption].
      apply d_parsed_file_inj in H; [|assumption|assumption]. destruct H as [-> ->]. reflexivity.
  - destruct p as [f|f|c|r f], q as [g|g|d|q g]; cbn [printed_alike]; try contradiction; try congruence.
    intros H. unfold printed_text. rewrite (proj2 (command_shown plain c d Rp Rq) H). reflexivity.
Qed.
(** ** No control characters *)
Lemma plain_app a b : plain_text a -> plain_text b -> plain_text (a ++ b).
Proof. intros A B c. rewrite list_app, in_app_iff. intros [H|H]; auto. Qed.
Lemma one_line_plain s : one_line s -> plain_text s.
Proof. intros H c Hc. left. apply H, Hc. Qed.
Definition plain_char (c : ascii) : bool := (visible c || Ascii.eqb c "009" || Ascii.eqb c "010")%bool.
Lemma all_plain s : all plain_char s = true <-> plain_text s.
Proof.
  assert (X : forall c, plain_char c = true <-> (32 <= N_of_ascii c /\ N_of_ascii c <> 127)%N \/ N_of_ascii c = 9%N \/ N_of_ascii c = 10%N).
  { intros [[] [] [] [] [] [] [] []]; cbn; split; intros; try reflexivity; try discriminate; lia. }
  induction s as [|c s IH]; cbn [all].
  - split; [intros _ c []|reflexivity].
  - rewrite andb_true_iff, X, IH. unfold plain_text. cbn. split; [intros [A B] x [<-|Hx]; auto|intros H; split; auto].
Qed.
Ltac plain_lit := apply all_plain; reflexivity.
Lemma plain_dv plain v : good v -> plain_text (show_dv plain v).
Proof. intros G. apply one_line_plain, good_one_line, G. Qed.
Lemma plain_status {E : Env} plain s : plain_text (show_interface_status (derived plain) s).
Proof.
  destruct s as [| |d|l].
  - plain_lit.
  - plain_lit.
  - cbn [show_interface_status]. unfold show_dash7_status. cbn [derived dbg_channel dbg_addressee].
    rewrite !(show_N_dv plain), !(show_bool_dv plain).
    repeat (apply plain_app; [first [plain_lit|apply plain_dv; auto with dbg]|]). plain_lit.
  - cbn [show_interface_status derived dbg_bytes]. apply plain_app; [plain_lit|]. apply plain_app; [|plain_lit].
    apply plain_dv; auto with dbg.
Qed.
Lemma plain_lines {E : Env} plain c : Forall real_action c -> plain_text (action_lines (derived plain) c).
Proof.
  induction 1 as [|a c Ra Rc IH]; [plain_lit|]. cbn [action_lines]. apply plain_app; [|exact IH].
  unfold action_line. do 2 (apply plain_app; [plain_lit|]). apply plain_app; [|plain_lit].
  apply plain_dv, good_action, Ra.
Qed.
Lemma plain_command {E : Env} plain c : Forall real_action c -> plain_text (show_command (derived plain) c).
Proof.
  intros R.
  rewrite (LAccess.show _ c (request_tag_of c) (response_tag_of c) (interface_status_of c));
    [|apply request_first; reflexivity|apply response_first; reflexivity|apply status_first; reflexivity].
  rewrite printed_split. apply plain_app; [plain_lit|].
  assert (L : plain_text (action_lines (derived plain) (listed c))) by (apply plain_lines, listed_real, R).
  change (filter _ c) with (listed c).
  apply plain_app.
  - unfold head. apply plain_app.
    + destruct (match request_tag_of c with Some _ => _ | None => _ end); [|plain_lit].
      rewrite (show_N_dv plain). apply plain_app; [plain_lit|]. apply plain_app; [|plain_lit]. apply plain_dv; auto with dbg.
    + destruct (response_tag_of c) as [[[] [] ? ?]|]; plain_lit.
  - apply plain_app; [plain_lit|]. pose proof (plain_status plain) as St. unfold body.
    destruct (listed c), (interface_status_of c);
      repeat (apply plain_app; [first [plain_lit|apply St|exact L]|]); try plain_lit; try exact L.
Qed.
Lemma plain_printed {E : Env} plain p : real_printed p -> plain_text (printed_text plain p).
Proof.
  intros Rp. unfold printed_text. apply plain_app; [|plain_lit]. destruct p as [f|f|c|r f]; cbn [real_printed] in Rp.
  - apply plain_dv, good_fframe, Rp.
  - apply plain_dv, good_bframe.
  - apply plain_command, Rp.
  - apply plain_dv, good_parsed_file, Rp.
Qed.

(** ** C68 *)
Lemma dv_faithful plain {A} (d : A -> dv) (real : A -> Prop) :
  (forall a b, real a -> real b -> d a = d b -> a = b) -> (forall a, real a -> good (d a)) ->
  faithful (fun a => show_dv plain (d a)) real.
Proof. intros I G. split; [eapply text_inj; eauto|]. intros a Ra. apply good_one_line, G, Ra. Qed.
Lemma dv_always plain {A} (d : A -> dv) :
  (forall a b, d a = d b -> a = b) -> (forall a, good (d a)) -> faithful (fun a => show_dv plain (d a)) always.
Proof. intros I G. apply dv_faithful; auto. Qed.
Theorem debug_faithful {E : Env} plain :
  let text {A} (d : A -> dv) (a : A) := show_dv plain (d a) in
  faithful (text d_fframe) real_frame /\ faithful (text d_bframe) always /\
  faithful (text d_command) (Forall real_action) /\ faithful (text d_action) real_action /\
  faithful (text d_file) real_file /\ faithful (text d_file_header) always /\
  faithful (text d_query) always /\ faithful (text d_interface_config) real_interface_config /\
  faithful (text d_indirect_interface) real_indirect /\
  faithful (text d_interface_status) real_interface_status /\
  faithful (text d_itf_tx_status) real_tx_status /\ faithful (text d_addressee) real_addressee /\
  faithful (text d_channel) always /\ faithful (text d_varint) always /\ faithful (text d_length) always.
Proof.
  cbv zeta.
  repeat match goal with |- _ /\ _ => split end.
  - apply dv_faithful; auto using d_fframe_inj, good_fframe.
  - apply dv_always; auto using d_bframe_inj, good_bframe.
  - apply dv_faithful; auto using d_command_inj, good_command.
  - apply dv_faithful; auto using d_action_inj, good_action.
  - apply dv_faithful; auto using d_file_inj, good_file.
  - apply dv_always; auto using d_file_header_inj, good_file_header.
  - apply dv_always; auto using d_query_inj, good_query.
  - apply dv_faithful; auto using d_interface_config_inj, good_interface_config.
  - apply dv_faithful; auto using d_indirect_interface_inj, good_indirect_interface.
  - apply dv_faithful; auto using d_interface_status_inj, good_interface_status.
  - apply dv_faithful; auto using d_itf_tx_status_inj, good_itf_tx_status.
  - apply dv_faithful; auto using d_addressee_inj, good_addressee.
  - apply dv_always; auto using d_channel_inj, good_channel.
  - apply dv_always; auto using d_varint_inj, good_varint.
  - apply dv_always; auto using d_length_inj, good_length.
Qed.
Theorem parsed_values_real {E : Env} d :
  (forall f, fframe_try_from d = Ok f -> real_frame f) /\
  (forall c, command_try_from d = Ok c -> Forall real_action c) /\
  (forall a, action_try_from d = Ok a -> real_action a) /\
  (forall i id x, (i < 256)%N -> file_id_try_from i = Ok id -> file_from_bytes d 0 id 0 = Ok x -> real_file (snd x)).
Proof.
  split; [apply fframe_real|]. split; [apply command_real|]. split; [|apply file_real].
  intros a H. unfold action_try_from in H. rewrite u_try_from_eq in H.
  destruct (read_action (new_reader d)) as [[x r]|e|] eqn:Er; try discriminate.
  assert (x = a) as -> by (destruct (Nat.leb (List.length d) (bread r / 8)) in H; congruence).
  eapply action_real; [apply new_RWf|exact Er].
Qed.

(** ** C69: commands that differ and print the same *)
Theorem command_shown_refuted {E : Env} plain : ~ (forall a b c d,
  command_try_from a = Ok c -> command_try_from b = Ok d ->
  show_command (derived plain) c = show_command (derived plain) d -> c = d).
Proof.
  intros H.
  set (nop := ANop (mkNop (mkHeader false false) 0)).
  set (st := AStatus (mkStatusOperand StInterface 34 (StatusInterface (mkItfStatusOp ItHost IsHost)))).
  specialize (H [0x00; 0x62; 0x00; 0x00]%N [0x62; 0x00; 0x00; 0x00]%N [nop; st] [st; nop]).
  discriminate H; [| |reflexivity]; destruct E as [[] [] []]; vm_compute; reflexivity.
Qed.
