(** How long the printed forms of parsed actions, commands and frames are, and what the tool prints. *)
From Coq Require Import List NArith ZArith Bool Lia ZifyBool ZifyNat ZifyN Arith String Ascii.
From Verif Require Import Base Deku Utils Types Physical Link Network Session Data Query
  Interface File Operation Action Command Frames Display Cli Debug Output Position WellFormed SpecLayout SpecAction SpecFail SpecDecode SpecFrames SpecGrow SpecJoin
  SpecFrameDecode SpecPosition LBits LReader LLayout LRound LRoundOps LAction LNumbers LNiceOps LNice LActionApi LFail LSize LCommandMore LFrames LFramesW
  LDecode LDecodeTx LDecodeLoop LDecodeFrame LJoin LFrameStream LPosition LGrow LFrameCanon LFrameCanonTop LFrameSize SpecCli SpecOutput LFiles LNiceFile LReturn LCli LOutput LDigits LWidth.
Import ListNotations.
Open Scope string_scope.
Open Scope nat_scope.

(** ** What an operand decodes to *)
Lemma operand_parsed {E : Env} op b l a rest : bytes (b :: l) -> (op < 64)%N -> dec_operand op (b :: l) = Some (a, rest) ->
  parsed_action (if is_tx_status a then a else with_opcode op a) /\ (stored_opcode a < 64)%N.
Proof.
  intros H Ho D. assert (R : RWf (at_byte (b :: l) 0 0)) by (apply at_byte_wf; cbn; lia).
  pose proof (OpAt_operand op (at_byte (b :: l) 0 0) Ho R eq_refl) as A. unfold OpAt in A. rewrite at_byte_view in A by exact H. cbn [skipn] in A.
  rewrite D in A. destruct A as (k & _ & _ & _ & A). unfold reader_of in A. destruct (assoc op action_readers) as [m|] eqn:Q; [|discriminate].
  apply assoc_In in Q. destruct (arms op m Q) as (_ & Nm). specialize (Nm b (at_byte (b :: l) 0 0) R eq_refl eq_refl). unfold NiceR in Nm. rewrite A in Nm.
  destruct Nm as ((_ & St & P) & _). split; [exact P|]. destruct (is_tx_status a) eqn:T.
  - destruct a; try discriminate T. destruct P as [P|[(x & P & _)|(_ & v' & P & P1 & _)]]; [contradiction|discriminate P|]. injection P as <-. exact P1.
  - rewrite St by reflexivity. apply N.mod_lt. discriminate.
Qed.

Section Text.
Context (plain : N -> bool).
Local Notation W := (W plain).

(** ** Actions *)
Definition cost {E : Env} (a : action) : nat := W (d_action a) + 3 + if tag a then 28 else 0.
Lemma operand_cost {E : Env} op b l a rest : bytes (b :: l) -> (op < 64)%N -> dec_operand op (b :: l) = Some (a, rest) ->
  bytes rest /\ W (d_action a) + 99 * List.length rest <= 99 * List.length (b :: l) + (if bare a then 47 else 0) /\
  W (d_action a) + (if tag a then 28 else 0) + 3 + 102 * List.length rest <= 102 * List.length (b :: l) + (if bare a then 47 else 0).
Proof.
  intros H Ho D. destruct (operand_parsed _ _ _ _ _ H Ho D) as (P & S). pose proof (w_action plain op a P S) as K.
  apply operand_size in D as (B & Z); [|exact H]. split; [exact B|].
  assert (1 <= size_of a - if swells a then 1 else 0).
  { destruct a; cbn [swells]; try (destruct (big_file _)); unfold size_of; try lia; unfold offset_size; lia. }
  destruct (swells a), (tag a), (bare a), (is_tx_status a); lia.
Qed.
Lemma action_width {E : Env} d p n a q : bytes d -> p <= List.length d -> from_stream read_action d p 0 = Ok (n, a, q) ->
  String.length (show_dv plain (d_action a)) <= 99 * (q - p) + 47.
Proof.
  intros Hd Hp H. pose proof (action_left d p Hd Hp) as A. destruct (dec_action (skipn p d)) as [[b rest]|] eqn:D.
  2:{ destruct A as (e & A). congruence. }
  destruct A as (L & A). rewrite A in H. injection H as _ <- <-.
  unfold dec_action in D. destruct (skipn p d) as [|x t] eqn:S; [discriminate|].
  assert (B : bytes (x :: t)) by (rewrite <- S; apply bytes_skipn; exact Hd).
  destruct (operand_cost _ _ _ _ _ B (part_lt 0 6 x) D) as (_ & K & _). rewrite <- S, skipn_length in K. fold (W (d_action b)). destruct (bare b); lia.
Qed.

(** ** Commands *)
Definition price {E : Env} (c : command) : nat := list_sum (map cost c).
Lemma bare_indirect a : bare a = true -> SpecDecode.is_indirect a = true.
Proof. destruct a; cbn; congruence. Qed.
Lemma actions_price {E : Env} f : forall p l c rest, bytes l -> dec_actions f p l = Some (c, rest) ->
  price c + 102 * List.length rest <= 102 * List.length l + 47.
Proof.
  induction f as [|f IH]; intros p l c rest H G; cbn [dec_actions] in G.
  - destruct l; [|discriminate]. destruct p; [discriminate|]. injection G as <- <-. cbn. lia.
  - destruct l as [|b l]; [destruct p; [discriminate|]; injection G as <- <-; cbn; lia|].
    destruct (dec_operand _ _) as [[a r]|] eqn:D; [|discriminate]. apply operand_cost in D as (D1 & _ & D2); [|exact H|destruct p; apply (part_lt _ 6)].
    destruct (SpecDecode.is_indirect a) eqn:I.
    + injection G as <- <-. unfold price, cost. cbn [map list_sum fold_right]. destruct (bare a); lia.
    + destruct (dec_actions f (is_tx a) r) as [[c' r']|] eqn:G'; [|discriminate]. injection G as <- <-. apply IH in G'; [|exact D1].
      assert (Q : bare a = false) by (destruct (bare a) eqn:Q; [apply bare_indirect in Q; congruence|reflexivity]). rewrite Q in D2.
      unfold price in *. cbn [map list_sum fold_right]. fold (list_sum (map cost c')). unfold cost at 1. lia.
Qed.

(** *** The Display of a command *)
Lemma shown_lines {E : Env} l : String.length (concat "" (map (fun a => tab ++ tab ++ dbg_action (derived plain) a ++ nl) l)) =
  list_sum (map (fun a => W (d_action a) + 3) l).
Proof.
  induction l as [|a l IH]; [reflexivity|]. destruct l as [|b l].
  - cbn [map concat list_sum fold_right]. rewrite !str_app. cbn [String.length tab nl dbg_action derived]. unfold LWidth.W. lia.
  - change (concat "" (map (fun a0 => tab ++ tab ++ dbg_action (derived plain) a0 ++ nl) (a :: b :: l)))
      with ((tab ++ tab ++ dbg_action (derived plain) a ++ nl) ++ "" ++ concat "" (map (fun a0 => tab ++ tab ++ dbg_action (derived plain) a0 ++ nl) (b :: l))).
    rewrite !str_app, IH. cbn [map list_sum fold_right String.length tab nl dbg_action derived]. unfold LWidth.W. lia.
Qed.
Lemma shown_status {E : Env} v i : so_status v = StatusInterface i ->
  String.length (show_interface_status (derived plain) (iso_status i)) + 21 <= W (d_action (AStatus v)) + 3.
Proof.
  intros H. cbn [d_action]. unfold d_status_operand, d_itf_status_op. rewrite H. cbn [d_status]. unfold d_itf_status_op.
  rewrite W_tuple. cbn [map sep]. rewrite W_struct. cbn [map sep fst snd]. rewrite W_tuple. cbn [map sep]. rewrite W_struct. cbn [map sep fst snd String.length].
  destruct (iso_status i) as [| |s|l] eqn:S; cbn [show_interface_status interface_status_kind d_interface_status].
  - cbn. lia.
  - cbn. lia.
  - rewrite W_tuple. cbn [map sep]. unfold show_dash7_status, d_dash7_status. rewrite W_struct. cbn [map sep fst snd].
    unfold d_varint. rewrite W_struct. cbn [map sep fst snd]. rewrite !W_n. rewrite !str_app. cbn [String.length].
    cbn [dbg_channel dbg_addressee derived]. fold (W (d_channel (ds_channel s))). fold (W (d_addressee (ds_addressee s))).
    assert (Q : forall b, String.length (show_bool b) = W (d_bool b)) by (intros []; reflexivity). rewrite !Q. lia.
  - rewrite !str_app. cbn [dbg_bytes derived]. fold (W (d_bytes l)). rewrite W_tuple. cbn [map sep String.length]. lia.
Qed.
Definition some_tag (c : command) : nat := match request_tag_of c, response_tag_of c with None, None => 0 | _, _ => 28 end.
Lemma price_parts {E : Env} c : list_sum (map (fun a => W (d_action a) + 3) (actions_without_interface_status c))
  + (match interface_status_of c with Some s => String.length (show_interface_status (derived plain) s) + 21 | None => 0 end) + some_tag c <= price c.
Proof.
  induction c as [|a c IH]; [cbn; lia|]. unfold price in *. cbn [map list_sum fold_right]. fold (list_sum (map cost c)).
  destruct a; cbn [actions_without_interface_status interface_status_of]; unfold some_tag in *; cbn [request_tag_of response_tag_of];
    try (cbn [map list_sum fold_right]; unfold cost at 1; cbn [tag]; cbn [list_sum fold_right] in IH; unfold list_sum in *; lia).
  - destruct (so_status v) as [s|i|s] eqn:S.
    + cbn [map list_sum fold_right]; unfold cost at 1; cbn [tag]; unfold list_sum in *; lia.
    + pose proof (shown_status v i S). unfold cost at 1. cbn [tag]. destruct (interface_status_of c); unfold list_sum in *; lia.
    + cbn [map list_sum fold_right]; unfold cost at 1; cbn [tag]; unfold list_sum in *; lia.
  - cbn [map list_sum fold_right]; unfold cost at 1; cbn [tag]; unfold list_sum in *. destruct (request_tag_of c), (response_tag_of c); lia.
Qed.
Lemma shown_command {E : Env} c : (forall i, tag_id c = Some i -> (i < 256)%N) -> String.length (show_command (derived plain) c) <= 30 + price c.
Proof.
  intros T. pose proof (price_parts c) as P. unfold show_command. cbv zeta. rewrite !str_app.
  assert (A : String.length (match tag_id c with Some t => "with tag " ++ show_N t ++ " " | None => "" end) + String.length (command_status c) <= 9 + some_tag c).
  { unfold some_tag, tag_id, request_id, response_id, command_status in *. destruct (request_tag_of c) as [t|], (response_tag_of c) as [r|]; cbn [option_map] in *;
      rewrite ?str_app; try (pose proof (show_N_length _ 2 (N.lt_trans _ 256 1000 (T _ eq_refl) eq_refl)));
      try (destruct (rt_eop r), (rt_error r)); cbn [String.length] in *; lia. }
  destruct (Nat.ltb_spec 0 (List.length (actions_without_interface_status c))) as [G|G].
  - rewrite !str_app, shown_lines. destruct (interface_status_of c) as [s|]; rewrite ?str_app; cbn [String.length tab nl] in *; lia.
  - destruct (interface_status_of c) as [s|]; rewrite ?str_app; cbn [String.length tab nl] in *; lia.
Qed.
Definition small_tag (a : action) : Prop := match a with ARequestTag v => u8 (rq_id v) | AResponseTag v => u8 (rt_id v) | _ => True end.
Lemma tags_small {E : Env} f : forall p l c rest, bytes l -> dec_actions f p l = Some (c, rest) -> Forall small_tag c.
Proof.
  induction f as [|f IH]; intros p l c rest H G; cbn [dec_actions] in G.
  - destruct l; [|discriminate]. destruct p; [discriminate|]. injection G as <- <-. constructor.
  - destruct l as [|b l]; [destruct p; [discriminate|]; injection G as <- <-; constructor|].
    destruct (dec_operand _ _) as [[a r]|] eqn:D; [|discriminate]. assert (Ho : ((if p then part 2 6 b else part 0 6 b) < 64)%N) by (destruct p; apply (part_lt _ 6)).
    pose proof (operand_parsed _ _ _ _ _ H Ho D) as (P & _).
    apply operand_size in D as (D1 & _); [|exact H].
    assert (small_tag a).
    { destruct a; try exact Logic.I; cbn [is_tx_status with_opcode] in P; (destruct P as [P|[(x & P & _)|(_ & v' & P & _)]]; [apply P|discriminate P|discriminate P]). }
    destruct (SpecDecode.is_indirect a) eqn:I; [injection G as <- <-; constructor; [assumption|constructor]|].
    destruct (dec_actions f (is_tx a) r) as [[c' r']|] eqn:G'; [|discriminate]. injection G as <- <-. constructor; [assumption|]. eapply IH; eassumption.
Qed.
Lemma tag_small c : Forall small_tag c -> forall i, tag_id c = Some i -> (i < 256)%N.
Proof.
  intros F i. assert (A : forall t, request_tag_of c = Some t -> (rq_id t < 256)%N).
  { induction F as [|a c Ha F IH]; intros t; [discriminate|]. destruct a; cbn [request_tag_of]; auto. intros Q. injection Q as ->. exact Ha. }
  assert (B : forall t, response_tag_of c = Some t -> (rt_id t < 256)%N).
  { clear A. induction F as [|a c Ha F IH]; intros t; [discriminate|]. destruct a; cbn [response_tag_of]; auto. intros Q. injection Q as ->. exact Ha. }
  unfold tag_id, request_id, response_id. destruct (request_tag_of c) as [t|]; cbn [option_map]; [intros Q; injection Q as <-; auto|].
  destruct (response_tag_of c) as [t|]; cbn [option_map]; [intros Q; injection Q as <-; auto|discriminate].
Qed.
Lemma command_width {E : Env} d c : bytes d -> command_try_from d = Ok c ->
  String.length (show_command (derived plain) c) <= 102 * List.length d + 77.
Proof.
  intros Hd H. pose proof (decode_command_try_from d Hd) as A. destruct (dec_command d) as [[c' rest]|] eqn:D.
  2:{ destruct A as (e & A). congruence. }
  assert (c' = c) as -> by (destruct (Nat.leb _ _); congruence). pose proof (tags_small _ _ _ _ _ Hd D) as F. apply actions_price in D; [|exact Hd].
  pose proof (shown_command c (tag_small c F)). lia.
Qed.

(** *** Its Debug *)
Definition toll {E : Env} (c : command) : nat := list_sum (map (fun a => W (d_action a) + 2) c).
Lemma toll_price {E : Env} c : toll c + List.length c <= price c.
Proof. induction c as [|a c IH]; [cbn; lia|]. unfold toll, price, list_sum, cost in *. cbn [map fold_right List.length]. lia. Qed.
Lemma debug_command {E : Env} c : W (d_command c) <= 23 + toll c.
Proof.
  unfold d_command. rewrite W_struct. cbn [map sep fst snd String.length]. rewrite W_list, map_map. pose proof (sep_sum (map (fun x => W (d_action x)) c)) as P.
  rewrite map_map in P. unfold toll. lia.
Qed.
Lemma limited_toll {E : Env} f : forall limit p pend l c rest, bytes l -> dec_limited f limit p pend l = Some (c, rest) ->
  bytes rest /\ toll c + 101 * List.length rest <= 101 * List.length l + 47.
Proof.
  induction f as [|f IH]; intros limit p pend l c rest H G; cbn [dec_limited] in G; cbv zeta in G;
    (destruct ((limit =? 0) || (p <? limit))%N; [|injection G as <- <-; cbn; split; [exact H|lia]]).
  - destruct l; [|discriminate]. destruct (_ =? 0)%N; [|discriminate]. injection G as <- <-. cbn. split; [exact H|lia].
  - destruct l as [|b l]; [destruct (_ =? 0)%N; [|discriminate]; injection G as <- <-; cbn; split; [exact H|lia]|].
    destruct (dec_operand _ _) as [[a r]|] eqn:D; [|discriminate].
    apply operand_cost in D as (D1 & D2 & D3); [|exact H|apply (part_lt _ 6)].
    assert (D4 : W (d_action a) + 2 + 101 * List.length r <= 101 * List.length (b :: l) + (if bare a then 47 else 0)) by (destruct (tag a), (bare a); lia).
    destruct (SpecDecode.is_indirect a) eqn:I.
    + injection G as <- <-. split; [exact D1|]. unfold toll. cbn [map list_sum fold_right]. destruct (bare a); lia.
    + destruct (dec_limited f _ _ _ r) as [[c' r']|] eqn:G'; [|discriminate]. injection G as <- <-. apply IH in G' as (G0 & G1); [|exact D1].
      split; [exact G0|]. assert (Q : bare a = false) by (destruct (bare a) eqn:Q; [apply bare_indirect in Q; congruence|reflexivity]). rewrite Q in D4.
      unfold toll, list_sum in *. cbn [map fold_right]. lia.
Qed.

(** ** Frames *)
Definition wf_header {E : Env} (v : fframe) : Prop :=
  let n := ff_frame v in let t := nf_frame n in
  wf_length (ff_length v) /\ u8 (ff_subnet v) /\ (ff_eirp v < 64)%N /\ wf_address (ff_target v) /\
  wf_access_class (nf_access n) /\ wf_address (nf_origin n) /\ u8 (tf_dialog t) /\ u8 (tf_transaction t) /\
  match tf_target_rx t with Some x => u8 x | None => True end /\
  match tf_listen t with Some x => wf_varint x | None => True end /\
  match tf_exec_delay t with Some x => wf_varint x | None => True end /\
  match tf_congestion t with Some x => wf_varint x | None => True end /\
  match tf_ack t with Some x => wf_ack x | None => True end.
Lemma wf_fframe_header {E : Env} v : wf_fframe v -> wf_header v.
Proof.
  intros (H1 & H2 & H3 & H4 & H5 & H6 & G1 & G2 & G3 & G4 & F1 & F2 & F3 & F4 & F5 & F6 & F7 & F8). unfold wf_header, present in *. cbv zeta.
  destruct (tf_target_rx _), (tf_listen _), (tf_exec_delay _), (tf_congestion _), (tf_ack _); repeat split; try assumption; try apply H3; try apply G2; try apply F3; try apply F4; try apply F5; try apply F6; try apply F7.
Qed.
Lemma header_read {E : Env} d p v r : p <= List.length d -> read_fframe (mkRd d p [] 0) = Ok (v, r) -> wf_header v.
Proof.
  intros Hp H. rewrite read_fframe_eq in H. unfold bind at 1 in H.
  pose proof (Nice_head _ (at_wf d p Hp)) as N1.
  destruct (read_head (mkRd d p [] 0)) as [[h r1]| |]; try discriminate. destruct N1 as ((Hh & Hn) & R1 & _).
  unfold bind in H. destruct (read_command (ff_length h) r1) as [[m r2]| |] eqn:E2; try discriminate.
  destruct (read_native 2 r2) as [[k r3]| |]; try discriminate. unfold ret in H. injection H as <- _.
  change (wf_header h). apply wf_fframe_header. exact Hh.
Qed.
(** Bytes of the header. *)
Definition opt_size {A} (k : nat) (o : option A) : nat := match o with Some _ => k | None => 0 end.
Definition head_size (v : fframe) : nat :=
  let n := ff_frame v in let t := nf_frame n in
  3 + address_size (ff_target v) + 2 + opt_size 1 (nf_hopping n) + 1 + address_size (nf_origin n) + 2
  + opt_size 1 (tf_target_rx t) + opt_size 1 (tf_listen t) + opt_size 1 (tf_exec_delay t) + opt_size 1 (tf_congestion t) + opt_size 2 (tf_ack t).
Hint Resolve w_u8 w_64 w_16 w_u16 w_bool w_varint w_length w_access_class w_address_type w_nls_method : wd.
Ltac known x :=
  let k := fresh "k" in let H := fresh "H" in
  evar (k : nat); assert (H : W x <= k) by (subst k; eauto 2 with wd nocore); subst k; revert H; generalize (W x); intros.
Ltac lens := cbn [map sep String.length fst snd append List.length].
Ltac open := rewrite ?W_struct, ?W_tuple; lens; rewrite ?W_struct, ?W_tuple; lens; rewrite ?W_struct, ?W_tuple; lens; rewrite ?W_struct, ?W_tuple, ?W_unit; lens.
Ltac tight := repeat match goal with
  | H : context [W ?x] |- context [W ?x] => revert H; generalize (W x)
  | |- context [W ?x] => known x end; intros; lia.
Lemma w_opt {A} (f : A -> dv) (o : option A) k : match o with Some x => W (f x) <= k | None => True end -> W (d_opt f o) <= 4 + opt_size (k + 2) o.
Proof. destruct o as [x|]; intros H; cbn [d_opt opt_size]; [rewrite W_tuple; lens; lia|cbn; lia]. Qed.
Lemma w_control v : W (d_tcontrol v) <= 207.
Proof. unfold d_tcontrol. open. tight. Qed.
Lemma w_ncontrol v : W (d_ncontrol v) <= 115.
Proof. unfold d_ncontrol. open. tight. Qed.
Lemma w_hopping v : W (d_hopping v) <= 69.
Proof. unfold d_hopping. open. tight. Qed.
Lemma w_ack v : wf_ack v -> W (d_ack v) <= 67.
Proof. intros (H1 & H2). unfold d_ack. open. tight. Qed.
Hint Resolve w_control w_ncontrol : wd.
Lemma frame_text {E : Env} v : wf_header v -> u16 (ff_crc v) -> W (d_fframe v) + 150 <= 101 * (head_size v + 2) + W (d_command (command_of v)).
Proof.
  intros H C. unfold wf_header in H. cbv zeta in H. destruct H as (H1 & H2 & H3 & H4 & H5 & H6 & H7 & H8 & O1 & O2 & O3 & O4 & O5).
  unfold d_fframe, d_nframe, d_tframe, head_size. cbv zeta. fold (command_of v).
  pose proof (w_address plain _ H4) as A1. pose proof (w_address plain _ H6) as A2.
  assert (P1 : W (d_opt d_n (tf_target_rx (nf_frame (ff_frame v)))) <= 4 + opt_size 5 (tf_target_rx (nf_frame (ff_frame v))))
    by (apply (w_opt _ _ 3); destruct (tf_target_rx _); [apply w_u8; exact O1|trivial]).
  assert (P2 : W (d_opt d_varint (tf_listen (nf_frame (ff_frame v)))) <= 4 + opt_size 39 (tf_listen (nf_frame (ff_frame v))))
    by (apply (w_opt _ _ 37); destruct (tf_listen _); [apply w_varint; exact O2|trivial]).
  assert (P3 : W (d_opt d_varint (tf_exec_delay (nf_frame (ff_frame v)))) <= 4 + opt_size 39 (tf_exec_delay (nf_frame (ff_frame v))))
    by (apply (w_opt _ _ 37); destruct (tf_exec_delay _); [apply w_varint; exact O3|trivial]).
  assert (P4 : W (d_opt d_varint (tf_congestion (nf_frame (ff_frame v)))) <= 4 + opt_size 39 (tf_congestion (nf_frame (ff_frame v))))
    by (apply (w_opt _ _ 37); destruct (tf_congestion _); [apply w_varint; exact O4|trivial]).
  assert (P5 : W (d_opt d_ack (tf_ack (nf_frame (ff_frame v)))) <= 4 + opt_size 69 (tf_ack (nf_frame (ff_frame v))))
    by (apply (w_opt _ _ 67); destruct (tf_ack _); [apply w_ack; exact O5|trivial]).
  assert (P6 : W (d_opt d_hopping (nf_hopping (ff_frame v))) <= 4 + opt_size 71 (nf_hopping (ff_frame v)))
    by (apply (w_opt _ _ 69); destruct (nf_hopping _); [apply w_hopping|trivial]).
  assert (Lin : forall A k (o : option A), opt_size k o = k * opt_size 1 o) by (intros A k []; cbn [opt_size]; lia).
  rewrite (Lin _ 5) in P1. rewrite (Lin _ 39) in P2, P3, P4. rewrite (Lin _ 69) in P5. rewrite (Lin _ 71) in P6. rewrite (Lin _ 2).
  unfold command_of. open. repeat match goal with
  | |- context [W (d_command ?x)] => generalize (W (d_command x)); intros
  | H : context [W ?x] |- context [W ?x] => revert H; generalize (W x); intros
  | |- context [W ?x] => known x end. lia.
Qed.
Lemma varint_1 v : List.length (enc_varint v) = 1.
Proof. reflexivity. Qed.
Lemma address_length a : List.length (enc_address a) = address_size a.
Proof. destruct a; cbn [enc_address address_size]; rewrite ?be_bytes_length; reflexivity. Qed.
Lemma head_bits_size {E : Env} v :
  8 * head_size v <= 8 * List.length (enc_link v) + (List.length (bits_of_fields (hdr_fields (ff_frame v))) + lost).
Proof.
  unfold hdr_fields, network_fields, transport_fields. rewrite bits_of_fields_length, !total_width_app.
  assert (A : total_width (ncontrol_fields (nf_control (ff_frame v))) + lost = 9) by (unfold ncontrol_fields, nls_width, lost; destruct e_feat; reflexivity).
  assert (B : total_width (tcontrol_fields (tf_control (nf_frame (ff_frame v)))) = 7) by reflexivity.
  assert (C : forall a b, total_width [(8%N, a); (8%N, b)] = 16) by reflexivity.
  assert (D : forall a, total_width [(8%N, a)] = 8) by reflexivity.
  assert (O : forall A (f : A -> list N) k o, (forall x, List.length (f x) = k) -> total_width (optional f o) = 8 * opt_size k o).
  { intros A0 f k [x|] Hk; [|reflexivity]. unfold optional. rewrite octets_width, Hk. reflexivity. }
  rewrite B, C, D, !octets_width, !(O _ _ 1), (O _ _ 2), address_length by (intros; reflexivity).
  assert (Hh : total_width (hopping_fields (nf_hopping (ff_frame v))) = 8 * opt_size 1 (nf_hopping (ff_frame v))) by (destruct (nf_hopping _); reflexivity).
  rewrite Hh. unfold enc_link. rewrite !app_length, LFail.enc_length_size, address_length. pose proof (length_one (ff_length v)). cbn [List.length].
  unfold head_size. cbv zeta. lia.
Qed.

(** ** Frames *)
Lemma host_u16 {E : Env} l x rest : bytes l -> host_num 2 l = Some (x, rest) -> u16 x.
Proof.
  intros H D. unfold host_num in D. apply then_inv in D as (t & l1 & D & G). injection G as <- <-.
  unfold some_bytes in D. destruct (_ <=? _)%N eqn:C; [|discriminate]. injection D as <- <-. unfold u16.
  set (t := firstn (N.to_nat 2) l). assert (T : bytes t /\ List.length t = 2).
  { split; [apply firstn_bytes; exact H|]. unfold t. rewrite firstn_length. lia. }
  destruct T as (T & L). change (2 ^ 16)%N with (256 ^ N.of_nat 2)%N. destruct e_host.
  - pose proof (N_of_be_lt (rev t) (Forall_rev T)) as K. rewrite rev_length, L in K. exact K.
  - pose proof (N_of_be_lt t T) as K. rewrite L in K. exact K.
Qed.
Lemma frame_width {E : Env} d p n v q : bytes d -> p <= List.length d -> from_stream read_fframe d p 0 = Ok (n, v, q) ->
  String.length (show_dv plain (d_fframe v)) <= 101 * (q - p).
Proof.
  intros Hd Hp H. pose proof (fframe_left d p Hd Hp) as F. rewrite from_stream_0 in H.
  assert (R : exists r, read_fframe (mkRd d p [] 0) = Ok (v, r)).
  { change (at_byte d p 0) with (mkRd d p [] 0) in H. destruct (read_fframe (mkRd d p [] 0)) as [[x r]| |]; try discriminate. cbn [rbind fst snd] in H. exists r. congruence. }
  destruct R as (r & R). rewrite <- from_stream_0 in H. pose proof (header_read _ _ _ _ Hp R) as WH. clear R r.
  assert (Bs : bytes (skipn p d)) by (apply skipn_bytes, Hd).
  destruct (dec_fframe_at (N.of_nat p) (skipn p d)) as [[v' rest]|] eqn:D; [|destruct F as (e & F); congruence].
  destruct F as (Lr & F). rewrite F in H. assert (v' = v /\ q = List.length d - List.length rest) as (-> & ->) by (split; congruence). clear F H.
  unfold dec_fframe_at in D. destruct (dec_link (skipn p d)) as [[[limit link] l0]|] eqn:DL; [|discriminate].
  destruct (dec_headers l0) as [[net l1]|] eqn:DH; [|discriminate].
  destruct (dec_limited _ _ _ _ l1) as [[c l2]|] eqn:DC; [|discriminate].
  destruct (host_num 2 l2) as [[crc rest']|] eqn:DN; [|discriminate].
  assert (link (net c) crc = v /\ rest' = rest) as (Q & ->) by (split; congruence). clear D.
  apply min_link in DL as ML; [|exact Bs]. cbv beta in ML. cbn [snd] in ML. destruct ML as (B0 & ML).
  pose proof (head_canon l0 B0) as HC. unfold head_can in HC. rewrite DH in HC.
  destruct HC as (ph & hb & w & H0 & Lp & Hb & Hw & Lb & _).
  assert (B1 : bytes l1) by (rewrite H0 in B0; apply Forall_app in B0; apply B0).
  assert (B2 : bytes l2) by (apply limited_size in DC as (B2 & _); [exact B2|exact B1]).
  destruct (limited_toll _ _ _ _ _ _ _ B1 DC) as (_ & T1).
  assert (U : u16 crc) by exact (host_u16 _ _ _ B2 DN).
  apply min_host in DN as (_ & T3); [|exact B2]. change (N.to_nat 2) with 2%nat in T3.
  assert (Qc : command_of v = c) by (rewrite <- Q; unfold command_of; rewrite (dec_link_shape _ _ _ _ DL), (dec_headers_shape _ _ _ DH); reflexivity).
  destruct (dec_link_link _ _ _ _ (net c) crc DL) as (L1 & _).
  assert (Uv : u16 (ff_crc v)).
  { rewrite <- Q. destruct (dec_link_link _ _ _ _ (net c) crc DL) as (_ & -> & _). exact U. }
  assert (Lh : List.length hb + lost = 8 * List.length ph).
  { apply (f_equal (@List.length bool)) in Hb. rewrite bits_of_bytes_length, app_length, Hw, bits_of_length in Hb. lia. }
  assert (L0 : List.length l0 = List.length ph + List.length l1) by (rewrite H0, app_length; reflexivity).
  rewrite skipn_length in ML.
  pose proof (head_bits_size v) as HB. pose proof (frame_text v WH Uv) as FT. pose proof (debug_command c) as DC'. rewrite Qc in FT.
  rewrite <- Q in HB at 2 3. rewrite L1, (dec_link_shape _ _ _ _ DL), Lb in HB.
  change (W (d_fframe v) <= 101 * (List.length d - List.length rest - p)). lia.
Qed.
Lemma fframe_width {E : Env} d v : bytes d -> fframe_try_from d = Ok v -> String.length (show_dv plain (d_fframe v)) <= 101 * List.length d.
Proof.
  intros Hd H. unfold fframe_try_from in H. rewrite d_try_from_eq in H. pose proof (frame_width d 0) as F.
  assert (S : forall n q, from_stream read_fframe d 0 0 = Ok (n, v, q) -> q <= List.length d).
  { intros n q Q. pose proof (fframe_left d 0 Hd ltac:(lia)) as L. destruct (dec_fframe_at _ _) as [[w rest]|]; [|destruct L as (e & L); congruence].
    destruct L as (_ & L). rewrite L in Q. injection Q as _ _ <-. lia. }
  rewrite from_stream_0 in S, F. change (at_byte d 0 0) with (new_reader d) in *.
  destruct (read_fframe (new_reader d)) as [[x r]| |]; try discriminate. cbn [rbind fst snd] in *.
  assert (x = v) as -> by (destruct (Nat.eqb _ _); congruence).
  specialize (S _ _ eq_refl). specialize (F _ _ _ Hd ltac:(lia) eq_refl). lia.
Qed.
Lemma w_bframe v : wf_bframe v -> W (d_bframe v) <= 129.
Proof. intros (H1 & H2 & H3 & H4). unfold d_bframe. open. tight. Qed.
Lemma bframe_width {E : Env} d v : bytes d -> bframe_try_from d = Ok v -> String.length (show_dv plain (d_bframe v)) <= 129 /\ List.length d = 6.
Proof.
  intros Hd H. destruct (bframe_bytes d Hd) as (A & B & C).
  assert (L : List.length d = 6).
  { destruct (Nat.lt_trichotomy (List.length d) 6) as [L|[L|L]]; [rewrite (B L) in H; discriminate|exact L|rewrite (C L) in H; discriminate]. }
  split; [|exact L]. destruct (bframe_of_bytes d Hd L) as (w & Hw & <-). destruct (bframe_value w Hw) as (_ & _ & T). assert (w = v) as -> by congruence.
  exact (w_bframe v Hw).
Qed.

(** ** The tool *)
Lemma digits_of n b : b <= 16 * n -> String.length (show_N (N.of_nat b)) <= S n.
Proof.
  intros H. apply show_N_length. assert (16 * N.of_nat n < 10 ^ N.of_nat (S n))%N; [|lia]. clear H b.
  induction n as [|n IH]; [reflexivity|]. rewrite (Nat2N.inj_succ (S n)), N.pow_succ_r'.
  assert (10 <= 10 ^ N.of_nat (S n))%N by (change 10%N with (10 ^ 1)%N at 1; apply N.pow_le_mono_r; lia). lia.
Qed.
Definition line_width {E : Env} (l : line) : nat := String.length (line_text plain l).
Lemma stdout_width {E : Env} l : String.length (stdout plain l) = list_sum (map line_width l).
Proof. induction l as [|x l IH]; [reflexivity|]. cbn [stdout map list_sum fold_right]. rewrite str_app, IH. reflexivity. Qed.
Lemma read_width {E : Env} v bits d : bytes d -> bits <= 16 * List.length d -> line_width (LnRead v bits d 0) <= W (d_value v) + 36 + 6 * List.length d.
Proof.
  intros Hd Hb. unfold line_width. cbn [line_text]. rewrite !str_app. fold (W (d_value v)). fold (W (DTuple "" [d_bytes d; d_n (N.of_nat 0)])).
  rewrite W_tuple. cbn [map sep]. pose proof (w_bytes plain d Hd). pose proof (digits_of _ _ Hb). change (W (d_n (N.of_nat 0))) with 1. cbn [String.length nl]. lia.
Qed.
Lemma shown_width {E : Env} p : line_width (LnShown p) = 1 + match p with
  | PrFrame f => W (d_fframe f) | PrBackground f => W (d_bframe f) | PrCommand c => String.length (show_command (derived plain) c)
  | PrFile rest f => W (d_parsed_file rest f) end.
Proof. unfold line_width. cbn [line_text]. unfold printed_text. rewrite str_app. destruct p; cbn [String.length nl]; apply Nat.add_comm. Qed.
Lemma command_lines_width {E : Env} d : bytes d ->
  (exists c, command_try_from d = Ok c /\ list_sum (map line_width (command_lines d)) <= 209 * List.length d + 184) \/
  (forall c, command_try_from d <> Ok c) /\ list_sum (map line_width (command_lines d)) <= 107 * List.length d + 106.
Proof.
  intros Hd. pose proof (decode_command d Hd) as A. pose proof (decode_command_try_from d Hd) as T. pose proof (command_width d) as K.
  unfold command_lines, command_from_reader, u_from_reader. rewrite start_0.
  destruct (dec_command d) as [[c rest]|] eqn:D.
  2:{ destruct A as (e & ->). destruct T as (e' & ->). right. split; [discriminate|]. cbn. lia. }
  destruct A as (s & Hl & -> & Hb). cbn [rbind fst snd written].
  assert (B : bread s <= 16 * List.length d /\ W (d_command c) <= 101 * List.length d + 70).
  { unfold dec_command in D. rewrite <- (limited_actions _ 0%N) in D.
    destruct (limited_size _ _ _ _ _ _ _ Hd D) as (_ & _ & L1). destruct (limited_toll _ _ _ _ _ _ _ Hd D) as (_ & L2). pose proof (debug_command c).
    assert (List.length c <= command_held c) by (clear; induction c as [|a c IH]; [cbn; lia|unfold command_held, list_sum in *; cbn [map fold_right List.length]; lia]).
    split; lia. }
  destruct B as (B1 & B2). pose proof (read_width (VCommand c) _ _ Hd B1) as R. cbn [d_value] in R.
  destruct (command_try_from d) as [c'| |] eqn:Q.
  - left. exists c'. split; [reflexivity|]. specialize (K _ Hd eq_refl). cbn [app map list_sum fold_right]. rewrite shown_width. lia.
  - right. split; [discriminate|]. cbn [app map list_sum fold_right]. lia.
  - right. split; [discriminate|]. cbn [app map list_sum fold_right]. lia.
Qed.
Lemma parsed_width rest f : bytes rest -> W (d_parsed_file (rest, 0) f) <= W (d_file f) + 11 + 5 * List.length rest.
Proof.
  intros H. unfold d_parsed_file. cbn [fst snd]. rewrite W_tuple. cbn [map sep]. rewrite W_tuple. cbn [map sep]. pose proof (w_bytes plain rest H). change (W (DNum (Z.of_nat 0))) with 1. cbn [String.length]. lia.
Qed.
Lemma file_lines_width {E : Env} i d : (i < 256)%N -> bytes d -> list_sum (map line_width (file_lines i d)) <= 209 * List.length d + 184.
Proof.
  intros Hi Hd. unfold file_lines. destruct (file_id_try_from i) as [id| |] eqn:I; try (cbn; lia).
  assert (id = file_id_of i) as -> by (rewrite file_id_try_from_ok in I by exact Hi; congruence).
  unfold d_from_reader, file_from_bytes. rewrite start_0, u_from_bytes_0.
  pose proof (Nice_file i 0 Hi ltac:(reflexivity) (new_reader d) (new_RWf d)) as Q. pose proof (LFiles.Takes_file (file_id_of i) 0 (new_reader d)) as T.
  destruct (read_file (file_id_of i) 0 (new_reader d)) as [[f r]| |]; try (cbn; lia). cbn [rbind fst snd written].
  destruct (T _ _ (new_RWf d) eq_refl) as (T1 & T2). rewrite view_new, bits_of_bytes_length in T1.
  assert (B : bread r = 8 * file_size f) by (rewrite T2; reflexivity). destruct Q as (Q & _). pose proof (w_file plain _ _ Q) as F. clear T T2 Q.
  pose proof (read_width (VFile f) (bread r) d Hd ltac:(lia)) as R. cbn [d_value] in R.
  rewrite B in *. replace (8 * file_size f / 8) with (file_size f) by (rewrite Nat.mul_comm, Nat.div_mul; lia).
  replace ((8 * file_size f) mod 8) with 0 by (rewrite Nat.mul_comm, Nat.mod_mul; lia).
  cbn [app map list_sum fold_right]. rewrite shown_width.
  pose proof (parsed_width (skipn (file_size f) d) f (bytes_skipn _ _ Hd)) as P. rewrite skipn_length in P. lia.
Qed.
Lemma any_file_lines_width {E : Env} d : bytes d -> list_sum (map line_width (any_file_lines d)) <= 11 * List.length d + 120.
Proof.
  intros Hd. unfold any_file_lines. destruct (Nat.leb_spec 8 (List.length d)) as [L|L].
  - cbv zeta. set (f := FUId _). pose proof (read_width (VFile f) 64 d Hd ltac:(lia)) as R. cbn [d_value] in R.
    assert (U : W (d_file f) <= 30).
    { assert (U : u64 (N_of_be (firstn 8 d))).
      { pose proof (N_of_be_lt (firstn 8 d) (firstn_bytes _ _ Hd)) as K. rewrite firstn_length in K. replace (Nat.min 8 (List.length d)) with 8 in K by lia. exact K. }
      unfold f. cbn [d_file d_address]. open. pose proof (w_u64 plain _ U). lia. }
    pose proof (parsed_width (skipn 8 d) f (bytes_skipn _ _ Hd)) as P. rewrite skipn_length in P.
    cbn [map list_sum fold_right]. rewrite shown_width. lia.
  - pose proof (read_width (VFile (FOther [])) 0 d Hd ltac:(lia)) as R. cbn [d_value] in R. change (W (d_file (FOther []))) with 9 in R.
    pose proof (parsed_width d (FOther []) Hd) as P. change (W (d_file (FOther []))) with 9 in P.
    cbn [map list_sum fold_right]. rewrite shown_width. lia.
Qed.
Lemma tool_width {E : Env} t fid s bs : spells s bs -> (forall i, fid = Some i -> (i < 256)%N) ->
  String.length (stdout plain (fst (cli_io t fid s))) <= 209 * List.length bs + 184.
Proof.
  intros Hs Hi. rewrite (tool_lines_exact _ _ _ _ Hs), stdout_width. apply spells_bytes in Hs as Hd. clear Hs s.
  assert (Fr : list_sum (map line_width (frame_lines bs)) <= 209 * List.length bs + 184).
  { unfold frame_lines. destruct (fframe_try_from bs) as [v| |] eqn:Q; try (cbn; lia). apply fframe_width in Q; [|exact Hd]. fold (W (d_fframe v)) in Q.
    cbn [map list_sum fold_right]. rewrite shown_width. lia. }
  assert (Br : list_sum (map line_width (background_lines bs)) <= 209 * List.length bs + 184).
  { unfold background_lines. destruct (bframe_try_from bs) as [v| |] eqn:Q; try (cbn; lia). apply bframe_width in Q; [|exact Hd]. fold (W (d_bframe v)) in Q.
    cbn [map list_sum fold_right]. rewrite shown_width. lia. }
  pose proof (any_file_lines_width bs Hd) as Ar. pose proof (command_lines_width bs Hd) as Cr.
  assert (Cr' : list_sum (map line_width (command_lines bs)) <= 209 * List.length bs + 184) by (destruct Cr as [(? & _ & Cr)|(_ & Cr)]; lia).
  destruct t as [[]|]; cbn [tool_lines]; try assumption; try (cbn; lia).
  - destruct fid as [i|]; [apply file_lines_width; [exact (Hi i eq_refl)|exact Hd]|lia].
  - unfold any_lines. destruct (results (frame_lines bs)); [|assumption]. destruct (results (background_lines bs)); [|assumption].
    destruct (results (command_lines bs)) eqn:Q; [|assumption]. rewrite map_app, list_sum_app.
    destruct Cr as [(c & Hc & _)|(No & Cr)].
    { exfalso. unfold command_lines in Q. rewrite results_app, Hc in Q. destruct (results (written _ _ _ _)); discriminate. }
    destruct bs as [|b bs]; [|cbn [List.length] in *; lia].
    exfalso. apply (No []). destruct E as [[] [] []]; vm_compute; reflexivity.
Qed.

(** ** The bound is reached *)
Lemma longest_decoded {E : Env} k f : k < f -> dec_actions f false (repeat 63%N k ++ [51%N])
  = Some (repeat (AExtension (mkNop (mkHeader false false) 63)) k ++ [AIndirectForward (mkIndirectForward false false 51 None)], [])%list.
Proof.
  revert f. induction k as [|k IH]; intros [|f] H; try lia.
  - destruct E as [[] h r]; reflexivity.
  - cbn [repeat app dec_actions].
    assert (D : forall l, dec_operand (part 0 6 63) (63%N :: l) = Some (AExtension (mkNop (mkHeader false false) 63), l)) by (intros l; destruct E as [[] h r]; reflexivity).
    rewrite D. change (SpecDecode.is_indirect (AExtension _)) with false. change (is_tx (AExtension _)) with false. cbv iota. rewrite IH by lia. reflexivity.
Qed.
Lemma command_reached {E : Env} k : exists c, command_try_from (repeat 63%N k ++ [51%N]) = Ok c /\
  String.length (show_command (derived plain) c) = 102 * List.length (repeat 63%N k ++ [51%N])%list + 77.
Proof.
  assert (Hd : bytes (repeat 63%N k ++ [51%N])) by (apply Forall_app; split; [apply Forall_forall; intros x Hx; apply repeat_spec in Hx; subst; reflexivity|repeat constructor]).
  pose proof (decode_command_try_from _ Hd) as T. unfold dec_command in T. rewrite longest_decoded in T by (rewrite app_length, repeat_length; cbn; lia).
  set (c := (repeat _ k ++ [_])%list) in T at 2. set (c' := (repeat _ k ++ [_])%list) in T. exists c.
  assert (Tx : count_tx c = 0) by (unfold c; clear; induction k as [|k IH]; [reflexivity|exact IH]).
  change c' with c in T. replace (Nat.leb _ _) with true in T by (symmetry; apply Nat.leb_le; rewrite Tx; cbn; lia). split; [exact T|].
  assert (A : actions_without_interface_status c = c /\ interface_status_of c = None /\ request_tag_of c = None /\ response_tag_of c = None).
  { unfold c. clear. induction k as [|k (I1 & I2 & I3 & I4)]; [repeat split|]. cbn [repeat app actions_without_interface_status interface_status_of request_tag_of response_tag_of].
    rewrite I1, I2, I3, I4. repeat split. }
  destruct A as (A1 & A2 & A3 & A4). unfold show_command. cbv zeta. rewrite A1, A2. unfold tag_id, request_id, response_id, command_status. rewrite A3, A4. cbn [option_map].
  assert (Lc : List.length c = S k) by (unfold c; rewrite app_length, repeat_length; cbn; lia). rewrite Lc. cbn [Nat.ltb Nat.leb].
  rewrite !str_app, shown_lines, app_length, repeat_length.
  assert (S : list_sum (map (fun a => W (d_action a) + 3) c) = 102 * k + 149).
  { unfold c. clear. rewrite map_app, list_sum_app. replace (list_sum (map _ [_])) with 149 by (destruct E as [[] h r]; reflexivity).
    f_equal. induction k as [|k IH]; [reflexivity|]. cbn [repeat map list_sum fold_right]. unfold list_sum in IH. rewrite IH.
    replace (W (d_action (AExtension _)) + 3) with 102 by (destruct E as [[] h r]; reflexivity). lia. }
  rewrite S. cbn [String.length List.length tab nl append]. lia.
Qed.
End Text.
