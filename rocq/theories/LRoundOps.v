(** Files, operations and the operand readers of the actions: every reader inverts its writer. *)
From Coq Require Import List NArith ZArith Bool Lia ZifyBool ZifyNat ZifyN Arith.
From Verif Require Import Base Deku Utils Types Physical Link Network Session Data Query
  Interface File Operation Action Command LBits LReader LTypes LUtf8 WellFormed SpecLayout LLayout
  LRound.
Import ListNotations.
Open Scope N_scope.

Lemma RT_string n l : length l = n -> is_utf8 l -> RT (write_string n l) (read_string n) l.
Proof.
  intros Hn Hu. unfold read_string.
  replace (write_string n l) with (write_list write_u8 l).
  - eapply RT_last; [apply RT_bytes; [exact Hn|apply is_utf8_bytes; assumption]|].
    cbv beta. rewrite is_utf8_valid by assumption. reflexivity.
  - destruct (W_string n l Hn (is_utf8_bytes _ Hu)) as (-> & _). apply write_bytes.
Qed.
Lemma RT_firmware_version v : wf_firmware_version v -> RT (write_firmware_version v) read_firmware_version v.
Proof.
  intros (H1 & H2 & H3 & H4 & H5 & H6). destruct v. unfold write_firmware_version, read_firmware_version.
  pose proof (RT_string _ _ H4 H3). pose proof (RT_string _ _ H6 H5). rt.
Qed.
Lemma RT_phy_status v : wf_phy_status v -> RT (write_phy_status v) read_phy_status v.
Proof.
  intros (H1 & H2 & H3 & H4 & H5 & H6 & H7). destruct v as [a b c d n l].
  cbn [ps_up ps_rx ps_tx ps_duty ps_count ps_channels] in *.
  unfold write_phy_status, read_phy_status. cbn [ps_up ps_rx ps_tx ps_duty ps_count ps_channels].
  assert (Hl : length l = N.to_nat n) by lia.
  pose proof (RT_array _ _ _ _ _ RT_channel_status Hl H7). rt.
Qed.
#[export] Hint Resolve RT_access_profile RT_factory_settings RT_firmware_version RT_engineering_mode
  RT_phy_status RT_dll_config RT_dll_status : rt.

Lemma file_id_of_other b r l {E : Env} : b < 256 -> ~ In b typed_file_ids ->
  read_file (file_id_of b) l r = (x <- read_vec_u8 l ;; ret (FOther x)) r.
Proof.
  intros Hb H.
  assert (S : forall k, (k < 256)%nat -> N.to_nat b = k -> read_file (file_id_of b) l r = (x <- read_vec_u8 l ;; ret (FOther x)) r).
  { intros k Hk Ek. replace b with (N.of_nat k) in * by lia. clear Ek Hb.
    do 256 (destruct k as [|k]; [first [reflexivity | exfalso; apply H; cbn; tauto]|]). exfalso. lia. }
  apply (S (N.to_nat b)); lia.
Qed.

Lemma RT_file {E : Env} b f : b < 256 -> wf_file b f ->
  RT (write_file f) (read_file (file_id_of b) (N.of_nat (length (enc_file f)))) f.
Proof.
  intros Hb. destruct f as [i p|a|v|v|v|a|v|v|v|k|l]; cbn [wf_file write_file].
  - intros (Hi & -> & H). replace (file_id_of (32 + i)) with (FidAccessProfile i).
    + cbn [read_file]. rt.
    + assert (C : i = 0 \/ i = 1 \/ i = 2 \/ i = 3 \/ i = 4 \/ i = 5 \/ i = 6 \/ i = 7 \/ i = 8 \/ i = 9
        \/ i = 10 \/ i = 11 \/ i = 12 \/ i = 13 \/ i = 14) by lia.
      repeat (destruct C as [->|C]; [reflexivity|]). rewrite C. reflexivity.
  - intros (-> & H). destruct a as [| |x|]; try contradiction. cbn [file_id_of assoc file_id_tbl N.eqb read_file].
    eapply RT_last; [apply (RT_address (UId x)); exact H|]. reflexivity.
  - intros (-> & H). cbn [read_file file_id_of assoc file_id_tbl N.eqb Pos.eqb]. rt.
  - intros (-> & H). cbn [read_file file_id_of assoc file_id_tbl N.eqb Pos.eqb]. rt.
  - intros (-> & H). cbn [read_file file_id_of assoc file_id_tbl N.eqb Pos.eqb]. rt.
  - intros (-> & H). destruct a as [| | |x]; try contradiction. cbn [file_id_of assoc file_id_tbl N.eqb Pos.eqb read_file].
    eapply RT_last; [apply (RT_address (VId x)); exact H|]. reflexivity.
  - intros (-> & H). cbn [read_file file_id_of assoc file_id_tbl N.eqb Pos.eqb]. rt.
  - intros (-> & H). cbn [read_file file_id_of assoc file_id_tbl N.eqb Pos.eqb]. rt.
  - intros (-> & H). cbn [read_file file_id_of assoc file_id_tbl N.eqb Pos.eqb]. rt.
  - intros (-> & H). cbn [read_file file_id_of assoc file_id_tbl N.eqb Pos.eqb].
    eapply RT_last; [apply RT_native; exact H|]. reflexivity.
  - intros (H & H1 & H2). cbn [enc_file].
    assert (R : RT (write_vec_u8 l) (x <- read_vec_u8 (N.of_nat (length l)) ;; ret (FOther x)) (FOther l)).
    { eapply RT_last; [apply RT_vec_u8; [reflexivity|assumption]|]. reflexivity. }
    destruct R as (bs & Hw & R). exists bs. split; [exact Hw|].
    intros r Hr Hp. rewrite file_id_of_other by assumption. apply R; assumption.
Qed.

(** A payload behind its length. *)
Lemma RT_prefixed {A} w l (m : N -> reader A) v :
  W w l -> wf_length (N.of_nat (length l)) -> RT w (m (N.of_nat (length l))) v ->
  RT (write_length_prefixed w) (n <- read_length ;; m n) v.
Proof.
  intros HW Hl (bs & Hw & Hr).
  destruct (W_prefixed w l HW Hl) as (-> & _). destruct HW as (E & _). rewrite E in Hw. injection Hw as <-.
  exists (bits_of_bytes (enc_length (N.of_nat (length l))) ++ bits_of_bytes l).
  split. { f_equal. unfold enc_prefixed. apply bits_of_bytes_app. }
  destruct (RT_length _ Hl) as (a & Ha & Ra). rewrite layout_length in Ha by assumption. injection Ha as <-.
  eapply Reads_bind; [exact Ra|exact Hr].
Qed.

Lemma RT_ext {A} w (m m' : reader A) v : (forall r, m r = m' r) -> RT w m v -> RT w m' v.
Proof. intros H (bs & Hw & R). exists bs. split; [exact Hw|]. intros r Hr Hp. rewrite <- H. apply R; assumption. Qed.
Lemma RTA_ext {A} w (m m' : reader A) v : (forall r, m r = m' r) -> RTA w m v -> RTA w m' v.
Proof. intros H (bs & Hw & R). exists bs. split; [exact Hw|]. intros r Hr Hl Hp. rewrite <- H. apply R; assumption. Qed.
Lemma bind_assoc {A B C} (m : reader A) (f : A -> reader B) (g : B -> reader C) r :
  bind (bind m f) g r = bind m (fun x => bind (f x) g) r.
Proof. unfold bind. destruct (m r) as [[a r']|e|]; reflexivity. Qed.
Lemma bind_ext {A B} (m : reader A) (f g : A -> reader B) r :
  (forall x r, f x r = g x r) -> bind m f r = bind m g r.
Proof. intros H. unfold bind. destruct (m r) as [[a r']|e|]; auto. Qed.

Lemma RT_file_payload {E : Env} o f : u8 (fo_file_id o) -> wf_file (fo_file_id o) f ->
  RT (write_file_payload f o) (read_file_payload o) f.
Proof.
  intros Hu H. unfold write_file_payload. rewrite file_id_try_from_ok by exact Hu. cbn [rbind].
  apply RT_ext with (m := l <- read_length ;; read_file (file_id_of (fo_file_id o)) l).
  { intros r. unfold read_file_payload. apply bind_ext. intros. rewrite file_id_try_from_ok by exact Hu. reflexivity. }
  apply RT_prefixed with (l := enc_file f).
  - eapply W_file. eassumption.
  - eapply enc_file_length. eassumption.
  - apply RT_file; assumption.
Qed.

(** operations *)
Lemma RT_opcode op : op < 64 -> RT (write_opcode op) read_opcode op.
Proof. intros H. apply RT_uint. exact H. Qed.
Lemma RT_header h : RT (write_header h) read_header h.
Proof. destruct h. unfold write_header, read_header. rt. Qed.
#[export] Hint Resolve RT_header RT_opcode : rt.

Lemma RT_nop op v : op < 64 -> nop_opcode v = op -> RT (write_nop op v) read_nop v.
Proof. intros Ho <-. destruct v. unfold write_nop, read_nop. rt. Qed.
Lemma RT_file_id_op op v : op < 64 -> wf_file_id_op op v -> RT (write_file_id_op op v) read_file_id_op v.
Proof. intros Ho (<- & H). destruct v. unfold write_file_id_op, read_file_id_op. rt. Qed.
Lemma RT_file_data {E : Env} op v : op < 64 -> wf_file_data op v -> RT (write_file_data op v) read_file_data v.
Proof.
  intros Ho (<- & H1 & H2). unfold write_file_data, read_file_data.
  pose proof (RT_file_payload _ _ (proj1 H1) H2). destruct v. rt.
Qed.
Lemma RT_file_properties op v : op < 64 -> wf_file_properties op v ->
  RT (write_file_properties op v) read_file_properties v.
Proof.
  intros Ho (<- & H1 & H2). destruct v. unfold write_file_properties, read_file_properties. rt.
Qed.
Lemma RT_read_file_data v : rf_opcode v = 1 /\ wf_file_offset (rf_offset v) /\ wf_length (rf_length v) ->
  RT (write_read_file_data 1 v) read_read_file_data v.
Proof.
  intros (Ho & H1 & H2). destruct v as [h o f l]. cbn [rf_opcode] in Ho. subst o.
  unfold write_read_file_data, read_read_file_data. assert (1 < 64) by reflexivity. rt.
Qed.
Lemma RT_action_query op v : op < 64 -> wf_action_query op v -> RT (write_action_query op v) read_action_query v.
Proof. intros Ho (<- & H). destruct v. unfold write_action_query, read_action_query. rt. Qed.
Lemma RT_permission_level v : RT (write_permission_level v) read_permission_level v. Proof. rt_enum v. Qed.
#[export] Hint Resolve RT_permission_level : rt.
Lemma RT_permission_request op v : op < 64 -> prq_opcode v = op ->
  (match prq_permission v with PermDash7 k => wf_fixed 8 k end) ->
  RT (write_permission_request op v) read_permission_request v.
Proof.
  intros Ho <- H. unfold write_permission_request, read_permission_request.
  assert (R : RT (write_permission (prq_permission v)) read_permission (prq_permission v)).
  { destruct (prq_permission v) as [k]. destruct H as (H1 & H2). unfold read_permission. cbn [write_permission].
    eapply RT_bind; [apply RT_u8; reflexivity|]. cbn [N.eqb Pos.eqb].
    eapply RT_last; [apply RT_bytes; assumption|]. reflexivity. }
  destruct v. rt.
Qed.
Lemma RT_copy_file op v : op < 64 -> cf_opcode v = op -> u8 (cf_src v) -> u8 (cf_dst v) ->
  RT (write_copy_file op v) read_copy_file v.
Proof. intros Ho <- H1 H2. destruct v. unfold write_copy_file, read_copy_file. rt. Qed.
Lemma RT_response_tag op v : op < 64 -> rt_opcode v = op -> u8 (rt_id v) ->
  RT (write_response_tag op v) read_response_tag v.
Proof. intros Ho <- H. destruct v. unfold write_response_tag, read_response_tag. rt. Qed.
Lemma RT_request_tag op v : op < 64 -> rq_opcode v = op -> u8 (rq_id v) ->
  RT (write_request_tag op v) read_request_tag v.
Proof. intros Ho <- H. destruct v. unfold write_request_tag, read_request_tag. rt. Qed.
Lemma RT_chunk_step v : RT (write_chunk_step v) read_chunk_step v. Proof. rt_enum v. Qed.
Lemma RT_logic_op v : RT (write_logic_op v) read_logic_op v. Proof. rt_enum v. Qed.
Lemma RT_status_type v : RT (write_status_type v) read_status_type v. Proof. rt_enum v. Qed.
#[export] Hint Resolve RT_chunk_step RT_logic_op RT_status_type : rt.
Lemma RT_chunk op v : op < 64 -> ck_opcode v = op -> RT (write_chunk op v) read_chunk v.
Proof. intros Ho <-. destruct v. unfold write_chunk, read_chunk. rt. Qed.
Lemma RT_logic op v : op < 64 -> lg_opcode v = op -> RT (write_logic op v) read_logic v.
Proof. intros Ho <-. destruct v. unfold write_logic, read_logic. rt. Qed.

(** statuses *)
Lemma RT_itf_status_op {E : Env} v : wf_itf_status_op v -> RT (write_itf_status_op v) read_itf_status_op v.
Proof.
  destruct v as [t s]. unfold wf_itf_status_op, write_itf_status_op, read_itf_status_op.
  cbn [iso_type iso_status]. intros H.
  assert (T : RT (write_interface_type t) read_interface_type t).
  { destruct t, s; try contradiction; unfold write_interface_type, read_interface_type; cbn [interface_type_id];
      (eapply RT_last; [apply RT_u8; reflexivity|]; reflexivity). }
  eapply RT_bind; [exact T|]. cbv beta.
  eapply RT_ext with (m := s' <- (l <- read_length ;; read_interface_status t l) ;; ret (mkItfStatusOp t s')).
  { intros r. apply bind_assoc. }
  eapply RT_last; [|reflexivity].
  destruct t, s as [| |d|l]; try contradiction; cbn [write_interface_status read_interface_status].
  - apply RT_prefixed with (l := []); [apply W_nil|reflexivity|apply RT_nil].
  - apply RT_prefixed with (l := []); [apply W_nil|reflexivity|apply RT_nil].
  - apply RT_prefixed with (l := enc_dash7_status d).
    + apply W_dash7_status. assumption.
    + apply enc_dash7_status_length. assumption.
    + eapply RT_last; [apply RT_dash7_status; assumption|]. reflexivity.
Qed.
Lemma RT_itf_final_op v : wf_itf_final_op v -> RT (write_itf_final_op v) read_itf_final_op v.
Proof.
  destruct v as [i s]. unfold wf_itf_final_op, write_itf_final_op, read_itf_final_op.
  cbn [ifo_id ifo_status]. intros H.
  assert (Hi : i < 256). { destruct s; [subst i; reflexivity|apply H]. }
  eapply RT_bind; [apply RT_u8; exact Hi|]. cbv beta.
  eapply RT_ext with (m := s' <- (l <- read_length ;; read_interface_final_status i l) ;; ret (mkItfFinalOp i s')).
  { intros r. apply bind_assoc. }
  eapply RT_last; [|reflexivity].
  destruct s as [c|l]; cbn [write_interface_final_status]; unfold read_interface_final_status.
  - subst i. cbn [N.eqb Pos.eqb]. apply RT_prefixed with (l := [code_final c]).
    + apply (W_u8_last (final_status_code_id c)). destruct c; reflexivity.
    + reflexivity.
    + eapply RT_last; [apply RT_final_status_code|]. reflexivity.
  - destruct H as (_ & H1 & H2 & H3). rewrite (proj2 (N.eqb_neq i _) H1).
    apply RT_prefixed with (l := l); [apply W_vec; assumption|assumption|].
    eapply RT_last; [apply RT_vec_u8; [reflexivity|assumption]|]. reflexivity.
Qed.
Lemma RT_status_operand {E : Env} op v : op < 64 -> wf_status_operand op v ->
  RT (write_status_operand op v) read_status_operand v.
Proof.
  intros Ho (<- & H). unfold write_status_operand, read_status_operand.
  assert (R : RT (write_status (so_status v)) (read_status (so_type v)) (so_status v)).
  { destruct (so_type v), (so_status v) as [a|i|f]; try contradiction; cbn [write_status read_status].
    - destruct H as (H1 & H2). destruct a. eapply RT_last; [|reflexivity].
      unfold write_action_status, read_action_status. rt.
    - eapply RT_last; [apply RT_itf_status_op; exact H|]. reflexivity.
    - destruct H as (H1 & H2). unfold is_wizzilab. rewrite H1.
      eapply RT_last; [apply RT_itf_final_op; exact H2|]. reflexivity. }
  destruct v. rt.
Qed.

(** The two operands that may end in an [id_pat] variant. *)
Lemma RTA_forward {E : Env} op v : op < 64 -> wf_forward op v -> RTA (write_forward op v) read_forward v.
Proof.
  intros Ho (<- & H). destruct v as [r o c]. cbn [fw_opcode fw_config] in *.
  unfold write_forward, read_forward. cbn [fw_opcode fw_config fw_response].
  destruct (RTA_interface_config c H) as (bs & Hw & R).
  assert (P : RT (write_pad 1 +++ write_bool r +++ write_opcode o)
    (skip_bits 1 ;;; r <- read_bool ;; o <- read_opcode ;; ret (r, o)) (r, o)) by rt.
  destruct P as (a & Ha & Ra).
  assert (La : length a = 8%nat).
  { unfold write_pad, write_bool, write_opcode, write_uint, wseq, rbind in Ha. injection Ha as <-. reflexivity. }
  rewrite <- !wseq_assoc in *. rewrite Ha, Hw. exists (a ++ bs). split; [reflexivity|].
  intros r0 Hr Hl Hp.
  assert (Q := ReadsA_bind _ (fun x => c <- read_interface_config ;; ret (mkForward (fst x) (snd x) c))
     a bs 1 (r, o) (mkForward r o c) La (Reads_A _ _ _ Ra)).
  rewrite <- Q; [|..]; try assumption.
  - rewrite !bind_assoc. apply bind_ext. intros _ r1. rewrite bind_assoc. apply bind_ext. intros x r2.
    rewrite bind_assoc. reflexivity.
  - intros r1 Hr1 Hl1 Hp1. unfold bind. rewrite R by assumption. reflexivity.
Qed.

Lemma RTA_indirect_forward {E : Env} op v : op < 64 -> wf_indirect_forward op v ->
  RTA (write_indirect_forward op v) read_indirect_forward v.
Proof.
  intros Ho (<- & H). destruct v as [g r o c]. cbn [if_opcode if_config if_overloaded] in *.
  unfold write_indirect_forward, read_indirect_forward. cbn [if_opcode if_config if_overloaded if_response].
  assert (RTA (write_opt write_indirect_interface c) (read_cond g read_indirect_interface) c) as (bs & Hw & R).
  { destruct g, c as [c|]; try contradiction; cbn [write_opt read_cond].
    - eapply RTA_last; [apply RTA_indirect_interface; exact H|]. reflexivity.
    - apply RT_A, RT_nil. }
  assert (P : RT (write_bool g +++ write_bool r +++ write_opcode o)
    (g <- read_bool ;; r <- read_bool ;; o <- read_opcode ;; ret (g, r, o)) (g, r, o)) by rt.
  destruct P as (a & Ha & Ra).
  assert (La : length a = 8%nat).
  { unfold write_pad, write_bool, write_opcode, write_uint, wseq, rbind in Ha. injection Ha as <-. reflexivity. }
  rewrite <- !wseq_assoc in *. rewrite Ha, Hw. exists (a ++ bs). split; [reflexivity|].
  intros r0 Hr Hl Hp.
  assert (Q := ReadsA_bind _ (fun x => c <- read_cond (fst (fst x)) read_indirect_interface ;;
      ret (mkIndirectForward (fst (fst x)) (snd (fst x)) (snd x) c))
     a bs 1 (g, r, o) (mkIndirectForward g r o c) La (Reads_A _ _ _ Ra)).
  rewrite <- Q; [|..]; try assumption.
  - rewrite !bind_assoc. apply bind_ext. intros x r1. rewrite bind_assoc. apply bind_ext. intros y r2.
    rewrite bind_assoc. reflexivity.
  - intros r1 Hr1 Hl1 Hp1. cbn [fst snd]. unfold bind. rewrite R by assumption. reflexivity.
Qed.
