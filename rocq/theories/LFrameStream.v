(** Lemmas for C76: frames that arrive piece by piece. *)
From Coq Require Import List NArith ZArith Bool Lia Arith ZifyBool ZifyNat ZifyN.
From Verif Require Import Base Deku Utils Types Physical Link Network Session Data Query Interface File
  Operation Action Command Frames Position WellFormed SpecLayout SpecApi SpecDecode SpecStream SpecPosition SpecFrameStream LBits LReader LNice LNiceFile LNiceOps
  LCommandApi LJoin LStream LFrames LDecodeFrame LPosition SpecFrameDecode.
Import ListNotations.
Open Scope N_scope.

(** Like [Nice], but a reader may also stop because the input is at its end. *)
Definition Stops {A} (m : reader A) : Prop := forall r, RWf r ->
  match m r with
  | Ok (v, r') => RWf r' /\ data r' = data r /\ (view r' = [] \/ forall e, m (ext r e) = Ok (v, ext r' e))
  | Err e => e <> EFuel /\ (e <> EIncomplete -> forall x, m (ext r x) = Err e)
  | Panic => False
  end.
Definition Whole {A} (m : reader A) : Prop := forall r, RWf r ->
  match m r with
  | Ok (v, r') => RWf r' /\ data r' = data r /\ forall e, m (ext r e) = Ok (v, ext r' e)
  | Err e => e <> EFuel /\ (e <> EIncomplete -> forall x, m (ext r x) = Err e)
  | Panic => False
  end.
Lemma Whole_Nice {A} k (m : reader A) P : Nice k m P -> Whole m.
Proof. intros H r Hr. specialize (H r Hr). destruct (m r) as [[v r']|e|]; [|exact H|exact H]. destruct H as (_ & H1 & H2 & _ & H3). auto. Qed.
Lemma Whole_bind {A B} (m : reader A) (f : A -> reader B) : Whole m -> (forall x, Whole (f x)) -> Whole (bind m f).
Proof.
  intros Hm Hf r Hr. unfold bind. specialize (Hm r Hr). destruct (m r) as [[x r1]|er|]; auto.
  2: { destruct Hm as (F1 & F2). split; [exact F1|]. intros Hi y. rewrite (F2 Hi). reflexivity. }
  destruct Hm as (Hr1 & D1 & X1). specialize (Hf x r1 Hr1). destruct (f x r1) as [[y r2]|er|]; auto.
  2: { destruct Hf as (F1 & F2). split; [exact F1|]. intros Hi y. rewrite X1. apply F2. exact Hi. }
  destruct Hf as (Hr2 & D2 & X2). split; [exact Hr2|]. split; [congruence|]. intros e. rewrite X1, X2. reflexivity.
Qed.
Lemma Stops_after {A B} (m : reader A) (f : A -> reader B) : Whole m -> (forall x, Stops (f x)) -> Stops (bind m f).
Proof.
  intros Hm Hf r Hr. unfold bind. specialize (Hm r Hr). destruct (m r) as [[x r1]|er|]; auto.
  2: { destruct Hm as (F1 & F2). split; [exact F1|]. intros Hi y. rewrite (F2 Hi). reflexivity. }
  destruct Hm as (Hr1 & D1 & X1). specialize (Hf x r1 Hr1). destruct (f x r1) as [[y r2]|er|]; auto.
  2: { destruct Hf as (F1 & F2). split; [exact F1|]. intros Hi y. rewrite X1. apply F2. exact Hi. }
  destruct Hf as (Hr2 & D2 & X2). split; [exact Hr2|]. split; [congruence|].
  destruct X2 as [X2|X2]; [left; exact X2|right]. intros e. rewrite X1, X2. reflexivity.
Qed.
Lemma Stops_ret {A B} (m : reader A) (f : A -> B) : Stops m -> Stops (bind m (fun x => ret (f x))).
Proof.
  intros Hm r Hr. unfold bind. specialize (Hm r Hr). destruct (m r) as [[x r1]|er|]; auto.
  2: { destruct Hm as (F1 & F2). split; [exact F1|]. intros Hi y. rewrite (F2 Hi). reflexivity. }
  destruct Hm as (Hr1 & D1 & X1). cbn [ret]. split; [exact Hr1|]. split; [exact D1|].
  destruct X1 as [X1|X1]; [left; exact X1|right]. intros e. rewrite X1. reflexivity.
Qed.
(** What needs more input makes it whole. *)
Definition Hungry {A} (m : reader A) : Prop := forall r, RWf r -> view r = [] -> m r = Err EIncomplete.
Lemma Whole_hungry {A B} (m : reader A) (f : A -> reader B) : Stops m -> (forall x, Whole (f x)) -> (forall x, Hungry (f x)) ->
  Whole (bind m f).
Proof.
  intros Hm Hf Hh r Hr. unfold bind. specialize (Hm r Hr). destruct (m r) as [[x r1]|er|]; auto.
  2: { destruct Hm as (F1 & F2). split; [exact F1|]. intros Hi y. rewrite (F2 Hi). reflexivity. }
  destruct Hm as (Hr1 & D1 & [X1|X1]).
  - rewrite (Hh x r1 Hr1 X1). apply incomplete. reflexivity.
  - specialize (Hf x r1 Hr1). destruct (f x r1) as [[y r2]|er|]; auto.
    2: { destruct Hf as (F1 & F2). split; [exact F1|]. intros Hi y. rewrite X1. apply F2. exact Hi. }
    destruct Hf as (Hr2 & D2 & X2). split; [exact Hr2|]. split; [congruence|]. intros e. rewrite X1, X2. reflexivity.
Qed.

(** ** The loop *)
Lemma valid_ext len r e : match valid_length len r with
  | Ok (ok, r1) => valid_length len (ext r e) = Ok (ok, ext r1 e) | _ => False end.
Proof. unfold valid_length. destruct (len =? 0); reflexivity. Qed.
Lemma valid_state len r ok r1 : RWf r -> valid_length len r = Ok (ok, r1) -> RWf r1 /\ data r1 = data r /\ (BP r <= BP r1)%nat.
Proof.
  unfold valid_length. intros Hr. destruct (len =? 0); intros H; injection H as _ <-.
  - split; [exact Hr|]. split; [reflexivity|lia].
  - destruct Hr as (R1 & R2 & R3). unfold RWf, BP. cbn [data pos left length]. repeat split; lia.
Qed.
Lemma end_ext r : RWf r -> match at_end r with
  | Ok (true, r1) => r1 = r /\ view r = []
  | Ok (false, r1) => forall e, at_end (ext r e) = Ok (false, ext r1 e)
  | _ => False
  end.
Proof.
  intros (R1 & R2 & R3). unfold at_end, ext. cbn [left data pos bread]. destruct (left r) as [|x l] eqn:L.
  - destruct (nth_error (data r) (pos r)) as [b|] eqn:Q.
    + intros e. rewrite nth_error_app1 by (apply nth_error_Some; congruence). rewrite Q. reflexivity.
    + split; [reflexivity|]. unfold view. rewrite L. apply nth_error_None in Q. rewrite skipn_all2 by exact Q. reflexivity.
  - intros e. try rewrite L. reflexivity.
Qed.
Lemma loop_stops {E : Env} fuel : forall len acc r, RWf r -> (8 * length (data r) < BP r + 8 * fuel)%nat ->
  match read_actions fuel len acc r with
  | Ok (c, r') => RWf r' /\ data r' = data r /\ (view r' = [] \/ forall e k, read_actions (fuel + k) len acc (ext r e) = Ok (c, ext r' e))
  | Err e => e <> EFuel /\ (e <> EIncomplete -> forall x k, read_actions (fuel + k) len acc (ext r x) = Err e)
  | Panic => False
  end.
Proof.
  induction fuel as [|fuel IH]; intros len acc r Hr Hf; [pose proof (BP_bound r Hr); lia|].
  cbn [read_actions Nat.add]. unfold bind at 1.
  pose proof (fun e => valid_ext len r e) as V. destruct (valid_length len r) as [[ok r1]| |] eqn:E1; [|exfalso; exact (V [])|exact (V [])].
  destruct (valid_state _ _ _ _ Hr E1) as (Hr1 & D1 & B1).
  destruct ok.
  2:{ cbn [ret]. split; [exact Hr1|]. split; [exact D1|]. right. intros e k. unfold bind. rewrite V. reflexivity. }
  destruct (at_end_spec r1 Hr1) as (e0 & r2 & E2 & Hr2 & D2 & B2 & _). unfold bind at 1. rewrite E2.
  pose proof (end_ext r1 Hr1) as X. rewrite E2 in X. destruct e0.
  { destruct X as (-> & X). cbn [ret]. split; [exact Hr1|]. split; [exact D1|]. left. exact X. }
  destruct (last_is_indirect acc) eqn:Li.
  { cbn [ret]. split; [exact Hr2|]. split; [congruence|]. right. intros e k. unfold bind. rewrite V, X. reflexivity. }
  unfold bind at 1. pose proof (Nice_action r2 Hr2) as N8. destruct (read_action r2) as [[a r3]|er|] eqn:E3; [| |exact N8].
  2:{ destruct N8 as (F1 & F2). split; [exact F1|]. intros Hi x k. unfold bind. rewrite V, X, (F2 Hi). reflexivity. }
  destruct N8 as (_ & Hr3 & D3 & B3 & X3).
  specialize (IH len (acc ++ [a]) r3 Hr3). assert (D : data r3 = data r) by congruence. rewrite D in IH. specialize (IH ltac:(lia)).
  destruct (read_actions fuel len (acc ++ [a]) r3) as [[c r4]|er|]; [| |exact IH].
  - destruct IH as (Hr4 & D4 & X4). split; [exact Hr4|]. split; [exact D4|]. destruct X4 as [X4|X4]; [left; exact X4|right].
    intros e k. unfold bind. rewrite V, X, X3. apply X4.
  - destruct IH as (F1 & F2). split; [exact F1|]. intros Hi x k. unfold bind. rewrite V, X, X3. apply F2. exact Hi.
Qed.
Lemma Stops_command {E : Env} len : Stops (read_command len).
Proof.
  intros r Hr. unfold read_command. pose proof (loop_stops (S (length (data r))) len [] r Hr ltac:(pose proof (BP_bound r Hr); lia)) as H.
  assert (L : forall e, S (length (data (ext r e))) = (S (length (data r)) + length e)%nat) by (intros e; unfold ext; cbn [data]; rewrite app_length; lia).
  destruct (read_actions _ len [] r) as [[c r']|er|]; [| |exact H].
  - destruct H as (H1 & H2 & H3). split; [exact H1|]. split; [exact H2|]. destruct H3 as [H3|H3]; [left; exact H3|right].
    intros e. rewrite L. apply H3.
  - destruct H as (F1 & F2). split; [exact F1|]. intros Hi x. rewrite L. apply F2. exact Hi.
Qed.

(** ** Frames *)
Lemma Stops_tframe {E : Env} L : Stops (read_tframe L).
Proof.
  unfold read_tframe. apply Stops_after; [eapply Whole_Nice, Nice_tcontrol|]. intros c.
  apply Stops_after; [eapply Whole_Nice, Nice_u8|]. intros d. apply Stops_after; [eapply Whole_Nice, Nice_u8|]. intros t.
  apply Stops_after; [eapply Whole_Nice, Nice_cond, Nice_u8|]. intros x.
  do 3 (apply Stops_after; [eapply Whole_Nice, Nice_cond, Nice_varint|]; intros ?).
  apply Stops_after; [eapply Whole_Nice, Nice_cond, Nice_ack|]. intros a. apply Stops_ret, Stops_command.
Qed.
Lemma Stops_nframe {E : Env} L : Stops (read_nframe L).
Proof.
  unfold read_nframe. apply Stops_after; [eapply Whole_Nice, Nice_ncontrol|]. intros c.
  apply Stops_after; [eapply Whole_Nice, Nice_cond, Nice_hopping|]. intros h.
  apply Stops_after; [eapply Whole_Nice, Nice_access_class|]. intros a. apply Stops_after; [eapply Whole_Nice, Nice_address|]. intros o.
  apply Stops_ret, Stops_tframe.
Qed.
Lemma hungry_crc {E : Env} {B} (f : N -> B) : Hungry (bind (read_native 2) (fun c => ret (f c))).
Proof.
  intros r Hr V. unfold bind, read_native, bind. rewrite read_bits_err; [reflexivity|exact Hr|rewrite V; cbn; lia].
Qed.
Lemma Whole_fframe {E : Env} : Whole read_fframe.
Proof.
  unfold read_fframe. apply Whole_bind; [eapply Whole_Nice, Nice_length|]. intros l. apply Whole_bind; [eapply Whole_Nice, Nice_u8|]. intros s.
  apply Whole_bind; [eapply Whole_Nice, Nice_enum0|]. intros t. apply Whole_bind; [eapply Whole_Nice, Nice_uint|]. intros e.
  apply Whole_bind; [eapply Whole_Nice, Nice_address|]. intros a.
  apply Whole_hungry; [apply Stops_nframe| |intros f; apply hungry_crc].
  intros f. apply Whole_bind; [eapply Whole_Nice, Nice_native; reflexivity|]. intros c. eapply Whole_Nice, (Nice_ret _ (fun _ => True)). exact I.
Qed.

(** ** Incremental *)
Definition Body {A} (m : reader A) (r : rd) : Prop :=
  match m r with
  | Ok (v, r') => RWf r' /\ data r' = data r /\ forall e, m (ext r e) = Ok (v, ext r' e)
  | Err e => e <> EFuel /\ (e <> EIncomplete -> forall x, m (ext r x) = Err e)
  | Panic => False
  end.
Lemma Body_incremental {A} (m : reader A) : (forall d, Body m (new_reader d)) ->
  incremental (fun d => rbind (m (new_reader d)) (fun x => Ok (bread (snd x), fst x))).
Proof.
  intros H. split; [|split].
  - intros d s x Hx. specialize (H d). unfold Body in H. destruct (m (new_reader d)) as [[v r]| |]; try discriminate.
    destruct H as (_ & _ & H). rewrite <- ext_new, H. exact Hx.
  - intros d s e Hx He. specialize (H d). unfold Body in H. destruct (m (new_reader d)) as [[v r]|e'|]; try discriminate.
    cbn [rbind] in *. assert (e' = e) by congruence. subst e'. destruct H as (_ & H). rewrite <- ext_new, H by exact He. reflexivity.
  - intros d s x Hx. specialize (H d). unfold Body in H. destruct (m (new_reader d)) as [[v r]|e|].
    + left. destruct H as (_ & _ & H). rewrite <- ext_new, H in Hx. exact Hx.
    + right. destruct H as (_ & H). destruct e; try reflexivity; rewrite <- ext_new, H in Hx by discriminate; discriminate.
    + destruct H.
Qed.
Lemma incremental_fframe {E : Env} off : incremental (fun d => d_from_reader read_fframe d off).
Proof.
  unfold d_from_reader, start. destruct (Nat.eqb off 0); apply Body_incremental; intros d.
  - apply Whole_fframe, RWf_new.
  - refine (Whole_bind _ _ (Whole_Nice _ _ _ (Nice_skip off)) (fun _ => Whole_fframe) _ (RWf_new d)).
Qed.
Lemma incremental_bframe {E : Env} off : incremental (fun d => d_from_reader read_bframe d off).
Proof. exact (Nice_incremental _ _ _ off Nice_bframe). Qed.

(** ** What is needed *)
Lemma cut_early {A} (m : reader A) d p n v q k : (p <= length d)%nat -> (p <= k)%nat ->
  (forall d p, (p <= length d)%nat -> Body m (mkRd d p [] 0)) -> from_stream m d p 0 = Ok (n, v, q) ->
  from_stream m (firstn k d) p 0 = Err EIncomplete \/ (q <= k)%nat /\ from_stream m (firstn k d) p 0 = Ok (n, v, q).
Proof.
  intros Hp Hk HB H. unfold from_stream in *. cbn [Nat.eqb] in *.
  specialize (HB (firstn k d) p ltac:(rewrite firstn_length; lia)). unfold Body in HB.
  assert (X : ext (mkRd (firstn k d) p [] 0) (skipn k d) = mkRd d p [] 0) by (unfold ext; cbn [data pos left bread]; rewrite firstn_skipn; reflexivity).
  destruct (m (mkRd (firstn k d) p [] 0)) as [[w r]|e|].
  - right. destruct HB as ((R1 & _) & D & HB). specialize (HB (skipn k d)). rewrite X in HB. rewrite HB in H.
    cbn [rbind fst snd ext bread pos data] in *. injection H as <- <- <-. split; [|reflexivity].
    rewrite D in R1. cbn [data] in R1. rewrite firstn_length in R1. lia.
  - destruct HB as (_ & HB). destruct e; try (left; reflexivity); specialize (HB ltac:(discriminate) (skipn k d));
      rewrite X in HB; rewrite HB in H; discriminate.
  - destruct HB.
Qed.
(** A decoder that is local, up to the last byte. *)
Lemma cut_late {A} (D : dec A) d p v rest k : Loc D -> (p <= length d)%nat -> D (skipn p d) = Some (v, rest) ->
  (length d - length rest <= k)%nat ->
  exists rest', D (skipn p (firstn k d)) = Some (v, rest') /\ (length (firstn k d) - length rest' = length d - length rest)%nat.
Proof.
  intros HD Hp H Hk. destruct (HD _ _ _ H) as (u & Hu & Hs).
  assert (Ed : d = (firstn p d ++ u) ++ rest) by (rewrite <- app_assoc, <- Hu, firstn_skipn; reflexivity).
  assert (L : length (firstn p d) = p) by (rewrite firstn_length; lia).
  assert (Ld : length d = (p + length u + length rest)%nat) by (rewrite Ed, !app_length, L at 1; lia).
  exists (firstn (k - (p + length u)) rest).
  assert (Ef : firstn k d = (firstn p d ++ u) ++ firstn (k - (p + length u)) rest).
  { rewrite Ed at 1. rewrite firstn_app. rewrite firstn_all2 by (rewrite app_length, L; lia). rewrite app_length, L. reflexivity. }
  rewrite Ef. split.
  - rewrite <- app_assoc. rewrite skipn_app, L, Nat.sub_diag, skipn_all2 by lia. cbn [skipn app]. apply Hs.
  - rewrite !app_length, L. lia.
Qed.
Lemma bytes_cut k d : bytes d -> bytes (firstn k d).
Proof. unfold bytes. rewrite <- (firstn_skipn k d) at 1. intros H. apply Forall_app in H. apply H. Qed.
Definition Decides {A} (m : reader A) (D : nat -> dec A) : Prop := forall d p, bytes d -> (p <= length d)%nat ->
  match D p (skipn p d) with
  | Some (v, rest) => exists n, from_stream m d p 0 = Ok (n, v, length d - length rest)%nat
  | None => exists e, from_stream m d p 0 = Err e
  end.
Lemma needs_decides {A} (m : reader A) D : (forall d p, (p <= length d)%nat -> Body m (mkRd d p [] 0)) -> (forall p, Loc (D p)) -> Decides m D -> needs_exactly m.
Proof.
  intros HB HD HL d p n v q k Hd Hp Hk H. pose proof (cut_early m d p n v q k Hp Hk HB H) as C.
  pose proof (HL d p Hd Hp) as L. destruct (D p (skipn p d)) as [[w rest]|] eqn:ED; [|destruct L as [e L]; congruence].
  destruct L as [n' L]. rewrite H in L. injection L as <- -> ->. destruct (Nat.ltb_spec k (length d - length rest)) as [Hq|Hq].
  - destruct C as [C|(C & _)]; [exact C|lia].
  - destruct (cut_late (D p) d p w rest k (HD p) Hp ED Hq) as (rest' & E' & L').
    pose proof (HL (firstn k d) p (bytes_cut k d Hd) ltac:(rewrite firstn_length; lia)) as L. rewrite E' in L. destruct L as [n' L].
    destruct C as [C|(_ & C)]; [congruence|exact C].
Qed.
Lemma leaves_decides {A} (m : reader A) D : leaves m D -> Decides m (fun _ => D).
Proof. intros H d p Hd Hp. specialize (H d p Hd Hp). destruct (D (skipn p d)) as [[v r]|]; [eexists|]; exact H. Qed.
Lemma at_wf d p : (p <= length d)%nat -> RWf (mkRd d p [] 0).
Proof. intros H. unfold RWf. cbn [data pos left length]. lia. Qed.
Lemma needs_nice {A} k (m : reader A) P D : Nice k m P -> Loc D -> leaves m D -> needs_exactly m.
Proof.
  intros HN HD HL. apply (needs_decides m (fun _ => D)); [|intros; exact HD|apply leaves_decides; exact HL].
  intros d p Hp. apply (Whole_Nice _ _ _ HN), at_wf, Hp.
Qed.
Lemma needs_aligned {A} (m : reader A) P D : NiceA m P -> Loc D -> leaves m D -> needs_exactly m.
Proof.
  intros HN HD HL. apply (needs_decides m (fun _ => D)); [|intros; exact HD|apply leaves_decides; exact HL].
  intros d p Hp. specialize (HN _ (at_wf d p Hp) eq_refl). unfold NiceR in HN. unfold Body. destruct (m (mkRd d p [] 0)) as [[v r]|e|]; [|exact HN|exact HN].
  destruct HN as (_ & H1 & H2 & _ & H3). auto.
Qed.
Lemma Loc_action {E : Env} : Loc dec_action.
Proof.
  intros [|b l] v r H; [discriminate|]. unfold dec_action in H. destruct (operand_takes _ _ _ _ H) as (b' & p & Hl & Hs).
  assert (b' = b) by (cbn [app] in Hl; congruence). subst b'. exists (b :: p). split; [exact Hl|]. intros s. unfold dec_action. cbn [app]. apply Hs.
Qed.
Lemma needs_action {E : Env} : needs_exactly read_action.
Proof.
  apply (needs_decides _ (fun _ => dec_action)); [|intros; apply Loc_action|].
  - intros d p Hp. apply (Whole_Nice _ _ _ Nice_action), at_wf, Hp.
  - intros d p Hd Hp. pose proof (action_left d p Hd Hp) as H. destruct (dec_action (skipn p d)) as [[v r]|]; [|exact H].
    destruct H as [_ H]. eexists. exact H.
Qed.
Lemma Loc_bframe {E : Env} : Loc dec_bframe. Proof. unfold dec_bframe. loc. Qed.
Lemma needs_types {E : Env} :
  needs_exactly read_length /\ needs_exactly read_varint /\ needs_exactly read_file_offset /\
  needs_exactly read_channel_header /\ needs_exactly read_channel /\ needs_exactly read_channel_status /\
  needs_exactly read_sub_band /\ needs_exactly read_sub_profile /\ needs_exactly read_access_profile /\
  needs_exactly read_addressee /\ needs_exactly read_qos /\ needs_exactly read_dash7_status /\
  needs_exactly read_dash7_tx_status /\ needs_exactly read_final_status_code /\ needs_exactly read_file_header.
Proof.
  destruct (@leaves_types E) as (H1 & H2 & H3 & H4 & H5 & H6 & H7 & H8 & H9 & H10 & H11 & H12 & H13 & H14 & H15).
  repeat split; (eapply needs_nice; [|
    |first [exact H1|exact H2|exact H3|exact H4|exact H5|exact H6|exact H7|exact H8|exact H9|exact H10|exact H11|exact H12|exact H13|exact H14|exact H15]];
    [first [exact Nice_length|exact Nice_varint|exact Nice_file_offset|exact Nice_channel_header|exact Nice_channel|exact Nice_channel_status
    |exact Nice_sub_band|exact Nice_sub_profile|exact Nice_access_profile|exact Nice_addressee|exact Nice_qos|exact Nice_dash7_status
    |exact Nice_dash7_tx_status|exact Nice_final_status_code|exact Nice_file_header]|loc]).
Qed.
Lemma needs_operations {E : Env} :
  needs_exactly read_query /\ needs_exactly read_dash7_config /\ needs_exactly read_lorawan_config /\
  needs_exactly read_interface_config /\ needs_exactly read_indirect_interface /\
  needs_exactly read_itf_status_op /\ needs_exactly read_itf_final_op /\ needs_exactly read_bframe.
Proof.
  destruct (@leaves_operations E) as (H1 & H2 & H3 & H4 & H5 & H6 & H7 & H8).
  split; [exact (needs_nice _ _ _ _ Nice_query Loc_query H1)|]. split; [exact (needs_nice _ _ _ _ Nice_dash7_config Loc_dash7_config H2)|].
  split; [exact (needs_nice _ _ _ _ Nice_lorawan_config Loc_lorawan H3)|].
  split; [exact (needs_aligned _ _ _ NiceA_interface_config Loc_interface_config H4)|].
  split; [exact (needs_aligned _ _ _ NiceA_indirect_interface Loc_indirect_interface H5)|].
  split; [exact (needs_aligned _ _ _ NiceA_itf_status_op Loc_itf_status H6)|].
  split; [exact (needs_nice _ _ _ _ Nice_itf_final_op Loc_itf_final H7)|exact (needs_nice _ _ _ _ Nice_bframe Loc_bframe H8)].
Qed.

(** ** Frames *)
Lemma late_app j u x t : late j (u ++ x :: t) = late j (u ++ [x]) ++ late j (x :: t).
Proof.
  induction u as [|a u IH]; [reflexivity|]. destruct u as [|b u]; [reflexivity|].
  cbn [app] in *. change (late j (a :: b :: u ++ x :: t)) with ((a mod 2 ^ (8 - j) * 2 ^ j + b / 2 ^ (8 - j)) :: late j (b :: u ++ x :: t)).
  rewrite IH. reflexivity.
Qed.
Lemma Loc_late {A} (D : dec A) j l v rest : Loc D -> l <> [] -> D (late j l) = Some (v, rest) ->
  exists u x t, l = u ++ x :: t /\ length rest = length t /\ forall s, D (late j (u ++ x :: s)) = Some (v, late j (x :: s)).
Proof.
  intros HD Hl H. destruct (HD _ _ _ H) as (p & Hp & Hs).
  assert (L : (length p + length rest = Nat.pred (length l))%nat) by (rewrite <- app_length, <- Hp; apply late_length).
  destruct (skipn (length p) l) as [|x t] eqn:Sk.
  { assert (G : length (skipn (length p) l) = 0%nat) by (rewrite Sk; reflexivity). rewrite skipn_length in G. destruct l; [congruence|cbn [length] in *; lia]. }
  assert (El : l = firstn (length p) l ++ x :: t) by (rewrite <- Sk; symmetry; apply firstn_skipn).
  assert (Lt : length rest = length t).
  { assert (G : length (skipn (length p) l) = S (length t)) by (rewrite Sk; reflexivity). rewrite skipn_length in G. lia. }
  exists (firstn (length p) l), x, t. split; [exact El|]. split; [exact Lt|].
  assert (Ep : late j (firstn (length p) l ++ [x]) = p).
  { rewrite El, late_app in Hp. refine (app_eq_len _ _ _ _ _ Hp). rewrite late_length, app_length, firstn_length. cbn [length]. 
    destruct l; [congruence|cbn [length] in *; lia]. }
  intros s. rewrite late_app, Ep. apply Hs.
Qed.
Lemma Loc_perhaps {A} c (D : dec A) : Loc D -> Loc (perhaps c D). Proof. unfold perhaps. intros. loc. Qed.
Lemma Loc_link : Loc dec_link. Proof. unfold dec_link. loc. Qed.
Lemma Loc_hopping : Loc dec_hopping. Proof. unfold dec_hopping. loc. Qed.
#[global] Hint Resolve Loc_perhaps Loc_hopping : loc.
Lemma Loc_net c n : Loc (dec_net c n).
Proof. unfold dec_net. loc. Qed.
Lemma Loc_trans c : Loc (dec_trans c).
Proof. unfold dec_trans. loc. Qed.
Lemma Loc_headers {E : Env} : Loc dec_headers.
Proof.
  assert (Plain : forall c x tl net rest y more tr rest',
    dec_net c (2 * part 0 3 c + part 7 1 x) (late 1 (x :: tl)) = Some (net, rest) ->
    skipn (length (late 1 (x :: tl)) - length rest) (x :: tl) = y :: more ->
    dec_trans (part 0 7 y) more = Some (tr, rest') ->
    exists p, x :: tl = p ++ rest' /\ forall s, exists tl' rest'' more',
      p ++ s = x :: tl' /\ dec_net c (2 * part 0 3 c + part 7 1 x) (late 1 (x :: tl')) = Some (net, rest'') /\
      skipn (length (late 1 (x :: tl')) - length rest'') (x :: tl') = y :: more' /\ dec_trans (part 0 7 y) more' = Some (tr, s)).
  { intros c x tl net rest y more tr rest' H1 H2 H3.
    destruct (Loc_late _ 1 (x :: tl) _ _ (Loc_net _ _) ltac:(discriminate) H1) as (u & z & t & El & Lt & Hs).
    assert (G : forall t', skipn (length (late 1 (u ++ z :: t')) - length (late 1 (z :: t'))) (u ++ z :: t') = z :: t').
    { intros t'. rewrite !late_length, app_length. cbn [length]. replace (Nat.pred (length u + S (length t')) - Nat.pred (S (length t')))%nat with (length u) by lia.
      rewrite skipn_app, skipn_all, Nat.sub_diag. reflexivity. }
    assert (y = z /\ more = t) as [-> ->].
    { specialize (G t). rewrite <- El in G. rewrite (late_length 1 (z :: t)) in G. cbn [length Nat.pred] in G. rewrite Lt in H2. split; congruence. }
    destruct (Loc_trans _ _ _ _ H3) as (q & -> & Hq).
    exists (u ++ z :: q). split; [rewrite El, <- app_assoc; reflexivity|]. intros s. rewrite <- app_assoc. cbn [app].
    exists (match u with [] => q ++ s | _ :: u => u ++ z :: q ++ s end), (late 1 (z :: q ++ s)), (q ++ s).
    assert (Ex : u ++ z :: q ++ s = x :: match u with [] => q ++ s | _ :: u => u ++ z :: q ++ s end)
      by (destruct u; cbn [app] in El |- *; f_equal; congruence).
    split; [exact Ex|]. rewrite <- Ex. split; [apply Hs|]. split; [apply G|apply Hq]. }
  intros l v r H. unfold dec_headers in H.
  assert (Wizz : e_feat = Wizzilab \/ e_feat <> Wizzilab) by (destruct e_feat; auto; right; discriminate).
  destruct Wizz as [Ew|Ew].
  - rewrite Ew in H. destruct l as [|c tl]; [discriminate|]. destruct (dec_net c (part 0 3 c) tl) as [[net [|x more]]|] eqn:E1; try discriminate.
    destruct (dec_trans (part 1 7 x) (late 7 (x :: more))) as [[tr rest]|] eqn:E2; [|discriminate].
    assert (v = fun m => net (tr m)) by congruence. subst v.
    assert (Hr : r = skipn (length (x :: more) - length rest) (x :: more)) by congruence. clear H.
    destruct (Loc_net _ _ _ _ _ E1) as (p & -> & Hp).
    destruct (Loc_late _ 7 (x :: more) _ _ (Loc_trans _) ltac:(discriminate) E2) as (u & z & t & El & Lt & Hs).
    assert (G : forall t' k, k = length t' -> skipn (length (u ++ z :: t') - k) (u ++ z :: t') = t').
    { intros t' k ->. rewrite app_length. cbn [length]. replace (length u + S (length t') - length t')%nat with (length (u ++ [z])) by (rewrite app_length; cbn [length]; lia).
      change (z :: t') with ([z] ++ t'). rewrite app_assoc, skipn_app, skipn_all, Nat.sub_diag. reflexivity. }
    exists (c :: p ++ u ++ [z]). split.
    { cbn [app]. f_equal. rewrite <- !app_assoc. cbn [app]. f_equal. rewrite Hr, El, (G t _ Lt). reflexivity. }
    intros s. unfold dec_headers. rewrite Ew. cbn [app]. rewrite <- !app_assoc. cbn [app]. rewrite Hp.
    assert (Ex : exists w, u ++ z :: s = x :: w) by (destruct u; cbn [app] in El |- *; eexists; f_equal; congruence).
    destruct Ex as (w & Ex). specialize (Hs s). specialize (G s (length (late 7 (z :: s))) ltac:(rewrite late_length; reflexivity)).
    rewrite Ex in Hs, G |- *. rewrite Hs, G. reflexivity.
  - assert (H' : match l with
      | c :: ((x :: _) as tl) =>
          match dec_net c (2 * part 0 3 c + part 7 1 x) (late 1 tl) with
          | Some (net, rest) =>
              match skipn (length (late 1 tl) - length rest) tl with
              | y :: more => match dec_trans (part 0 7 y) more with Some (tr, rest') => Some ((fun m => net (tr m)) : command -> nframe, rest') | None => None end
              | [] => None
              end
          | None => None
          end
      | _ => None
      end = Some (v, r)) by (destruct e_feat; [exact H|exact H|congruence]).
    clear H. destruct l as [|c [|x tl]]; try discriminate.
    destruct (dec_net c (2 * part 0 3 c + part 7 1 x) (late 1 (x :: tl))) as [[net rest]|] eqn:E1; [|discriminate].
    destruct (skipn (length (late 1 (x :: tl)) - length rest) (x :: tl)) as [|y more] eqn:E2; [discriminate|].
    destruct (dec_trans (part 0 7 y) more) as [[tr rest']|] eqn:E3; [|discriminate]. injection H' as <- <-.
    destruct (Plain _ _ _ _ _ _ _ _ _ E1 E2 E3) as (p & Hp & Hs). exists (c :: p). split; [cbn [app]; f_equal; exact Hp|].
    intros s. destruct (Hs s) as (tl' & rest'' & more' & G0 & G1 & G2 & G3). unfold dec_headers. cbn [app]. rewrite G0.
    destruct e_feat; [|  |congruence]; rewrite G1, G2, G3; reflexivity.
Qed.
Lemma limited_zero {E : Env} fuel limit at_ pend l : (limit =? 0) || (at_ <? limit) = false -> dec_limited fuel limit at_ pend l = Some ([], l).
Proof. intros H. destruct fuel; cbn [dec_limited]; rewrite H; reflexivity. Qed.
Lemma Loc_limited {E : Env} fuel : forall limit at_ pend l c r, dec_limited fuel limit at_ pend l = Some (c, r) -> r <> [] ->
  exists p, l = p ++ r /\ forall s f, s <> [] -> (length p <= f)%nat -> dec_limited f limit at_ pend (p ++ s) = Some (c, s).
Proof.
  induction fuel as [|fuel IH]; intros limit at_ pend l c r H Hr.
  - cbn [dec_limited] in H. destruct ((limit =? 0) || (at_ <? limit)) eqn:C.
    + destruct l; [|discriminate]. destruct ((if limit =? 0 then pend else 0) =? 0); congruence.
    + injection H as <- <-. exists []. split; [reflexivity|]. intros s f Hs _. apply limited_zero. exact C.
  - cbn [dec_limited] in H. destruct ((limit =? 0) || (at_ <? limit)) eqn:C.
    2:{ injection H as <- <-. exists []. split; [reflexivity|]. intros s f Hs _. apply limited_zero. exact C. }
    destruct l as [|b l]; [destruct ((if limit =? 0 then pend else 0) =? 0); congruence|].
    destruct (dec_operand (part (if limit =? 0 then pend else 0) 6 b) (b :: l)) as [[a rest]|] eqn:EO; [|discriminate].
    destruct (operand_takes _ _ _ _ EO) as (b' & p & Hl & Hs). assert (b' = b) by (cbn [app] in Hl; congruence). subst b'.
    destruct (is_indirect a) eqn:Ia.
    { injection H as <- <-. exists (b :: p). split; [exact Hl|]. intros s [|f] Hne Hf; [cbn [length] in Hf; lia|].
      specialize (Hs s). cbn [app dec_limited] in *. rewrite C, Hs, Ia. reflexivity. }
    destruct (dec_limited fuel limit _ _ rest) as [[c' r']|] eqn:ER; [|discriminate]. injection H as <- ->.
    destruct (IH _ _ _ _ _ _ ER Hr) as (q & Hq & Hs'). subst rest.
    exists ((b :: p) ++ q). split; [rewrite <- app_assoc; exact Hl|].
    intros s [|f] Hne Hf; [cbn [app length] in Hf; lia|]. rewrite <- app_assoc. cbn [dec_limited app]. rewrite C.
    specialize (Hs (q ++ s)). cbn [app] in Hs. rewrite Hs, Ia.
    replace (length (b :: p ++ q ++ s) - length (q ++ s))%nat with (length (b :: l) - length (q ++ r))%nat
      by (rewrite Hl; cbn [app length]; rewrite !app_length; lia).
    rewrite Hs'; [reflexivity|exact Hne|]. cbn [app length] in Hf. rewrite app_length in Hf. lia.
Qed.
Lemma Loc_fframe {E : Env} at_ : Loc (dec_fframe_at at_).
Proof.
  intros d v r H. unfold dec_fframe_at in H.
  destruct (dec_link d) as [[[limit link] l]|] eqn:E1; [|discriminate].
  destruct (dec_headers l) as [[net l1]|] eqn:E2; [|discriminate].
  destruct (dec_limited (length l1) limit _ _ l1) as [[c l2]|] eqn:E3; [|discriminate].
  destruct (host_num 2 l2) as [[crc rest]|] eqn:E4; [|discriminate]. injection H as <- <-.
  destruct (Loc_link _ _ _ E1) as (p1 & -> & S1). destruct (Loc_headers _ _ _ E2) as (p2 & -> & S2).
  destruct (Loc_host _ _ _ _ E4) as (p4 & -> & S4).
  assert (Hne : p4 <> []) by (intros ->; specialize (S4 []); discriminate).
  destruct (Loc_limited _ _ _ _ _ _ _ E3 ltac:(destruct p4; [congruence|discriminate])) as (p3 & -> & S3).
  exists (p1 ++ p2 ++ p3 ++ p4). split; [rewrite <- !app_assoc; reflexivity|]. intros s. rewrite <- !app_assoc.
  unfold dec_fframe_at. rewrite S1, S2.
  replace (length (p1 ++ p2 ++ p3 ++ p4 ++ s) - length (p3 ++ p4 ++ s))%nat with (length (p1 ++ p2 ++ p3 ++ p4 ++ rest) - length (p3 ++ p4 ++ rest))%nat
    by (rewrite !app_length; lia).
  rewrite S3, S4; [reflexivity|destruct p4; [congruence|discriminate]|rewrite app_length; lia].
Qed.
Lemma needs_fframe {E : Env} : needs_exactly read_fframe.
Proof.
  apply (needs_decides _ (fun p => dec_fframe_at (N.of_nat p))); [|intros; apply Loc_fframe|].
  - intros d p Hp. apply Whole_fframe, at_wf, Hp.
  - intros d p Hd Hp. pose proof (fframe_left d p Hd Hp) as H. destruct (dec_fframe_at (N.of_nat p) (skipn p d)) as [[v r]|]; [|exact H].
    destruct H as [_ H]. eexists. exact H.
Qed.
