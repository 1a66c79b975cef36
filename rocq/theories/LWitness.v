(** Counterexamples for the action and command properties that do not hold as stated. *)
From Coq Require Import List NArith ZArith Bool Lia.
From Verif Require Import Base Deku Utils Types Physical Link Network Session Data Query
  Interface File Operation Action Command LBits LReader WellFormed SpecLayout LTypes SpecApi SpecAction
  LAction LApi LActionApi LReencode LCommandApi SpecFail LWrite Samples.
Import ListNotations.
Open Scope N_scope.

(** C11: the six bits of padding between two TxStatus actions. *)
Lemma concat_refuted : ~ (forall (E : Env) a b x y, command_to_bytes a = Ok x -> command_to_bytes b = Ok y ->
  command_to_bytes (a ++ b) = Ok (x ++ y)).
Proof.
  intros H. specialize (H env_wizzilab [sample_tx] [sample_tx] _ _ eq_refl eq_refl). vm_compute in H. discriminate.
Qed.

(** C14: one byte too many is swallowed. *)
Lemma garbage_refuted {E : Env} : ~ (forall a s, wf_action a -> s <> [] ->
  action_try_from (enc_action a ++ s) = Err ETooMuchData).
Proof.
  intros H. specialize (H sample_tag [0] sample_tag_wf). rewrite action_try_from_suffix in H by apply sample_tag_wf.
  cbn in H. assert (K : @Ok action sample_tag = Err ETooMuchData) by (apply H; discriminate). discriminate.
Qed.

(** C15: the byte after the action is skipped. *)
Lemma remainder_refuted {E : Env} : ~ (forall a s, wf_action a -> action_from_bytes (enc_action a ++ s) 0 = Ok ((s, 0%nat), a)).
Proof.
  intros H. specialize (H sample_tag [1] sample_tag_wf).
  destruct (action_remainder_aligned _ _ _ (action_new sample_tag [1] sample_tag_wf) eq_refl) as (_ & _ & G).
  rewrite G in H. discriminate.
Qed.
Lemma remainder_wf {E : Env} a s : wf_action a -> action_from_bytes (enc_action a ++ s) 0 = Ok ((tl s, 0%nat), a).
Proof.
  intros H. assert (T : is_tx_status a = false) by (destruct a; try reflexivity; contradiction).
  destruct (action_remainder_aligned _ _ _ (action_new a s H) T) as (_ & _ & ->). cbn [pos].
  rewrite skipn_app, skipn_all2 by lia. replace (S (length (enc_action a)) - length (enc_action a))%nat with 1%nat by lia.
  destruct s; reflexivity.
Qed.

(** C16: what comes after an IndirectForward is lost. *)
Lemma after_indirect {E : Env} pre a post : Forall wf_action (pre ++ a :: post) ->
  Forall (fun x => is_indirect x = false) pre -> is_indirect a = true -> post <> [] ->
  exists l k, command_to_bytes (pre ++ a :: post) = Ok l /\ command_to_bytes post = Ok k /\
    command_try_from l = (if Nat.leb (length k) (S (length pre)) then Ok (pre ++ [a]) else Err ETooMuchData) /\
    command_try_from l <> Ok (pre ++ a :: post).
Proof.
  intros Hw Hn Hi Hp. assert (H := Hw). apply Forall_app in H as (H1 & H2). inversion H2 as [|? ? H3 H4]; subst.
  exists (enc_command (pre ++ a :: post)), (enc_command post).
  split; [apply command_bytes; exact Hw|]. split; [apply command_bytes; exact H4|].
  assert (G : enc_command (pre ++ a :: post) = enc_command (pre ++ [a]) ++ enc_command post).
  { unfold enc_command. rewrite !flat_map_app. cbn [flat_map]. rewrite app_nil_r, app_assoc. reflexivity. }
  rewrite G, (command_try_from_indirect pre a (enc_command post) H1 Hn H3 Hi). split; [reflexivity|].
  destruct (Nat.leb _ _); [|discriminate]. intros K. injection K as K. apply app_inv_head in K. injection K as K. congruence.
Qed.
