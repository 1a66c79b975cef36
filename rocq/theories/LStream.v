(** Lemmas for C53 to C55. *)
From Coq Require Import List NArith ZArith Bool Lia Arith ZifyBool ZifyNat ZifyN.
From Verif Require Import Base Deku Utils Types Physical Link Network Session Data Query Interface File
  Operation Action Command WellFormed SpecApi SpecLayout SpecDecode SpecStream LBits LReader LNice LNiceFile LNiceOps LDecodeLoop.
Import ListNotations.
Open Scope N_scope.

Lemma ext_new d s : ext (new_reader d) s = new_reader (d ++ s).
Proof. reflexivity. Qed.
Lemma NiceR_incremental {A} (m : reader A) (P : A -> Prop) :
  (forall d, NiceR 0 m P (new_reader d)) ->
  incremental (fun d => rbind (m (new_reader d)) (fun x => Ok (bread (snd x), fst x))).
Proof.
  intros H. split; [|split].
  - intros d s x Hx. specialize (H d). unfold NiceR in H. destruct (m (new_reader d)) as [[v r]| |]; try discriminate.
    destruct H as (_ & _ & _ & _ & H). rewrite <- ext_new, H. exact Hx.
  - intros d s e Hx He. specialize (H d). unfold NiceR in H. destruct (m (new_reader d)) as [[v r]|e'|]; try discriminate.
    cbn [rbind] in *. assert (e' = e) by congruence. subst e'. destruct H as (_ & H). rewrite <- ext_new, H by exact He. reflexivity.
  - intros d s x Hx. specialize (H d). unfold NiceR in H. destruct (m (new_reader d)) as [[v r]|e|].
    + left. destruct H as (_ & _ & _ & _ & H). rewrite <- ext_new, H in Hx. exact Hx.
    + right. destruct H as (_ & H). destruct e; try reflexivity; rewrite <- ext_new, H in Hx by discriminate; discriminate.
    + destruct H.
Qed.
Lemma Nice_incremental {A} k (m : reader A) P off : Nice k m P -> incremental (fun d => d_from_reader m d off).
Proof.
  intros H. unfold d_from_reader, start. destruct (Nat.eqb off 0).
  - apply (NiceR_incremental m P). intros d. apply Nice_R; [apply (Nice_0 k); exact H|apply RWf_new].
  - apply (NiceR_incremental _ P). intros d. apply Nice_R; [|apply RWf_new].
    apply (Nice_0 (off + k)). apply (Nice_bindk off k _ _ (fun _ => True)); [apply Nice_skip|intros x _; exact H].
Qed.
Lemma NiceA_incremental {A} (m : reader A) P : NiceA m P -> incremental (fun d => d_from_reader m d 0).
Proof. intros H. apply (NiceR_incremental m P). intros d. apply H; [apply RWf_new|reflexivity]. Qed.
Lemma incremental_action {E : Env} off : incremental (fun d => action_from_reader d off).
Proof. exact (Nice_incremental _ _ _ off Nice_action). Qed.
Lemma incremental_types {E : Env} off :
  incremental (fun d => d_from_reader read_length d off) /\ incremental (fun d => d_from_reader read_varint d off) /\
  incremental (fun d => d_from_reader read_file_offset d off) /\ incremental (fun d => d_from_reader read_channel_header d off) /\
  incremental (fun d => d_from_reader read_channel d off) /\ incremental (fun d => d_from_reader read_channel_status d off) /\
  incremental (fun d => d_from_reader read_sub_band d off) /\ incremental (fun d => d_from_reader read_sub_profile d off) /\
  incremental (fun d => d_from_reader read_access_profile d off) /\ incremental (fun d => d_from_reader read_addressee d off) /\
  incremental (fun d => d_from_reader read_qos d off) /\ incremental (fun d => d_from_reader read_dash7_status d off) /\
  incremental (fun d => d_from_reader read_dash7_tx_status d off) /\ incremental (fun d => d_from_reader read_final_status_code d off) /\
  incremental (fun d => d_from_reader read_file_header d off) /\ incremental (fun d => d_from_reader read_query d off) /\
  incremental (fun d => d_from_reader read_dash7_config d off) /\ incremental (fun d => d_from_reader read_lorawan_config d off) /\
  incremental (fun d => d_from_reader read_itf_final_op d off).
Proof.
  repeat split; try (eapply Nice_incremental; first
    [exact Nice_length|exact Nice_varint|exact Nice_file_offset|exact Nice_channel_header|exact Nice_channel|exact Nice_channel_status
    |exact Nice_sub_band|exact Nice_sub_profile|exact Nice_access_profile|exact Nice_addressee|exact Nice_qos|exact Nice_dash7_status
    |exact Nice_dash7_tx_status|exact Nice_final_status_code|exact Nice_file_header|exact Nice_query|exact Nice_dash7_config
    |exact Nice_lorawan_config|exact Nice_itf_final_op]).
Qed.
Lemma incremental_aligned {E : Env} :
  incremental (fun d => d_from_reader read_interface_config d 0) /\ incremental (fun d => d_from_reader read_indirect_interface d 0) /\
  incremental (fun d => d_from_reader read_interface_type d 0) /\ incremental (fun d => d_from_reader read_itf_status_op d 0).
Proof.
  repeat split; try (eapply NiceA_incremental; first
    [exact NiceA_interface_config|exact NiceA_indirect_interface|exact NiceA_interface_type|exact NiceA_itf_status_op]).
Qed.
Lemma incremental_file {E : Env} b n off : u8 b -> wf_length n -> incremental (fun d => d_from_reader (read_file (file_id_of b) n) d off).
Proof. intros Hb Hn. eapply Nice_incremental. exact (Nice_file b n Hb Hn). Qed.
