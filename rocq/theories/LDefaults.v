(** Default values: proofs by computation, there being one value per type and build. *)
From Coq Require Import List NArith ZArith Bool Lia.
From Verif Require Import Base Deku Utils Types Physical Link Network Session Data Query
  Interface File Operation Action Command Frames Defaults SpecApi SpecReturn SpecAction SpecDefaults.
Import ListNotations.
Open Scope N_scope.

Ltac cases := intros [[] [] []]; repeat apply Forall_cons; try apply Forall_nil.
Ltac one := split; [vm_compute; reflexivity | vm_compute; reflexivity].
Ltac both := eexists; eexists; one.

Lemma small_survive : forall (E : Env), Forall survives small_defaults.
Proof. cases; both. Qed.
Lemma query_survive : Forall survives query_defaults.
Proof. repeat apply Forall_cons; try apply Forall_nil; both. Qed.
Lemma large_survive : forall (E : Env), Forall survives large_defaults.
Proof. cases; both. Qed.

Lemma actions_survive : forall (E : Env), Forall (fun a =>
  exists l, action_to_bytes a = Ok l /\ action_try_from l = Ok (with_opcode (opcode_of a) a))
  default_actions.
Proof. cases; eexists; one. Qed.

Lemma file_actions_fail : forall (E : Env), Forall (fun a =>
  exists l, action_to_bytes a = Ok l /\ action_try_from l = Err EIncomplete)
  default_file_actions.
Proof. cases; eexists; one. Qed.

Lemma actions_changed : Forall (fun a => with_opcode (opcode_of a) a = a <-> a = ANop def_nop) default_actions.
Proof.
  repeat apply Forall_cons; try apply Forall_nil; split; intro H; try reflexivity; try discriminate H;
    injection H; intros; discriminate.
Qed.

Lemma not_survive : forall i, cut_short i -> ~ survives i.
Proof.
  intros [A w m v] (l & H & K) (l' & rest & H' & K'). rewrite H in H'. injection H' as <-.
  rewrite K in K'. discriminate.
Qed.

Lemma keys_cut : forall (E : Env), Forall cut_short
  [Item write_otaa read_otaa def_otaa; Item write_abp read_abp def_abp;
   Item write_interface_config read_interface_config (IcOtaa def_otaa);
   Item write_interface_config read_interface_config (IcAbp def_abp)].
Proof. cases; eexists; one. Qed.

Lemma frames_cut : forall (E : Env), Forall cut_short
  [Item write_tframe (read_tframe def_length) def_tframe; Item write_fframe read_fframe def_fframe].
Proof. cases; eexists; one. Qed.

Lemma nframe_default : forall (E : Env),
  survives (Item write_nframe (read_nframe def_length) def_nframe) <-> e_feat <> Wizzilab.
Proof.
  intros [[] h w]; (split; [intro H | intro H]); try discriminate; try (exfalso; apply H; reflexivity).
  - destruct h, w; both.
  - destruct h, w; both.
  - exfalso. revert H. apply not_survive. destruct h, w; eexists; one.
Qed.

(** ** The wire form of the defaults *)
Lemma small_spelled {E : Env} : Forall2 spelled small_defaults small_spelling.
Proof. destruct E as [[] [] []]; repeat constructor. Qed.
Lemma query_spelled : Forall2 spelled query_defaults query_spelling.
Proof. repeat constructor. Qed.
Lemma large_spelled {E : Env} : Forall2 spelled large_defaults large_spelling.
Proof. destruct E as [[] [] []]; repeat constructor. Qed.
Lemma lorawan_spelled {E : Env} :
  Forall2 spelled [Item write_otaa read_otaa def_otaa; Item write_abp read_abp def_abp] [(24, 0); (88, 0)].
Proof. destruct E as [[] [] []]; repeat constructor. Qed.
Lemma action_spelled {E : Env} : Forall2 (fun a l => action_to_bytes a = Ok l) default_actions action_spelling.
Proof. destruct E as [[] [] []]; repeat constructor. Qed.
Lemma frames_spelled {E : Env} :
  Forall2 spelled [Item write_tframe (read_tframe def_length) def_tframe; Item write_nframe (read_nframe def_length) def_nframe;
                   Item write_fframe read_fframe def_fframe]
    match e_feat with
    | Wizzilab => [(23, 0); (39, 0x800000000); (79, 0x200800000000 * 0x10000)]
    | _ => [(23, 0); (40, 0x1000000000); (80, 0x401000000000 * 0x10000)]
    end.
Proof. destruct E as [[] [] []]; repeat constructor. Qed.
Lemma all_spelled {E : Env} :
  Forall2 spelled small_defaults small_spelling /\ Forall2 spelled query_defaults query_spelling /\
  Forall2 spelled large_defaults large_spelling /\
  Forall2 spelled [Item write_otaa read_otaa def_otaa; Item write_abp read_abp def_abp] [(24, 0); (88, 0)] /\
  Forall2 spelled [Item write_tframe (read_tframe def_length) def_tframe; Item write_nframe (read_nframe def_length) def_nframe;
                   Item write_fframe read_fframe def_fframe]
    match e_feat with
    | Wizzilab => [(23, 0); (39, 0x800000000); (79, 0x200800000000 * 0x10000)]
    | _ => [(23, 0); (40, 0x1000000000); (80, 0x401000000000 * 0x10000)]
    end /\
  Forall2 (fun a l => action_to_bytes a = Ok l) default_actions action_spelling.
Proof.
  split; [apply small_spelled|]. split; [apply query_spelled|]. split; [apply large_spelled|].
  split; [apply lorawan_spelled|]. split; [apply frames_spelled|apply action_spelled].
Qed.
