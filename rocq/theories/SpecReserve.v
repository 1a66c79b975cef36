(** The vectors that a parsed value consists of. *)
From Coq Require Import List NArith Bool.
From Verif Require Import Base Deku Utils Types Physical Link Network Session Data Query Interface File
  Operation Action Command Frames.
Import ListNotations.
Open Scope N_scope.

Definition total (l : list N) : N := fold_right N.add 0 l.

(** Numbers of elements, in the order they are in the input; empty vectors take no memory. *)
Definition sizes (l : list nat) : list N := filter (fun n => 0 <? n) (map N.of_nat l).
Definition query_vectors (q : query) : list nat :=
  match q with
  | QNonVoid _ => []
  | QCmpZero v => [length (cz_mask v)]
  | QCmpValue v => [length (cv_mask v); length (cv_value v)]
  | QCmpOther v => [length (co_mask v)]
  | QBitmapRange v => [length (br_mask v)]
  | QStringSearch v => [length (ss_mask v); length (ss_value v)]
  end.
Definition file_vectors (f : file) : list nat :=
  match f with FOther l => [length l] | FPhyStatus v => [length (ps_channels v)] | _ => [] end.
Definition config_vectors (c : interface_config) : list nat :=
  match c with
  | IcAbp v => [length (ab_nwk_key v); length (ab_app_key v)]
  | IcOtaa v => [length (ot_dev_eui v); length (ot_app_eui v); length (ot_app_key v)]
  | _ => []
  end.
Definition status_vectors (s : status) : list nat :=
  match s with
  | StatusInterface (mkItfStatusOp _ (IsOther l)) => [length l]
  | StatusInterfaceFinal (mkItfFinalOp _ (FinOther l)) => [length l]
  | _ => []
  end.
Definition action_vectors (a : action) : list nat :=
  match a with
  | AWriteFileData v | AWriteFileDataFlush v | AReturnFileData v => file_vectors (fd_data v)
  | AActionQuery v | ABreakQuery v | AVerifyChecksum v => query_vectors (aq_query v)
  | AStatus v => status_vectors (so_status v)
  | AForward v => config_vectors (fw_config v)
  | ATxStatus v => match txo_status v with TxOther l => [length l] | TxDash7 _ => [] end
  | _ => []
  end.
Definition command_vectors (c : command) : list nat := flat_map action_vectors c.

(** Every vector but the last one was filled from an input of [n] bytes. The last one was too, or
    it has at most 255 elements, or the input is reported as incomplete. *)
Definition filled_but_last (n : nat) (l : list N) (e : derr) : Prop :=
  total l <= N.of_nat n \/
  exists l' x, l = l' ++ [x] /\ total l' <= N.of_nat n /\ (x <= 255 \/ e = EIncomplete).
