(** Joining and splitting encoded commands, sizes of decoded values. *)
From Coq Require Import List NArith Bool.
From Verif Require Import Base Deku Utils Types Physical Link Network Session Data Query Interface File
  Operation Action Command.
Import ListNotations.

(** An indirect forward ends a command: what follows it is not looked at. *)
Definition open_ended (c : list action) : Prop :=
  Forall (fun a => match a with AIndirectForward _ => False | _ => True end) c.
(** A transmission status leaves two bits of the next action behind. *)
Definition ends_with_tx (c : list action) : Prop := exists c' t, c = c' ++ [ATxStatus t].

(** Elements of the vectors and strings a value holds. *)
Definition query_held (q : query) : nat :=
  match q with
  | QNonVoid _ => 0
  | QCmpZero v => length (cz_mask v)
  | QCmpValue v => length (cv_mask v) + length (cv_value v)
  | QCmpOther v => length (co_mask v)
  | QBitmapRange v => length (br_mask v)
  | QStringSearch v => length (ss_mask v) + length (ss_value v)
  end.
Definition file_held (f : file) : nat :=
  match f with
  | FOther l => length l
  | FFirmwareVersion v => length (fw_app v) + length (fw_sha v)
  | FPhyStatus v => length (ps_channels v)
  | _ => 0
  end.
Definition status_held (s : status) : nat :=
  match s with
  | StatusInterface (mkItfStatusOp _ (IsOther l)) => length l
  | StatusInterfaceFinal (mkItfFinalOp _ (FinOther l)) => length l
  | _ => 0
  end.
Definition action_held (a : action) : nat :=
  match a with
  | AWriteFileData v | AWriteFileDataFlush v | AReturnFileData v => file_held (fd_data v)
  | AActionQuery v | ABreakQuery v | AVerifyChecksum v => query_held (aq_query v)
  | AStatus v => status_held (so_status v)
  | ATxStatus v => match txo_status v with TxOther l => length l | TxDash7 _ => 0 end
  | _ => 0
  end.
Definition command_held (c : list action) : nat := list_sum (map (fun a => S (action_held a)) c).
