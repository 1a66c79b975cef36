(** Two machines that differ in their byte order only, and the fields written in that order. *)
From Coq Require Import List NArith Bool.
From Verif Require Import Base Deku Types Link Network Session Interface File Operation Action
  Command Frames.
Import ListNotations.
Open Scope N_scope.

Definition on (h : endian) (E : Env) : Env :=
  {| e_feat := @e_feat E; e_host := h; e_rewind := @e_rewind E |}.

(** A field of [fst f] bytes that reads the same from both ends. *)
Definition symmetric (f : nat * N) : Prop := rev (be_bytes (fst f) (snd f)) = be_bytes (fst f) (snd f).

(** The fields without a declared byte order: width in bytes and value. *)
Definition file_natives (f : file) : list (nat * N) :=
  match f with FSecurityKey k => [(16%nat, k)] | _ => [] end.
Definition abp_natives (c : abp_config) : list (nat * N) := [(4%nat, ab_dev_addr c); (4%nat, ab_net_id c)].
Definition config_natives (c : interface_config) : list (nat * N) :=
  match c with IcAbp c => abp_natives c | _ => [] end.
Definition tx_natives (s : interface_tx_status) : list (nat * N) :=
  match s with TxDash7 v => [(4%nat, tx_lts v)] | _ => [] end.
Definition action_natives (a : action) : list (nat * N) :=
  match a with
  | AWriteFileData v | AWriteFileDataFlush v | AReturnFileData v => file_natives (fd_data v)
  | AForward v => config_natives (fw_config v)
  | ATxStatus v => tx_natives (txo_status v)
  | _ => []
  end.
Definition command_natives (c : command) : list (nat * N) := flat_map action_natives c.
Definition bframe_natives (f : bframe) : list (nat * N) := [(2%nat, bf_payload f); (2%nat, bf_crc f)].
Definition fframe_natives (f : fframe) : list (nat * N) :=
  command_natives (tf_command (nf_frame (ff_frame f))) ++ [(2%nat, ff_crc f)].

(** The same value with the bytes of those fields in the opposite order. *)
Definition turn (k : nat) (v : N) : N := N_of_be (rev (be_bytes k v)).
Definition turn_file (f : file) : file :=
  match f with FSecurityKey k => FSecurityKey (turn 16 k) | _ => f end.
Definition turn_config (c : interface_config) : interface_config :=
  match c with
  | IcAbp c => IcAbp (mkAbp (ab_base c) (ab_nwk_key c) (ab_app_key c) (turn 4 (ab_dev_addr c)) (turn 4 (ab_net_id c)))
  | _ => c
  end.
Definition turn_tx (s : interface_tx_status) : interface_tx_status :=
  match s with
  | TxDash7 v => TxDash7 (mkDash7TxStatus (tx_channel v) (tx_target_rx_level v) (tx_error v) (turn 4 (tx_lts v)) (tx_addressee v))
  | _ => s
  end.
Definition turn_file_data (v : file_data) : file_data :=
  mkFileData (fd_header v) (fd_opcode v) (fd_offset v) (turn_file (fd_data v)).
Definition turn_action (a : action) : action :=
  match a with
  | AWriteFileData v => AWriteFileData (turn_file_data v)
  | AWriteFileDataFlush v => AWriteFileDataFlush (turn_file_data v)
  | AReturnFileData v => AReturnFileData (turn_file_data v)
  | AForward v => AForward (mkForward (fw_response v) (fw_opcode v) (turn_config (fw_config v)))
  | ATxStatus v => ATxStatus (mkTxStatusOp (txo_opcode v) (txo_itf_id v) (turn_tx (txo_status v)))
  | _ => a
  end.
Definition turn_bframe (f : bframe) : bframe :=
  mkBFrame (bf_subnet f) (bf_type f) (bf_tag f) (turn 2 (bf_payload f)) (turn 2 (bf_crc f)).
Definition turn_tframe (f : tframe) : tframe :=
  mkTFrame (tf_control f) (tf_dialog f) (tf_transaction f) (tf_target_rx f) (tf_listen f)
    (tf_exec_delay f) (tf_congestion f) (tf_ack f) (map turn_action (tf_command f)).
Definition turn_fframe (f : fframe) : fframe :=
  mkFFrame (ff_length f) (ff_subnet f) (ff_type f) (ff_eirp f) (ff_target f)
    (mkNFrame (nf_control (ff_frame f)) (nf_hopping (ff_frame f)) (nf_access (ff_frame f))
       (nf_origin (ff_frame f)) (turn_tframe (nf_frame (ff_frame f))))
    (turn 2 (ff_crc f)).

(** Bytes written by the little-endian and by the big-endian machine. *)
Definition same_bytes (w : Env -> writer) (E : Env) : Prop :=
  to_bytes (w (on Little E)) = to_bytes (w (on Big E)).
Definition unwritable (w : Env -> writer) (E : Env) : Prop :=
  forall l, to_bytes (w (on Little E)) <> Ok l.
(** The result of one reader is that of the other with every value turned by [t]. *)
Definition turned {A} (t : A -> A) (x y : res (A * rd)) : Prop :=
  y = match x with Ok (v, r) => Ok (t v, r) | Err e => Err e | Panic => Panic end.
