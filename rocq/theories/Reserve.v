(** The memory that is set aside while parsing. deku reads a [Vec] with [count = n] into a vector
    that is made for [n] elements before the first of them is read, so what is set aside is known
    before the input is. Here every reader that contains such a vector is repeated with a note of
    each [n]; apart from the notes it is the same reader (theorem [C86_same]). *)
From Coq Require Import List NArith ZArith Bool.
From Verif Require Import Base Deku Utils Types Physical Link Network Session Data Query
  Interface File Operation Action Command Frames.
Import ListNotations.
Open Scope N_scope.

(** The notes, first one first, and what the reader returns. *)
Definition noted (A : Type) := rd -> list N * res (A * rd).

(** A reader without such vectors. *)
Definition quiet {A} (m : reader A) : noted A := fun r => ([], m r).
Definition nbind {A B} (m : noted A) (f : A -> noted B) : noted B := fun r =>
  match m r with
  | (l, Ok (a, r')) => let (l', x) := f a r' in (l ++ l', x)
  | (l, Err e) => (l, Err e)
  | (l, Panic) => (l, Panic)
  end.
Notation "x <~ m ;; k" := (nbind m (fun x => k)) (at level 61, m at next level, right associativity).

(** A vector of [n] elements, read by [m]; nothing is set aside for none. *)
Definition note {A} (n : N) (m : reader A) : noted A := fun r => (if n =? 0 then [] else [n], m r).
Definition n_vec (n : N) : noted (list N) := note n (read_vec_u8 n).
Definition n_cond_vec (c : bool) (n : N) : noted (list N) := if c then n_vec n else quiet (ret []).

(** app/query.rs:79-92, 107-124, 145-157, 178-195, 219-238, 47-62. *)
Definition n_cmp_zero : noted cmp_zero :=
  m <~ quiet read_bool ;; p <~ quiet read_arith_params ;; l <~ quiet read_length ;; k <~ n_cond_vec m l ;;
  f <~ quiet read_file_offset ;; quiet (ret (mkCmpZero m p l k f)).
Definition n_cmp_value : noted cmp_value :=
  m <~ quiet read_bool ;; p <~ quiet read_arith_params ;; l <~ quiet read_length ;; k <~ n_cond_vec m l ;;
  v <~ n_vec l ;; f <~ quiet read_file_offset ;; quiet (ret (mkCmpValue m p l k v f)).
Definition n_cmp_other : noted cmp_other :=
  m <~ quiet read_bool ;; p <~ quiet read_arith_params ;; l <~ quiet read_length ;; k <~ n_cond_vec m l ;;
  f <~ quiet read_file_offset ;; g <~ quiet read_file_offset ;; quiet (ret (mkCmpOther m p l k f g)).
Definition n_bitmap_range : noted bitmap_range :=
  m <~ quiet read_bool ;; p <~ quiet read_range_params ;; l <~ quiet read_length ;; s <~ quiet read_length ;;
  t <~ quiet read_length ;; k <~ n_vec l ;; f <~ quiet read_file_offset ;;
  quiet (ret (mkBitmapRange m p l s t k f)).
Definition n_string_search : noted string_search :=
  m <~ quiet read_bool ;; _ <~ quiet (skip_bits 1) ;; e <~ quiet (read_uint 3) ;; l <~ quiet read_length ;;
  k <~ n_vec l ;; v <~ n_vec l ;; f <~ quiet read_file_offset ;;
  quiet (ret (mkStringSearch m e l k v f)).
Definition n_query : noted query :=
  x <~ quiet (read_uint 3) ;;
  match assoc x [(0, v <~ quiet read_non_void ;; quiet (ret (QNonVoid v)));
                 (1, v <~ n_cmp_zero ;; quiet (ret (QCmpZero v)));
                 (2, v <~ n_cmp_value ;; quiet (ret (QCmpValue v)));
                 (3, v <~ n_cmp_other ;; quiet (ret (QCmpOther v)));
                 (4, v <~ n_bitmap_range ;; quiet (ret (QBitmapRange v)));
                 (7, v <~ n_string_search ;; quiet (ret (QStringSearch v)))] with
  | Some m => m
  | None => quiet (fail EParse)
  end.

(** file/phy_status.rs:5-21, file/mod.rs:139-206 (the vector of line 205). *)
Definition n_phy_status : noted phy_status :=
  a <~ quiet read_u32be ;; b <~ quiet read_u32be ;; c <~ quiet read_u32be ;; d <~ quiet read_u16be ;;
  n <~ quiet read_u8 ;; l <~ note n (read_list (N.to_nat n) read_channel_status) ;;
  quiet (ret (mkPhyStatus a b c d n l)).
Definition n_file {E : Env} (id : file_id) (length : N) : noted file :=
  match id with
  | FidPhyStatus => v <~ n_phy_status ;; quiet (ret (FPhyStatus v))
  | FidAccessProfile _ | FidUId | FidFactorySettings | FidFirmwareVersion | FidEngineeringMode | FidVId
  | FidDllConfig | FidDllStatus | FidNetworkSecurityKey => quiet (read_file id length)
  | _ => l <~ n_vec length ;; quiet (ret (FOther l))
  end.

(** app/interface.rs:48-60, 62-75, 77-98. *)
Definition n_otaa : noted otaa_config :=
  b <~ quiet read_lorawan_config ;; d <~ n_vec 8 ;; a <~ n_vec 8 ;; k <~ n_vec 16 ;;
  quiet (ret (mkOtaa b d a k)).
Definition n_abp {E : Env} : noted abp_config :=
  b <~ quiet read_lorawan_config ;; n <~ n_vec 16 ;; a <~ n_vec 16 ;;
  d <~ quiet (read_native 4) ;; i <~ quiet (read_native 4) ;; quiet (ret (mkAbp b n a d i)).
Definition n_interface_config {E : Env} : noted interface_config :=
  x <~ quiet read_u8 ;;
  match assoc x [(0, quiet (ret IcHost));
                 (1, quiet (ret IcSerial));
                 (2, c <~ n_abp ;; quiet (ret (IcAbp c)));
                 (3, c <~ n_otaa ;; quiet (ret (IcOtaa c)));
                 (0xD7, c <~ quiet read_dash7_config ;; quiet (ret (IcDash7 c)))] with
  | Some m => m
  | None => i <~ quiet (read_id_field x) ;; quiet (ret (IcUnknown i))
  end.

(** session/mod.rs:144-164 (the vector of line 163), session/interface_final.rs:5-13, 66-74. *)
Definition n_interface_status {E : Env} (t : interface_type) (length : N) : noted interface_status :=
  match t with
  | ItUnknown => l <~ n_vec length ;; quiet (ret (IsOther l))
  | _ => quiet (read_interface_status t length)
  end.
Definition n_interface_final_status (id length : N) : noted interface_final_status :=
  if id =? 0xD7 then quiet (read_interface_final_status id length)
  else l <~ n_vec length ;; quiet (ret (FinOther l)).
Definition n_interface_tx_status {E : Env} (id length : N) : noted interface_tx_status :=
  if id =? 0xD7 then quiet (read_interface_tx_status id length)
  else l <~ n_vec length ;; quiet (ret (TxOther l)).

(** app/operation/mod.rs and app/interface_final.rs: the operands that contain these. *)
Definition n_file_payload {E : Env} (o : file_offset) : noted file :=
  l <~ quiet read_length ;;
  fun r => match file_id_try_from (fo_file_id o) with
           | Ok id => n_file id l r
           | Err e => ([], Err e)
           | Panic => ([], Panic)
           end.
Definition n_file_data {E : Env} : noted file_data :=
  h <~ quiet read_header ;; o <~ quiet read_opcode ;; f <~ quiet read_file_offset ;; d <~ n_file_payload f ;;
  quiet (ret (mkFileData h o f d)).
Definition n_action_query : noted action_query :=
  h <~ quiet read_header ;; o <~ quiet read_opcode ;; q <~ n_query ;; quiet (ret (mkActionQuery h o q)).
Definition n_itf_status_op {E : Env} : noted itf_status_op :=
  t <~ quiet read_interface_type ;; l <~ quiet read_length ;; s <~ n_interface_status t l ;;
  quiet (ret (mkItfStatusOp t s)).
Definition n_itf_final_op : noted itf_final_op :=
  i <~ quiet read_u8 ;; l <~ quiet read_length ;; s <~ n_interface_final_status i l ;;
  quiet (ret (mkItfFinalOp i s)).
Definition n_status {E : Env} (t : status_type) : noted status :=
  match t with
  | StAction => v <~ quiet read_action_status ;; quiet (ret (StatusAction v))
  | StInterface => v <~ n_itf_status_op ;; quiet (ret (StatusInterface v))
  | StInterfaceFinal =>
      if is_wizzilab then v <~ n_itf_final_op ;; quiet (ret (StatusInterfaceFinal v))
      else quiet (fail EParse)
  end.
Definition n_status_operand {E : Env} : noted status_operand :=
  t <~ quiet read_status_type ;; o <~ quiet read_opcode ;; s <~ n_status t ;;
  quiet (ret (mkStatusOperand t o s)).
Definition n_forward {E : Env} : noted forward :=
  _ <~ quiet (skip_bits 1) ;; r <~ quiet read_bool ;; o <~ quiet read_opcode ;; c <~ n_interface_config ;;
  quiet (ret (mkForward r o c)).
Definition n_tx_status_op {E : Env} : noted tx_status_op :=
  t <~ quiet (read_enum 2 (fun n => assoc n [(1, tt)])) ;;
  _ <~ quiet (skip_bits 6) ;;
  o <~ quiet read_opcode ;;
  i <~ quiet read_u8 ;; l <~ quiet read_length ;; s <~ n_interface_tx_status i l ;;
  quiet (ret (mkTxStatusOp o i s)).

(** app/action.rs:186-238, the arms that contain these; every other arm is as in [action_readers]. *)
Definition n_operand {E : Env} (code : N) : noted action :=
  match assoc code
    ([(4, v <~ n_file_data ;; quiet (ret (AWriteFileData v)));
      (5, v <~ n_file_data ;; quiet (ret (AWriteFileDataFlush v)));
      (32, v <~ n_file_data ;; quiet (ret (AReturnFileData v)));
      (8, v <~ n_action_query ;; quiet (ret (AActionQuery v)));
      (9, v <~ n_action_query ;; quiet (ret (ABreakQuery v)));
      (11, v <~ n_action_query ;; quiet (ret (AVerifyChecksum v)));
      (34, v <~ n_status_operand ;; quiet (ret (AStatus v)));
      (50, v <~ n_forward ;; quiet (ret (AForward v)))]
     ++ (if is_wizzilab then [(38, v <~ n_tx_status_op ;; quiet (ret (ATxStatus v)))] else [])) with
  | Some m => m
  | None => quiet (match assoc code action_readers with Some m => m | None => fail EInvalidParam end)
  end.
Definition n_action {E : Env} : noted action :=
  _ <~ quiet (skip_bits 2) ;; code <~ quiet read_opcode ;; _ <~ quiet seek_back1 ;; n_operand code.

(** app/command.rs:34-62. *)
Fixpoint n_actions {E : Env} (fuel : nat) (length : N) (acc : list action) : noted (list action) :=
  match fuel with
  | O => quiet (fail EFuel)
  | S fuel' =>
      ok <~ quiet (valid_length length) ;;
      if ok then
        e <~ quiet at_end ;;
        if e then quiet (ret acc)
        else if last_is_indirect acc then quiet (ret acc)
        else a <~ n_action ;; n_actions fuel' length (acc ++ [a])
      else quiet (ret acc)
  end.
Definition n_command {E : Env} (length : N) : noted command :=
  fun r => n_actions (S (List.length (data r))) length [] r.

(** transport/mod.rs:48-85, network/network.rs:30-45, link/frame.rs:24-44. *)
Definition n_tframe {E : Env} (length : N) : noted tframe :=
  c <~ quiet read_tcontrol ;; d <~ quiet read_u8 ;; t <~ quiet read_u8 ;;
  x <~ quiet (read_cond (tc_agc c) read_u8) ;;
  l <~ quiet (read_cond (tc_listen c) read_varint) ;;
  e <~ quiet (read_cond (tc_exec_delay c) read_varint) ;;
  g <~ quiet (read_cond (tc_ack_requested c && tc_dialog_start c) read_varint) ;;
  a <~ quiet (read_cond (tc_ack_not_void c) read_ack) ;;
  m <~ n_command length ;;
  quiet (ret (mkTFrame c d t x l e g a m)).
Definition n_nframe {E : Env} (length : N) : noted nframe :=
  c <~ quiet read_ncontrol ;; h <~ quiet (read_cond (nc_hopping c) read_hopping) ;; a <~ quiet read_access_class ;;
  o <~ quiet (read_address (nc_origin_type c)) ;; f <~ n_tframe length ;;
  quiet (ret (mkNFrame c h a o f)).
Definition n_fframe {E : Env} : noted fframe :=
  l <~ quiet read_length ;; s <~ quiet read_u8 ;; t <~ quiet read_address_type ;; e <~ quiet (read_uint 6) ;;
  a <~ quiet (read_address t) ;; f <~ n_nframe l ;; c <~ quiet (read_native 2) ;;
  quiet (ret (mkFFrame l s t e a f c)).

(** What is set aside for the input [d]. *)
Definition action_reserved {E : Env} (d : list N) : list N := fst (n_action (new_reader d)).
Definition command_reserved {E : Env} (d : list N) : list N := fst (n_command 0 (new_reader d)).
Definition fframe_reserved {E : Env} (d : list N) : list N := fst (n_fframe (new_reader d)).
