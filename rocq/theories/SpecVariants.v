(** The three protocol variants of the crate, compared. *)
From Coq Require Import List NArith Bool.
From Verif Require Import Base Deku Utils Types Physical Link Network Session Data Query Interface
  File Operation Action Command SpecApi.
Import ListNotations.
Open Scope N_scope.

(** The same machine with another cargo feature. *)
Definition build (F : feature) (E : Env) : Env :=
  {| e_feat := F; e_host := @e_host E; e_rewind := @e_rewind E |}.

(** Values that only the wizzilab feature has: transmission statuses and final statuses. *)
Definition wizzilab_only (a : action) : bool :=
  match a with
  | ATxStatus _ => true
  | AStatus s => match so_status s with StatusInterfaceFinal _ => true | _ => false end
  | _ => false
  end.
(** The addressee inside an action. *)
Definition action_addressee (a : action) : option addressee :=
  match a with
  | AForward v => match fw_config v with IcDash7 c => Some (dc_addressee c) | _ => None end
  | AIndirectForward v => match if_config v with Some (IiDash7 x) => Some x | _ => None end
  | AStatus s =>
      match so_status s with
      | StatusInterface i => match iso_status i with IsDash7 d => Some (ds_addressee d) | _ => None end
      | _ => None
      end
  | _ => None
  end.
(** The fields that only wizzilab puts on the wire have their default values. *)
Definition plain_addressee (v : addressee) : Prop := ad_group v = GcAny /\ ad_use_vid v = false.
Definition plain_action (a : action) : Prop :=
  match action_addressee a with Some v => plain_addressee v | None => True end.
(** The one structure that has a field less with the subiot feature. *)
Definition dash7_forward (a : action) : bool :=
  match a with AForward v => match fw_config v with IcDash7 _ => true | _ => false end | _ => false end.

(** What another build makes of a value read by a wizzilab build: the group condition is not
    seen, the flag for virtual ids makes the security method unknown. *)
Definition narrow_addressee (v : addressee) : option addressee :=
  if ad_use_vid v then None
  else Some (mkAddressee GcAny (ad_type v) false (ad_nls v) (ad_access v) (ad_address v) (ad_state v)).
Definition narrow_config (c : interface_config) : option interface_config :=
  match c with
  | IcDash7 d => option_map (fun x => IcDash7 (mkDash7Config (dc_qos d) (dc_dormant d) (dc_exec_delay d) x))
                            (narrow_addressee (dc_addressee d))
  | _ => Some c
  end.
Definition narrow_indirect (c : indirect_interface) : option indirect_interface :=
  match c with IiDash7 x => option_map IiDash7 (narrow_addressee x) | _ => Some c end.
Definition narrow_dash7_status (d : dash7_interface_status) : option dash7_interface_status :=
  option_map (mkDash7Status (ds_channel d) (ds_rx_level d) (ds_link_budget d) (ds_target_rx_level d)
                (ds_nls d) (ds_missed d) (ds_retry d) (ds_unicast d) (ds_fifo_token d) (ds_seq d) (ds_timeout d))
             (narrow_addressee (ds_addressee d)).
Definition narrow_itf_status (i : itf_status_op) : option itf_status_op :=
  match iso_status i with
  | IsDash7 d => option_map (fun x => mkItfStatusOp (iso_type i) (IsDash7 x)) (narrow_dash7_status d)
  | _ => Some i
  end.
Definition narrow_status (s : status) : option status :=
  match s with
  | StatusAction _ => Some s
  | StatusInterface i => option_map StatusInterface (narrow_itf_status i)
  | StatusInterfaceFinal _ => None
  end.
Definition narrow_action (a : action) : option action :=
  match a with
  | AForward v => option_map (fun c => AForward (mkForward (fw_response v) (fw_opcode v) c)) (narrow_config (fw_config v))
  | AIndirectForward v =>
      match if_config v with
      | Some c => option_map (fun x => AIndirectForward (mkIndirectForward (if_overloaded v) (if_response v) (if_opcode v) (Some x)))
                             (narrow_indirect c)
      | None => Some a
      end
  | AStatus s => option_map (fun x => AStatus (mkStatusOperand (so_type s) (so_opcode s) x)) (narrow_status (so_status s))
  | ATxStatus _ => None
  | _ => Some a
  end.
Fixpoint narrow_command (c : list action) : option (list action) :=
  match c with
  | [] => Some []
  | a :: tl =>
      match narrow_action a, narrow_command tl with
      | Some x, Some y => Some (x :: y)
      | _, _ => None
      end
  end.

(** A parse with a result [x] in one build and [y] in another. *)
Definition narrowed {A R} (n : A -> option A) (y x : res (R * A)) : Prop :=
  match x with
  | Ok (r, v) => match n v with Some v' => y = Ok (r, v') | None => exists e, y = Err e end
  | Err _ => exists e, y = Err e
  | Panic => False
  end.
Definition narrowed_value {A} (n : A -> option A) (y x : res A) : Prop :=
  match x with
  | Ok v => match n v with Some v' => y = Ok v' | None => exists e, y = Err e end
  | Err _ => exists e, y = Err e
  | Panic => False
  end.

(** The bytes of an action that forwards over DASH7. *)
Definition forwards_dash7 (d : list N) : bool :=
  match d with b :: i :: _ => (b mod 64 =? 50) && (i =? 0xD7) | _ => false end.
(** The action with another execution delay. *)
Definition with_delay (x : varint) (a : action) : action :=
  match a with
  | AForward v =>
      match fw_config v with
      | IcDash7 c => AForward (mkForward (fw_response v) (fw_opcode v)
                       (IcDash7 (mkDash7Config (dc_qos c) (dc_dormant c) x (dc_addressee c))))
      | _ => a
      end
  | _ => a
  end.

(** What a reader of the documentation expects: bytes written by one build mean the same to
    another, or are rejected. *)
Definition understood {E : Env} (F G : feature) : Prop := forall c d x,
  command_to_bytes (E := build F E) c = Ok d -> command_try_from (E := build F E) d = Ok c ->
  command_try_from (E := build G E) d = Ok x -> x = c.

(** Broadcast without security after a dormant timeout of 96 s. *)
Definition sample_broadcast (k : access_class) : action :=
  AForward (mkForward true 50 (IcDash7 (mkDash7Config (mkQos false true RtFifoFast RmPreferred)
    (mkVarInt 96 false) (mkVarInt 0 false)
    (mkAddressee GcAny AtNoId false NlsNone k NoId NsNone)))).
(** An addressee with the fields of wizzilab. *)
Definition sample_group (u : bool) : action :=
  AIndirectForward (mkIndirectForward true false 51 (Some (IiDash7
    (mkAddressee GcEqual AtVId u NlsAesCcm32 (mkAccessClass 2 1) (VId 0xABCD) (NsAesCcm32 [1; 2; 3; 4; 5]))))).
