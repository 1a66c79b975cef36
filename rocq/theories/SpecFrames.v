(** Vocabulary for the frame properties: well-formed frames, their documented layout as a list of
    fields, and when the length field lets the command loop stop in the right place. *)
From Coq Require Import List NArith ZArith Bool Lia.
From Verif Require Import Base Deku Utils Types Physical Link Network Session Data Query
  Interface File Operation Action Command Frames WellFormed SpecLayout SpecApi.
Import ListNotations.
Open Scope N_scope.

(** ** Well-formed frames *)
Definition wf_bframe (v : bframe) : Prop :=
  u8 (bf_subnet v) /\ bf_tag v < 64 /\ u16 (bf_payload v) /\ u16 (bf_crc v).

Definition present {A} (o : option A) (b : bool) (P : A -> Prop) : Prop :=
  match o with Some x => b = true /\ P x | None => b = false end.
Definition wf_ack (v : ack_template) : Prop := u8 (ack_start v) /\ u8 (ack_stop v).
Definition wf_tframe {E : Env} (v : tframe) : Prop :=
  let c := tf_control v in
  u8 (tf_dialog v) /\ u8 (tf_transaction v) /\
  present (tf_target_rx v) (tc_agc c) u8 /\
  present (tf_listen v) (tc_listen c) wf_varint /\
  present (tf_exec_delay v) (tc_exec_delay c) wf_varint /\
  present (tf_congestion v) (tc_ack_requested c && tc_dialog_start c) wf_varint /\
  present (tf_ack v) (tc_ack_not_void c) wf_ack /\
  wf_command (tf_command v).
Definition wf_nframe {E : Env} (v : nframe) : Prop :=
  present (nf_hopping v) (nc_hopping (nf_control v)) (fun _ => True) /\
  wf_access_class (nf_access v) /\
  address_matches (nc_origin_type (nf_control v)) (nf_origin v) /\ wf_address (nf_origin v) /\
  wf_tframe (nf_frame v).
Definition wf_fframe {E : Env} (v : fframe) : Prop :=
  wf_length (ff_length v) /\ u8 (ff_subnet v) /\ ff_eirp v < 64 /\
  address_matches (ff_type v) (ff_target v) /\ wf_address (ff_target v) /\
  u16 (ff_crc v) /\ wf_nframe (ff_frame v).

Definition command_of (v : fframe) : command := tf_command (nf_frame (ff_frame v)).

(** ** Layout: the fields as (width, value), in order *)
Definition octets (l : list N) : list (N * N) := map (fun b => (8, b)) l.
Definition optional {A} (enc : A -> list N) (o : option A) : list (N * N) :=
  match o with Some x => octets (enc x) | None => [] end.
Definition nls_width {E : Env} : N := match e_feat with Wizzilab => 3 | _ => 4 end.

Definition ncontrol_fields {E : Env} (c : ncontrol) : list (N * N) :=
  [(1, bit (nc_no_origin c)); (1, bit (nc_hopping c)); (2, code_address_type (nc_origin_type c)); (1, 0);
   (nls_width, code_nls (nc_nls c))].
Definition tcontrol_fields (c : tcontrol) : list (N * N) :=
  [(1, bit (tc_dialog_start c)); (1, bit (tc_listen c)); (1, bit (tc_exec_delay c));
   (1, bit (tc_ack_requested c)); (1, bit (tc_ack_not_void c)); (1, bit (tc_ack_record c));
   (1, bit (tc_agc c))].
Definition hopping_fields (o : option hopping) : list (N * N) :=
  match o with
  | Some h => [(1, 0); (1, bit (hp_counter h)); (2, code_address_type (hp_dest h)); (4, 0)]
  | None => []
  end.

(** Link header: length, subnet, control, target address. *)
Definition link_fields (v : fframe) : list (N * N) :=
  octets (enc_length (ff_length v)) ++
  [(8, ff_subnet v); (2, code_address_type (ff_type v)); (6, ff_eirp v)] ++
  octets (enc_address (ff_target v)).
(** Network header between the network and the transport control field. *)
Definition network_fields (v : nframe) : list (N * N) :=
  hopping_fields (nf_hopping v) ++ [(8, enc_access_class (nf_access v))] ++ octets (enc_address (nf_origin v)).
(** Transport header after the transport control field. *)
Definition transport_fields (v : tframe) : list (N * N) :=
  [(8, tf_dialog v); (8, tf_transaction v)] ++
  optional (fun x => [x]) (tf_target_rx v) ++ optional enc_varint (tf_listen v) ++
  optional enc_varint (tf_exec_delay v) ++ optional enc_varint (tf_congestion v) ++
  optional (fun a => [ack_start a; ack_stop a]) (tf_ack v).
(** Everything in front of the command. *)
Definition head_fields {E : Env} (v : fframe) : list (N * N) :=
  let n := ff_frame v in
  link_fields v ++ ncontrol_fields (nf_control n) ++ network_fields n ++
  tcontrol_fields (tf_control (nf_frame n)) ++ transport_fields (nf_frame n).
Definition frame_fields {E : Env} (v : fframe) : list (N * N) :=
  head_fields v ++ octets (enc_command (command_of v)) ++ octets (enc_native 2 (ff_crc v)).
Definition total_width (l : list (N * N)) : nat := list_sum (map (fun f => N.to_nat (fst f)) l).
(** The bits of the fields, the first field first, the highest bit of a field first. *)
Definition bits_of_fields (l : list (N * N)) : list bool :=
  flat_map (fun f => bits_of (N.to_nat (fst f)) (snd f)) l.

(** A background frame is six bytes. *)
Definition enc_bframe {E : Env} (v : bframe) : list N :=
  [bf_subnet v; 64 * code_address_type (bf_type v) + bf_tag v] ++ enc_native 2 (bf_payload v) ++ enc_native 2 (bf_crc v).

(** ** Where the command stands *)

(** The byte the command starts in, and its first byte when the header ends on a boundary. *)
Definition command_start {E : Env} (v : fframe) : nat := Nat.div (total_width (head_fields v)) 8.
Definition command_end {E : Env} (v : fframe) : nat :=
  (command_start v + length (enc_command (command_of v)))%nat.

(** What the action loop wants the length field to be. It compares it with the position in the
    whole input: an empty command needs a length that is reached already; otherwise the last action
    has to start before it and the command has to end at or after it, except that after an
    IndirectForward the loop stops anyway. Zero means no limit. *)
Definition loop_stops {E : Env} (v : fframe) : Prop :=
  let l := N.to_nat (ff_length v) in
  match rev (command_of v) with
  | [] => (0 < l <= command_end v)%nat
  | a :: _ =>
      let last := (command_end v - length (enc_action a))%nat in
      (last < l <= command_end v)%nat \/ (is_indirect a = true /\ (l = 0 \/ last < l)%nat)
  end.

(** ** Bytes *)
Definition enc_fframe {E : Env} (v : fframe) : list N := bytes_of_bits (bits_of_fields (frame_fields v)).

(** [v] is read in front of [suf]: exactly its own bytes are consumed. *)
Definition reads_back {E : Env} (v : fframe) (suf : list N) : Prop :=
  exists r, read_fframe (new_reader (enc_fframe v ++ suf)) = Ok (v, r) /\
    view r = bits_of_bytes suf /\ reader_state r.

(** The number of bytes that follow the length field, CRC included. *)
Definition bytes_after_length {E : Env} (v : fframe) : nat :=
  (length (enc_fframe v) - length (enc_length (ff_length v)))%nat.
(** The last action is an IndirectForward. *)
Definition ends_indirect (c : command) : Prop := exists pre a, c = pre ++ [a] /\ is_indirect a = true.
(** The last action, if there is one, has more than [k] bytes. *)
Definition last_longer {E : Env} (k : nat) (c : command) : Prop :=
  forall pre a, c = pre ++ [a] -> (k < length (enc_action a))%nat.

(** With the wizzilab feature the command starts one bit before the end of byte [command_start]; the
    loop continues on the next boundary, one bit too late. The only frames that survive consist of
    zero bits from there on. *)
Definition plain_nop : action := ANop (mkNop (mkHeader false false) 0).
Definition all_zero_tail {E : Env} (v : fframe) : Prop :=
  let l := N.to_nat (ff_length v) in
  let k := length (command_of v) in
  Forall (fun a => a = plain_nop) (command_of v) /\ ff_crc v = 0 /\
  (0 < l <= command_start v + 1 + k)%nat /\ (k = 0 \/ command_start v + k < l)%nat.

(** ** Sample frames *)
Definition no_flags : tcontrol := mkTControl false false false false false false false.
Definition all_flags : tcontrol := mkTControl true true true true true true true.
(** Everything optional absent, no addresses. *)
Definition small_frame (l : N) (c : command) (crc : N) : fframe :=
  mkFFrame l 1 AtNoId 2 NoId
    (mkNFrame (mkNControl false false AtNoId NlsNone) None (mkAccessClass 1 4) NoId
      (mkTFrame no_flags 6 7 None None None None None c)) crc.
(** Everything optional present. *)
Definition full_frame (l : N) (c : command) (crc : N) : fframe :=
  mkFFrame l 1 AtVId 2 (VId 0x1234)
    (mkNFrame (mkNControl true true AtUId NlsAesCtr) (Some (mkHopping true AtVId)) (mkAccessClass 1 4) (UId 0x0102030405060708)
      (mkTFrame all_flags 6 7 (Some 80) (Some (mkVarInt 4 false)) (Some (mkVarInt 28 false)) (Some (mkVarInt 64 false)) (Some (mkAck 8 9)) c)) crc.
Definition read_uid : action := AReadFileData (mkReadFileData (mkHeader true false) 1 (mkFileOffset 0 0) 8).
