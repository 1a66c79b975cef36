(** Vocabulary for C84: what is written for any value of a frame or of a type on its own. *)
From Coq Require Import List NArith Bool.
From Verif Require Import Base Deku Utils Types Physical Link Network Session Data Interface File Operation Action Command Frames
  SpecLayout SpecFail.
Import ListNotations.
Open Scope N_scope.

(** Writing fails if [bad], with this one error, and otherwise gives [k] bytes. *)
Definition settled (w : writer) (bad : Prop) (k : nat) : Prop :=
  (bad -> to_bytes w = Err EInvalidParam) /\
  (~ bad -> exists l, to_bytes w = Ok l /\ bytes l /\ length l = k).
Definition too_long (n : N) : Prop := 2 ^ 30 <= n.
Definition too_large (n : N) : Prop := 507904 < n.

(** ** Frames *)
Definition optional_varint (o : option varint) : list N := match o with Some x => [vi_value x] | None => [] end.
Definition frame_lengths (v : fframe) : list N :=
  ff_length v :: flat_map lengths_of (tf_command (nf_frame (ff_frame v))).
Definition frame_varints {E : Env} (v : fframe) : list N :=
  let t := nf_frame (ff_frame v) in
  address_varints (ff_target v) ++ address_varints (nf_origin (ff_frame v)) ++
  optional_varint (tf_listen t) ++ optional_varint (tf_exec_delay t) ++ optional_varint (tf_congestion t) ++
  flat_map varints_of (tf_command t).
Definition frame_payloads (v : fframe) : list nat := flat_map payloads_of (tf_command (nf_frame (ff_frame v))).
Definition given {A} (o : option A) (k : nat) : nat := match o with Some _ => k | None => 0 end.
(** The bits of a frame: one of its bytes is missing a bit with wizzilab, and a TxStatus has six
    more. *)
Definition frame_bits_of {E : Env} (v : fframe) : nat :=
  let n := ff_frame v in let t := nf_frame n in
  8 * (length_size (ff_length v) + 2 + address_size (ff_target v)) +
  (match e_feat with Wizzilab => 15 | _ => 16 end) +
  8 * (given (nf_hopping n) 1 + 1 + address_size (nf_origin n)) +
  8 * (2 + given (tf_target_rx t) 1 + given (tf_listen t) 1 + given (tf_exec_delay t) 1 + given (tf_congestion t) 1 +
       given (tf_ack t) 2) +
  list_sum (map (fun a => 8 * size_of a + match a with ATxStatus _ => 6 | _ => 0 end)%nat (tf_command t)) + 16.
Definition whole_bytes (bits : nat) : nat := Nat.div (bits + 7) 8.

(** The same frame with another power, or another access class. *)
Definition with_eirp (v : fframe) (e : N) : fframe :=
  mkFFrame (ff_length v) (ff_subnet v) (ff_type v) e (ff_target v) (ff_frame v) (ff_crc v).
Definition with_access (v : fframe) (a : access_class) : fframe :=
  let n := ff_frame v in
  mkFFrame (ff_length v) (ff_subnet v) (ff_type v) (ff_eirp v) (ff_target v)
    (mkNFrame (nf_control n) (nf_hopping n) a (nf_origin n) (nf_frame n)) (ff_crc v).
