(** Properties C58 and C59, continued: file data, and numbers that are not checked when built. *)
From Coq Require Import List NArith ZArith Bool.
From Verif Require Import Base Deku Utils Types Physical Link Network Session Data Query Interface File
  Operation Action Command Construct SpecApi SpecReturn SpecExact LUnchecked.
Import ListNotations.
Open Scope N_scope.

(** File data that does not belong to the file: update() leaves it. *)
Theorem C58_file_data_refuted : forall E : Env, exists v w,
  file_data_update v = Ok v /\ ~ action_survives (AWriteFileData v) /\ action_survives (AWriteFileData w) /\
  fd_data v = fd_data w /\ fd_header v = fd_header w.
Proof. exact @update_file_data_nothing. Qed.
Print Assumptions C58_file_data_refuted.

(** VarInt::new refuses exactly what cannot be written when it is built without a check. *)
Theorem C59_unchecked : forall v ceil,
  (varint_new v ceil = inl (varint_new_unchecked v ceil) <->
   exists l, to_bytes (write_varint (varint_new_unchecked v ceil)) = Ok l).
Proof. exact @unchecked. Qed.
Print Assumptions C59_unchecked.

(** From<u32> keeps the number; it comes back from the wire if it is a mantissa times a power of 4. *)
Theorem C59_from_u32 : forall v, u32_of_varint (varint_of_u32 v) = v /\
  (comes_back (write_varint (varint_of_u32 v)) read_varint (varint_of_u32 v) <-> exists e m, e < 8 /\ m < 32 /\ v = 4 ^ e * m).
Proof. exact @from_u32. Qed.
Print Assumptions C59_from_u32.

Example C59_unchecked_example :
  to_bytes (write_varint (varint_new_unchecked 507904 false)) = Ok [0xFF] /\
  to_bytes (write_varint (varint_new_unchecked 507905 true)) = Err EInvalidParam /\
  varint_new 507905 true = inr (ValueTooLarge 507905) /\
  to_bytes (write_varint (varint_of_u32 33)) = Ok [0x28] /\ d_try_from read_varint [0x28] = Ok (varint_of_u32 32).
Proof. vm_compute. repeat split; reflexivity. Qed.
