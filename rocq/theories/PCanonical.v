(** C66: the inputs that come back unchanged when they are parsed and serialised again. *)
From Coq Require Import List NArith ZArith Bool.
From Verif Require Import Base Deku Utils Types Physical Link Network Session Data Query Interface File
  Operation Action Command WellFormed SpecLayout SpecAction SpecApi SpecDecode SpecCanonical Samples LCanonTop LLag.
Import ListNotations.
Open Scope N_scope.

(** Not all of them: bit 6 of a request tag is not kept. *)
Theorem C66_refuted : forall E : Env, ~ (forall d a, bytes d -> action_try_from d = Ok a -> action_to_bytes a = Ok d).
Proof. exact @canonical_refuted. Qed.
Print Assumptions C66_refuted.

Theorem C66_action : forall (E : Env) d a, bytes d ->
  (action_try_from d = Ok a /\ action_to_bytes a = Ok d <-> strict_action d = Some (a, [])).
Proof. exact @canonical_action. Qed.
Print Assumptions C66_action.

Theorem C66_command : forall (E : Env) d c, bytes d ->
  (command_try_from d = Ok c /\ command_to_bytes c = Ok d <-> strict_command d = Some c).
Proof. exact @canonical_command_any. Qed.
Print Assumptions C66_command.

(** Some kinds of action have no other form, but for the one byte too many of C14. *)
Theorem C66_rigid : forall (E : Env) d a, bytes d -> action_try_from d = Ok a -> rigid a ->
  exists l s, action_to_bytes a = Ok l /\ d = l ++ s /\ (length s <= 1)%nat.
Proof. exact @rigid_canonical. Qed.
Print Assumptions C66_rigid.

(** File data with its one form and with longer numbers; the 8 bytes of a UID with the lengths 8, 0
    and 9; a forward with and without a set padding bit; a period of 8 as 8 and as 2 * 4; a command. *)
Example C66_example : forall E : Env,
  strict_action [0x20; 0x40; 5; 1; 9] =
    Some (AReturnFileData (mkFileData (mkHeader false false) 32 (mkFileOffset 0x40 5) (FOther [9])), []) /\
  strict_action [0x20; 0x40; 0x40; 5; 1; 9] = None /\ strict_action [0x20; 0x40; 5; 0x40; 1; 9] = None /\
  strict_action [0x20; 0; 0; 8; 1; 2; 3; 4; 5; 6; 7; 8] =
    Some (AReturnFileData (mkFileData (mkHeader false false) 32 (mkFileOffset 0 0) (FUId (UId 0x0102030405060708))), []) /\
  strict_action [0x20; 0; 0; 0; 1; 2; 3; 4; 5; 6; 7; 8] = None /\
  strict_action [0x20; 0; 0; 9; 1; 2; 3; 4; 5; 6; 7; 8] = None /\
  action_try_from [0x20; 0; 0; 9; 1; 2; 3; 4; 5; 6; 7; 8] =
    Ok (AReturnFileData (mkFileData (mkHeader false false) 32 (mkFileOffset 0 0) (FUId (UId 0x0102030405060708)))) /\
  strict_action [0x32; 0] = Some (AForward (mkForward false 50 IcHost), []) /\ strict_action [0xB2; 0] = None /\
  action_try_from [0xB2; 0] = Ok (AForward (mkForward false 50 IcHost)) /\
  strict_varint [8] = Some (mkVarInt 8 false, []) /\ strict_varint [0x22] = None /\
  dec_varint [0x22] = Some (mkVarInt 8 false, []) /\
  strict_command [0xB4; 7; 0x20; 0x40; 5; 1; 9; 0x33] =
    Some [sample_tag; AReturnFileData (mkFileData (mkHeader false false) 32 (mkFileOffset 0x40 5) (FOther [9]));
          AIndirectForward (mkIndirectForward false false 51 None)] /\
  strict_command [0xB4; 7; 0x33; 0x33] = None /\ rigid (ACopyFile (mkCopyFile (mkHeader false false) 23 1 2)).
Proof. intros [[] [] []]; vm_compute; repeat split. Qed.

(** The status of an unassigned interface comes back if its id is put back into the stream, to be
    read again as the length, and not otherwise. *)
Example C66_example_unknown :
  (let E := env_spec in
   strict_command [0x62; 5; 1; 2; 3; 4; 5; 0x33] = Some [sample_unknown [1; 2; 3; 4; 5]; AIndirectForward (mkIndirectForward false false 51 None)] /\
   strict_command [0x62; 9; 1; 2; 3; 4; 5] = None) /\
  (let E := env_subiot in
   command_try_from [0x62; 5; 5; 5; 5; 5; 5; 5] = Ok [sample_unknown [5; 5; 5; 5; 5]] /\
   command_to_bytes [sample_unknown [5; 5; 5; 5; 5]] = Ok [0x62; 5; 5; 5; 5; 5; 5] /\
   strict_command [0x62; 5; 5; 5; 5; 5; 5; 5] = None /\ strict_command [0x62; 5; 5; 5; 5; 5; 5] = None).
Proof. vm_compute. repeat split. Qed.
