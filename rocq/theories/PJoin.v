(** C54: encoded commands can be joined and split. C55: decoded values are no larger than the
    input. *)
From Coq Require Import List NArith ZArith Bool.
From Verif Require Import Base Deku Utils Types Physical Link Network Session Data Query Interface File
  Operation Action Command WellFormed SpecLayout SpecApi SpecJoin Samples LJoin.
Import ListNotations.
Open Scope N_scope.

(** The bytes of two commands one after the other are the bytes of the actions of the first
    followed by the actions of the second; the counters of bits read add up. *)
Theorem C54_join : forall (E : Env) d1 n1 c1 d2, bytes d1 -> bytes d2 ->
  command_from_reader d1 0 = Ok (n1, c1) -> open_ended c1 ->
  (forall n2 c2, command_from_reader d2 0 = Ok (n2, c2) ->
     command_from_reader (d1 ++ d2) 0 = Ok ((n1 + n2)%nat, c1 ++ c2)) /\
  (forall e, command_from_reader d2 0 = Err e -> exists e', command_from_reader (d1 ++ d2) 0 = Err e').
Proof. exact @join_ok. Qed.
Print Assumptions C54_join.

(** Nothing can be joined to an indirect forward. *)
Theorem C54_join_closed : forall (E : Env) d1 n1 c1 d2, bytes d1 -> bytes d2 ->
  command_from_reader d1 0 = Ok (n1, c1) -> ~ open_ended c1 -> command_from_reader (d1 ++ d2) 0 = Ok (n1, c1).
Proof. exact @join_closed. Qed.
Print Assumptions C54_join_closed.

Theorem C54_split : forall (E : Env) d n c1 c2, bytes d ->
  command_from_reader d 0 = Ok (n, c1 ++ c2) -> open_ended c1 -> ~ ends_with_tx c1 ->
  exists d1 d2 n1 n2, d = d1 ++ d2 /\ n = (n1 + n2)%nat /\
    command_from_reader d1 0 = Ok (n1, c1) /\ command_from_reader d2 0 = Ok (n2, c2).
Proof. exact @split_ok. Qed.
Print Assumptions C54_split.

Theorem C54_join_try_from : forall (E : Env) d1 c1 d2 c2, bytes d1 -> bytes d2 ->
  command_try_from d1 = Ok c1 -> open_ended c1 -> command_try_from d2 = Ok c2 ->
  command_try_from (d1 ++ d2) = Ok (c1 ++ c2).
Proof. exact @join_try. Qed.
Print Assumptions C54_join_try_from.

Theorem C54_split_try_from : forall (E : Env) d c1 c2, bytes d ->
  command_try_from d = Ok (c1 ++ c2) -> open_ended (c1 ++ c2) -> ~ ends_with_tx c1 ->
  exists d1 d2, d = d1 ++ d2 /\ command_try_from d1 = Ok c1 /\ command_try_from d2 = Ok c2.
Proof. exact @split_try. Qed.
Print Assumptions C54_split_try_from.

(** Two tags; bytes behind an indirect forward; a transmission status, which is not parsed
    without the action behind it. *)
Example C54_example : forall E : Env,
  command_try_from [0xB4; 7] = Ok [ARequestTag (mkRequestTag true 0x34 7)] /\
  command_try_from [0x34; 8] = Ok [ARequestTag (mkRequestTag false 0x34 8)] /\
  command_try_from [0xB4; 7; 0x34; 8] = Ok [ARequestTag (mkRequestTag true 0x34 7); ARequestTag (mkRequestTag false 0x34 8)] /\
  command_from_reader [0x33; 0x34; 8; 0x34; 8] 0 = command_from_reader [0x33] 0.
Proof. intros [[] [] []]; repeat split. Qed.
Example C54_example_tx :
  command_try_from (E := env_wizzilab) [0x66; 0x98; 0x04; 0x06; 0xA8] = Err EIncomplete /\
  command_try_from (E := env_wizzilab) [0x66; 0x98; 0x04; 0x06; 0xA8; 0xD0; 0x07] =
    Ok [ATxStatus (mkTxStatusOp 38 1 (TxOther [0xAA])); ARequestTag (mkRequestTag true 16 7)].
Proof. split; reflexivity. Qed.

(** The actions and the elements of their vectors and strings together are at most as many as
    there are bytes. *)
Theorem C55_command : forall (E : Env) d n c, bytes d ->
  command_from_reader d 0 = Ok (n, c) -> (command_held c <= length d)%nat.
Proof. exact @held_ok. Qed.
Print Assumptions C55_command.

Theorem C55_action : forall (E : Env) d n a, bytes d ->
  action_from_reader d 0 = Ok (n, a) -> (action_held a < length d)%nat.
Proof. exact @held_action_ok. Qed.
Print Assumptions C55_action.

(** The bound is reached by commands without operands; file data of three bytes. *)
Example C55_example : forall E : Env,
  let nop := ANop (mkNop (mkHeader false false) 0) in
  let data := AReturnFileData (mkFileData (mkHeader false false) 32 (mkFileOffset 0x40 5) (FOther [7; 8; 9])) in
  command_from_reader [0; 0; 0] 0 = Ok (48%nat, [nop; nop; nop]) /\ command_held [nop; nop; nop] = 3%nat /\
  action_from_reader [0x20; 0x40; 5; 3; 7; 8; 9] 0 = Ok (64%nat, data) /\ action_held data = 3%nat.
Proof. intros [[] [] []]; repeat split. Qed.
