(** C100: which inputs are parsed as the same value. *)
From Coq Require Import List NArith Bool.
From Verif Require Import Base Deku Types Network File Operation Action SpecApi SpecSpell LSpell LSpellFile.
Import ListNotations.
Open Scope N_scope.

(** Two different inputs are parsed as the same action, in every build. *)
Theorem C100_inputs_refuted : forall (E : Env),
  exists x y a, x <> y /\ action_try_from x = Ok a /\ action_try_from y = Ok a.
Proof. exact @inputs_refuted. Qed.
Print Assumptions C100_inputs_refuted.

(** A length is read as [v] from exactly the spellings of [v]. *)
Theorem C100_length_exact : forall x v, bytes x -> (spelling v x <->
  forall rest, bytes rest ->
    exists r, read_length (new_reader (x ++ rest)) = Ok (v, r) /\ bread r = (8 * length x)%nat).
Proof. exact @length_inputs. Qed.
Print Assumptions C100_length_exact.

(** There are four, three, two or one of them. *)
Theorem C100_length_count : forall v, v < 2 ^ 30 ->
  exists L, NoDup L /\ (forall x, In x L <-> spelling v x) /\ length L = spellings v.
Proof. exact @length_count. Qed.
Print Assumptions C100_length_count.

(** The inputs that are parsed as a given request for file data. *)
Theorem C100_read_exact : forall (E : Env) d g r f o n, bytes d ->
  (action_try_from d = Ok (AReadFileData (mkReadFileData (mkHeader g r) 1 (mkFileOffset f o) n)) <->
   exists x y rest, spelling o x /\ spelling n y /\ (length rest <= 1)%nat /\
     d = first_byte g r 1 :: f :: x ++ y ++ rest).
Proof. exact @read_file_inputs. Qed.
Print Assumptions C100_read_exact.

(** There are 257 times the spellings of both numbers of them: no byte or any one byte may follow. *)
Theorem C100_read_count : forall (E : Env) g r f o n, f < 256 -> o < 2 ^ 30 -> n < 2 ^ 30 ->
  exists L, NoDup L /\
  (forall d, In d L <->
     bytes d /\ action_try_from d = Ok (AReadFileData (mkReadFileData (mkHeader g r) 1 (mkFileOffset f o) n))) /\
  length L = (257 * (spellings o * spellings n))%nat.
Proof. exact @read_file_count. Qed.
Print Assumptions C100_read_count.

(** The inputs that are parsed as a given request to write uninterpreted bytes. *)
Theorem C100_write_exact : forall (E : Env) d g r f o l, bytes d ->
  (action_try_from d = Ok (AWriteFileData (mkFileData (mkHeader g r) 4 (mkFileOffset f o) (FOther l))) <->
   known_file f = false /\ exists x y rest, spelling o x /\ spelling (N.of_nat (length l)) y /\ (length rest <= 1)%nat /\
     d = first_byte g r 4 :: f :: x ++ y ++ l ++ rest).
Proof. exact @write_other_inputs. Qed.
Print Assumptions C100_write_exact.

(** For the file of the unique id the length in the input may be any number. *)
Theorem C100_write_uid_exact : forall (E : Env) d g r o v, bytes d ->
  (action_try_from d = Ok (AWriteFileData (mkFileData (mkHeader g r) 4 (mkFileOffset 0 o) (FUId (UId v)))) <->
   v < 2 ^ 64 /\ exists x n y rest, spelling o x /\ spelling n y /\ (length rest <= 1)%nat /\
     d = first_byte g r 4 :: 0 :: x ++ y ++ be_bytes 8 v ++ rest).
Proof. exact @write_uid_inputs. Qed.
Print Assumptions C100_write_uid_exact.

Example C100_write_example :
  (exists a, @action_try_from env_spec [4; 0x40; 0; 2; 7; 9] = Ok a /\ @action_try_from env_spec [4; 0x40; 0x40; 0; 0x80; 0; 2; 7; 9] = Ok a)
  /\ @action_try_from env_spec [4; 0; 0; 8; 1; 2; 3; 4; 5; 6; 7; 8] = @action_try_from env_spec [4; 0; 0; 63; 1; 2; 3; 4; 5; 6; 7; 8]
  /\ @action_try_from env_spec [4; 0; 0; 8; 1; 2; 3; 4; 5; 6; 7; 8]
     = Ok (AWriteFileData (mkFileData (mkHeader false false) 4 (mkFileOffset 0 0) (FUId (UId 0x0102030405060708)))).
Proof. split; [eexists; split; vm_compute; reflexivity|split; vm_compute; reflexivity]. Qed.

Example C100_example :
  map (fun k => spelled k 8) [0; 1; 2; 3] = [[8]; [0x40; 8]; [0x80; 0; 8]; [0xC0; 0; 0; 8]]
  /\ spellings 8 = 4%nat /\ spellings 100 = 3%nat /\ spellings 20000 = 2%nat /\ spellings 5000000 = 1%nat
  /\ (exists a, @action_try_from env_spec [0x41; 4; 0; 8] = Ok a
      /\ @action_try_from env_spec [0x41; 4; 0x40; 0; 0xC0; 0; 0; 8] = Ok a
      /\ @action_try_from env_spec [0x41; 4; 0; 8; 0x99] = Ok a)
  /\ (exists e, @action_try_from env_spec [0x41; 4; 0; 8; 0x99; 0x99] = Err e).
Proof. repeat split; try (eexists; repeat split); vm_compute; reflexivity. Qed.
