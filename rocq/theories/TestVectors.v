(** The unit tests of the crate, replayed in the model. They check the model, and the behaviour
    assumed of deku, against the bytes the authors expect. The two tests of the feature
    [subiot_v0_0], which is not modelled, are left out. *)
From Coq Require Import List NArith ZArith Bool Lia String Ascii.
From Verif Require Import Base Deku Utils Types Physical Link Network Session Data Query
  Interface File Operation Action Command Construct Defaults Cli.
Import ListNotations.
Local Open Scope list_scope.
Open Scope N_scope.

(** test_tools.rs:12-44 test_item: written as these bytes, and read from them. *)
Definition test_item {A} (w : A -> writer) (m : reader A) (v : A) (l : list N) : Prop :=
  to_bytes (w v) = Ok l /\ d_try_from m l = Ok v.
Definition test_action {E : Env} (a : action) (l : list N) : Prop :=
  action_to_bytes a = Ok l /\ action_try_from l = Ok a.
Definition test_command {E : Env} (c : command) (l : list N) : Prop :=
  command_to_bytes c = Ok l /\ command_try_from l = Ok c.

Ltac run := intros [[] [] []]; repeat split; vm_compute; reflexivity.

(** app/action.rs:388-951. *)
Example action_tests : forall E : Env, let h := mkHeader in
  let header := mkFileHeader
    (mkFilePerm true false (mkUserPerm true true true) (mkUserPerm false false false))
    (mkFsProp false AcRead Permanent) 1 2 0xDEADBEEF 0xBAADFACE in
  let header_bytes := [0xB8; 0x13; 1; 2; 0xDE; 0xAD; 0xBE; 0xEF; 0xBA; 0xAD; 0xFA; 0xCE] in
  let query := QNonVoid (mkNonVoid 4 (mkFileOffset 5 6)) in
  test_item (fun v => write_header v +++ write_pad 6) (v <- read_header ;; skip_bits 6 ;;; ret v)
    (h true false) [0x80] /\
  test_action (ANop (mkNop (h false true) 0)) [0x40] /\
  test_action (AReadFileData (mkReadFileData (h false true) 1 (mkFileOffset 1 2) 3)) [0x41; 1; 2; 3] /\
  test_action (AReadFileProperties (mkFileIdOp (h false false) 2 9)) [2; 9] /\
  test_action (AWriteFileData (mkFileData (h true false) 4 (mkFileOffset 0xF9 5) (FOther [1; 2; 3])))
    [0x84; 0xF9; 5; 3; 1; 2; 3] /\
  test_action (AReturnFileProperties (mkFileProperties (h false false) 33 9 header))
    ([0x21; 9] ++ header_bytes) /\
  test_action (AWriteFileProperties (mkFileProperties (h true false) 6 9 header))
    ([0x86; 9] ++ header_bytes) /\
  test_action (APermissionRequest (mkPermissionRequest (h false false) 10 LevelRoot
    (PermDash7 [1; 2; 3; 4; 5; 6; 7; 8]))) [0x0A; 1; 0x42; 1; 2; 3; 4; 5; 6; 7; 8] /\
  test_action (AExistFile (mkFileIdOp (h false false) 16 9)) [0x10; 9] /\
  test_action (ACreateNewFile (mkFileProperties (h true false) 17 3 header))
    ([0x91; 3] ++ header_bytes) /\
  test_action (ADeleteFile (mkFileIdOp (h false true) 18 9)) [0x52; 9] /\
  test_action (ARestoreFile (mkFileIdOp (h true true) 19 9)) [0xD3; 9] /\
  test_action (AFlushFile (mkFileIdOp (h false false) 20 9)) [0x14; 9] /\
  test_action (ACopyFile (mkCopyFile (h false false) 23 0x42 0x24)) [0x17; 0x42; 0x24] /\
  test_action (AExecuteFile (mkFileIdOp (h false false) 31 9)) [0x1F; 9] /\
  test_action (AReturnFileData (mkFileData (h false false) 32 (mkFileOffset 0xF9 5) (FOther [1; 2; 3])))
    [0x20; 0xF9; 5; 3; 1; 2; 3] /\
  test_action (AActionQuery (mkActionQuery (h true true) 8 query)) [0xC8; 0; 4; 5; 6] /\
  test_action (ABreakQuery (mkActionQuery (h true true) 9 query)) [0xC9; 0; 4; 5; 6] /\
  test_action (AVerifyChecksum (mkActionQuery (h false false) 11 query)) [0x0B; 0; 4; 5; 6] /\
  test_action (AForward (mkForward true 50 IcHost)) [0x72; 0] /\
  test_action (AForward (mkForward false 50 IcSerial)) [0x32; 1] /\
  test_action (AIndirectForward (indirect_forward_new true (Some (IiDash7
    (addressee_new false GcAny (VId 0xABCD) (NsAesCcm32 [1; 2; 3; 4; 5]) access_class_unavailable)))))
    [0xF3; 0xD7; 0x37; 0xFF; 0xAB; 0xCD; 1; 2; 3; 4; 5] /\
  test_action (ARequestTag (mkRequestTag true 52 8)) [0xB4; 8] /\
  test_action (ALogic (mkLogic LogicNand 49)) [0xF1] /\
  test_action (AChunk (mkChunk ChunkEnd 48)) [0xB0] /\
  test_action (AResponseTag (mkResponseTag true false 35 8)) [0xA3; 8] /\
  test_action (AStatus (status_into_operand (StatusAction (mkActionStatus 2 0xF6)))) [0x22; 2; 0xF6] /\
  test_action (AExtension (mkNop (h true true) 63)) [0xFF].
Proof. run. Qed.

(** The interface status of app/action.rs:911-950, operation/mod.rs:625-659 and
    command.rs:683-752. *)
Definition status_value : interface_status :=
  IsDash7 (mkDash7Status (mkChannel (mkChannelHeader Band868 LoRate FecPn9) 50) 45 62 80
    true false false false 0 0 (mkVarInt 384 false)
    (addressee_new false GcAny (UId 4123107267735781422) NsNone (mkAccessClass 0 1))).
Definition status_bytes : list N :=
  [0xD7; 0x14; 0x32; 0x00; 0x32; 0x2D; 0x3E; 0x50; 0x80; 0x00; 0x00; 0x58; 0x20; 0x01; 0x39; 0x38;
   0x38; 0x37; 0x00; 0x39; 0x00; 0x2E].

Example interface_status_tests : forall E : Env,
  test_action (AStatus (status_into_operand (StatusInterface (itf_status_op_from status_value))))
    (0x62 :: status_bytes) /\
  test_item write_itf_status_op read_itf_status_op (itf_status_op_from status_value) status_bytes.
Proof. run. Qed.

(** app/command.rs:265-752. *)
Example command_tests : forall E : Env, let nop g r := ANop (mkNop (mkHeader g r) 0) in
  let tag i := ARequestTag (mkRequestTag true 52 i) in
  let rtag e r i := AResponseTag (mkResponseTag e r 35 i) in
  let data := [0x00; 0xF4; 0x01; 0x00; 0x00; 0x44; 0x48; 0x00; 0x09; 0x00; 0x00; 0x00; 0x00; 0x00;
    0x00; 0x30; 0x00; 0x00; 0x44; 0x48; 0x00; 0x09; 0x00; 0x00; 0x30; 0x00; 0x00; 0x00; 0x00; 0x02;
    0x00; 0x44; 0x48; 0x00; 0x09; 0x00; 0x00; 0x70; 0x00; 0x00; 0x00; 0x30; 0x02; 0x00] in
  test_command
    [tag 66; AReadFileData (mkReadFileData (mkHeader false true) 1 (mkFileOffset 0 0) 8);
     AReadFileData (mkReadFileData (mkHeader true false) 1 (mkFileOffset 4 2) 3); nop true true]
    [0xB4; 0x42; 0x41; 0; 0; 8; 0x81; 4; 2; 3; 0xC0] /\
  request_id [tag 66; nop true true] = Some 66 /\
  request_id [nop true false; tag 44] = Some 44 /\
  request_id [nop true false; nop true false] = None /\
  response_id [rtag true true 66; nop true true] = Some 66 /\
  response_id [nop true false; rtag true true 44] = Some 44 /\
  response_id [nop true false; nop true false] = None /\
  is_last_response [rtag true true 66; nop true true] = true /\
  is_last_response [rtag false false 66; nop true true] = false /\
  is_last_response [rtag false true 44; rtag true true 44] = false /\
  is_last_response [nop true false; nop true false] = false /\
  test_command
    [AStatus (status_into_operand (StatusInterface (itf_status_op_from status_value)));
     AForward (mkForward false 50 IcSerial);
     AWriteFileData (mkFileData (mkHeader false true) 4 (mkFileOffset 53 0) (FOther data))]
    (0x62 :: status_bytes ++ [0x32; 0x01; 0x44; 0x35; 0x00; 0x2C] ++ data).
Proof. run. Qed.

(** app/operation/mod.rs:594-622. *)
Example operation_tests :
  test_item write_length read_length 1 [1] /\
  test_item write_length read_length 65 [0x40; 0x41] /\
  test_item write_length read_length 4263936 [0xC0; 0x41; 0x10; 0] /\
  test_item write_file_offset read_file_offset (mkFileOffset 2 0x3FFF) [2; 0x7F; 0xFF] /\
  test_item write_action_status read_action_status (mkActionStatus 2 0xF6) [2; 0xF6].
Proof. repeat split; vm_compute; reflexivity. Qed.

(** app/query.rs:261-368. *)
Example query_tests : let t := test_item write_query read_query in
  t (QNonVoid (mkNonVoid 4 (mkFileOffset 5 6))) [0; 4; 5; 6] /\
  t (QCmpZero (cmp_zero_new (mkArithParams true CmpInequal) [0; 1; 2] (mkFileOffset 4 5)))
    [0x38; 3; 0; 1; 2; 4; 5] /\
  t (QCmpValue (cmp_value_new (mkArithParams false CmpEqual) [] [9; 9; 9] (mkFileOffset 4 5)))
    [0x41; 3; 9; 9; 9; 4; 5] /\
  t (QCmpOther (cmp_other_new (mkArithParams false CmpGt) [0xFF; 0xFF] (mkFileOffset 4 5) (mkFileOffset 8 9)))
    [0x74; 2; 0xFF; 0xFF; 4; 5; 8; 9] /\
  t (QBitmapRange (bitmap_range_new (mkRangeParams false InRange) 3 32 [1; 2; 3; 4] (mkFileOffset 0 4)))
    [0x91; 4; 3; 0x20; 1; 2; 3; 4; 0; 4] /\
  t (QStringSearch (string_search_new 2 [0xFF; 0; 0xFF; 0] [1; 2; 3; 4] (mkFileOffset 0 4)))
    [0xF2; 4; 0xFF; 0; 0xFF; 0; 1; 2; 3; 4; 0; 4].
Proof. repeat split; vm_compute; reflexivity. Qed.

(** app/interface.rs:130-293. The functions called there have two arguments more with the wizzilab
    feature. *)
Definition addressee_for {E : Env} (b : bool) (g : group_condition) (a : address) (s : nls_state)
  (c : access_class) : addressee :=
  match e_feat with Wizzilab => addressee_new b g a s c | _ => addressee_new false GcAny a s c end.
Example interface_tests : forall E : Env,
  let by_feature {A} (spec subiot wizzilab : A) : A :=
    match e_feat with Spec => spec | Subiot => subiot | Wizzilab => wizzilab end in
  let t a (spec subiot wizzilab : list N) :=
    test_item write_dash7_config read_dash7_config
      (mkDash7Config (mkQos false false RtNo RmAny) (mkVarInt 0x20 false)
        (by_feature (mkVarInt 0x34 false) (mkVarInt 0 false) (mkVarInt 0x34 false)) a)
      (by_feature spec subiot wizzilab) in
  t (addressee_for false GcAny (VId 0xABCD) (NsAesCcm32 [1; 2; 3; 4; 5]) (mkAccessClass 15 15))
    [2; 0x28; 0x2D; 0x37; 0xFF; 0xAB; 0xCD; 1; 2; 3; 4; 5]
    [2; 0x28; 0x37; 0xFF; 0xAB; 0xCD; 1; 2; 3; 4; 5]
    [2; 0x28; 0x2D; 0x37; 0xFF; 0xAB; 0xCD; 1; 2; 3; 4; 5] /\
  t (addressee_for true GcNotEqual (NbId (mkVarInt 0x15 false)) NsNone def_access_class)
    [2; 0x28; 0x2D; 0; 0; 0x15] [2; 0x28; 0; 0; 0x15] [2; 0x28; 0x2D; 0x48; 0; 0x15] /\
  t (addressee_for false GcEqual NoId (NsAesCbcMac128 [10; 11; 12; 13; 14]) (mkAccessClass 2 4))
    [2; 0x28; 0x2D; 0x12; 0x24; 10; 11; 12; 13; 14] [2; 0x28; 0x12; 0x24; 10; 11; 12; 13; 14]
    [2; 0x28; 0x2D; 0x92; 0x24; 10; 11; 12; 13; 14] /\
  t (addressee_for true GcGreaterThan (UId 0x0001020304050607)
      (NsAesCcm64 [0xA1; 0xA2; 0xA3; 0xA4; 0xA5]) (mkAccessClass 4 8))
    [2; 0x28; 0x2D; 0x26; 0x48; 0; 1; 2; 3; 4; 5; 6; 7; 0xA1; 0xA2; 0xA3; 0xA4; 0xA5]
    [2; 0x28; 0x26; 0x48; 0; 1; 2; 3; 4; 5; 6; 7; 0xA1; 0xA2; 0xA3; 0xA4; 0xA5]
    [2; 0x28; 0x2D; 0xEE; 0x48; 0; 1; 2; 3; 4; 5; 6; 7; 0xA1; 0xA2; 0xA3; 0xA4; 0xA5] /\
  t (addressee_for false GcAny (VId 0xABCD) (NsAesCcm32 [0xA1; 0xA2; 0xA3; 0xA4; 0xA5]) (mkAccessClass 15 15))
    [2; 0x28; 0x2D; 0x37; 0xFF; 0xAB; 0xCD; 0xA1; 0xA2; 0xA3; 0xA4; 0xA5]
    [2; 0x28; 0x37; 0xFF; 0xAB; 0xCD; 0xA1; 0xA2; 0xA3; 0xA4; 0xA5]
    [2; 0x28; 0x2D; 0x37; 0xFF; 0xAB; 0xCD; 0xA1; 0xA2; 0xA3; 0xA4; 0xA5].
Proof. run. Qed.

(** network/mod.rs:119-264. *)
Example addressee_tests : forall E : Env,
  let t a s c := test_item write_addressee read_addressee (addressee_new false GcAny a s c) in
  t (VId 0xABCD) (NsAesCcm32 [0; 0x11; 0x22; 0x33; 0x44]) (mkAccessClass 15 15)
    [0x37; 0xFF; 0xAB; 0xCD; 0; 0x11; 0x22; 0x33; 0x44] /\
  t NoId NsNone def_access_class [0x10; 0] /\
  t (NbId (mkVarInt 0 false)) NsNone def_access_class [0; 0; 0] /\
  t (UId 0) NsNone def_access_class [0x20; 0; 0; 0; 0; 0; 0; 0; 0; 0] /\
  t (NbId (mkVarInt 1 false)) (NsAesCtr [0; 1; 2; 3; 4]) def_access_class [1; 0; 1; 0; 1; 2; 3; 4] /\
  t (VId 0x1234) NsNone (mkAccessClass 0 5) [0x30; 5; 0x12; 0x34] /\
  t (UId 0x1234567890123456) NsNone (mkAccessClass 6 9)
    [0x20; 105; 0x12; 0x34; 0x56; 0x78; 0x90; 0x12; 0x34; 0x56] /\
  t NoId (NsAesCbcMac128 [10; 20; 30; 40; 50]) (mkAccessClass 11 14)
    [0x12; 0xBE; 10; 20; 30; 40; 50] /\
  t (NbId (mkVarInt 100 false)) NsNone (mkAccessClass 0 0) [0; 0; 0x39].
Proof. run. Qed.

(** session/mod.rs:245-268. *)
Example qos_tests : let t := test_item write_qos read_qos in
  t def_qos [0] /\ t (mkQos true true RtNo RmAny) [0xC2] /\ t (mkQos false false RtNo RmNoRepeat) [4].
Proof. repeat split; vm_compute; reflexivity. Qed.

(** session/interface_final.rs:105-130: wizzilab only, and only on a little-endian machine. *)
Example tx_status_test : forall rw, let E := Build_Env Wizzilab Little rw in
  test_item write_dash7_tx_status read_dash7_tx_status
    (mkDash7TxStatus (mkChannel (mkChannelHeader BandRfu0 LoRate CodingRfu) 0x0123) 2%Z FsBusy 0x07080000
      (addressee_new false GcAny (VId 0x0011) (NsAesCcm64 [0; 0; 0; 0; 0]) (mkAccessClass 15 15)))
    [0x01; 0x01; 0x23; 0x02; 0xFF; 0; 0; 0; 0; 0; 0x08; 0x07; 0x36; 0xFF; 0x00; 0x11; 0; 0; 0; 0; 0].
Proof. intros []; repeat split; vm_compute; reflexivity. Qed.

(** types.rs:161-182. *)
Example varint_tests : let t v := test_item write_varint read_varint (mkVarInt v false) in
  varint_is_valid 507904 = true /\ varint_is_valid 0x40000000 = false /\
  decompress 0 0 = inl 0 /\ decompress 1 1 = inl 4 /\ decompress 2 2 = inl 32 /\
  decompress 3 3 = inl 192 /\ decompress 7 31 = inl 507904 /\
  t 0 [0] /\ t 1 [1] /\ t 32 [0x28] /\ t 507904 [0xFF].
Proof. repeat split; vm_compute; reflexivity. Qed.

(** data/mod.rs:91-149. *)
Example data_tests :
  let p := mkFilePerm true false (mkUserPerm true true true) (mkUserPerm false false false) in
  let h := mkFileHeader p (mkFsProp false AcRead Permanent) 1 2 0xDEADBEEF 0xBAADFACE in
  let l := [0xB8; 0x13; 1; 2; 0xDE; 0xAD; 0xBE; 0xEF; 0xBA; 0xAD; 0xFA; 0xCE] in
  to_bytes (write_file_permissions p) = Ok [0xB8] /\
  d_from_bytes read_file_permissions [0xB8] 0 = Ok (([], 0%nat), p) /\
  to_bytes (write_file_header h) = Ok l /\
  d_from_bytes read_file_header l 0 = Ok (([], 0%nat), h).
Proof. repeat split; vm_compute; reflexivity. Qed.

(** README.md: the payload in the description of the command line tool, as a command and on the
    command line. *)
Example readme_payload : forall E : Env,
  let file l := AWriteFileData (mkFileData (mkHeader false false) 4 (mkFileOffset 0x48 0) (FOther l)) in
  let c := [file [0; 0; 0; 0; 0; 0; 0x30; 0; 0]; file [0; 0; 0x30; 0; 0; 0; 0; 2; 0];
            file [0; 0; 0x70; 0; 0; 0; 0x30; 2; 0]] in
  let text := "04 48 00 09 00 00 00 00 00 00 30 00 00 04 48 00 09 00 00 30 00 00 00 00 02 00 04 48 00 09 00 00 70 00 00 00 30 02 00"%string in
  test_command c
    [0x04; 0x48; 0x00; 0x09; 0x00; 0x00; 0x00; 0x00; 0x00; 0x00; 0x30; 0x00; 0x00; 0x04; 0x48; 0x00; 0x09; 0x00; 0x00; 0x30; 0x00; 0x00; 0x00; 0x00; 0x02; 0x00; 0x04; 0x48; 0x00; 0x09; 0x00; 0x00; 0x70; 0x00; 0x00; 0x00; 0x30; 0x02; 0x00] /\
  cli_main (Some PAlp) None (map N_of_ascii (list_ascii_of_string text)) = Ok [PrCommand c].
Proof. run. Qed.
