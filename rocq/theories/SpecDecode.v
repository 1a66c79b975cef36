(** A decoder of the wire format on whole bytes, written down independently of the model's
    readers: no bit stream, no reader state, no seeking. It says for every byte string which
    action or command it stands for, if any. Shared with the model are the data types, the code
    tables of SpecLayout.v (used backwards), [N_of_be] and [utf8_valid] (which theorem [C24]
    ties to the definition of UTF-8). *)
From Coq Require Import List NArith ZArith Bool Lia.
From Verif Require Import Base Deku Utils Types Physical Link Network Session Data Query
  Interface File Operation Action Command SpecLayout.
Import ListNotations.
Open Scope N_scope.

(** A decoder takes something from the front of a byte string and leaves the rest. *)
Definition dec (A : Type) := list N -> option (A * list N).
Definition give {A} (a : A) : dec A := fun l => Some (a, l).
Definition reject {A} : dec A := fun _ => None.
Definition andthen {A B} (m : dec A) (k : A -> dec B) : dec B :=
  fun l => match m l with Some (a, l') => k a l' | None => None end.
Notation "'let*' x := m 'in' k" := (andthen m (fun x => k)) (at level 200, x name, k at level 200).

Definition one : dec N := fun l => match l with b :: tl => Some (b, tl) | [] => None end.
Definition some_bytes (n : N) : dec (list N) := fun l =>
  if n <=? N.of_nat (length l) then Some (firstn (N.to_nat n) l, skipn (N.to_nat n) l) else None.
(** Numbers of [k] bytes: most significant byte first, or as the host has it. *)
Definition num (k : N) : dec N := let* l := some_bytes k in give (N_of_be l).
Definition host_num {E : Env} (k : N) : dec N :=
  let* l := some_bytes k in
  give (N_of_be (match e_host with Big => l | Little => rev l end)).
Definition signed : dec Z :=
  let* b := one in give (if b <? 128 then Z.of_N b else (Z.of_N b - 256)%Z).
Fixpoint times {A} (n : nat) (m : dec A) : dec (list A) :=
  match n with
  | O => give []
  | S k => let* x := m in let* xs := times k m in give (x :: xs)
  end.

(** [w] bits of [b], the lowest of them bit [lo]. *)
Definition part (lo w b : N) : N := (b / 2 ^ lo) mod 2 ^ w.
Definition flag (lo b : N) : bool := part lo 1 b =? 1.
(** The value with code [c], if there is one. *)
Definition named {A} (code : A -> N) (all : list A) (c : N) : dec A :=
  match find (fun v => code v =? c) all with Some v => give v | None => reject end.

(** ** Numbers *)
Definition dec_length : dec N :=
  let* b := one in
  let k := b / 64 in
  let* more := num k in give ((b mod 64) * 256 ^ k + more).
Definition dec_varint : dec varint := let* b := one in give (mkVarInt (b mod 32 * 4 ^ (b / 32)) false).
Definition dec_file_offset : dec file_offset :=
  let* f := one in let* o := dec_length in give (mkFileOffset f o).

(** ** physical *)
Definition all_bands := [BandRfu0; BandRfu1; Band433; Band868; Band915].
Definition dec_channel_header : dec channel_header :=
  let* b := one in
  let* band := named code_band all_bands (part 4 3 b) in
  let* class := named code_class [LoRate; Lora; NormalRate; HiRate] (part 2 2 b) in
  let* coding := named code_coding [Pn9; CodingRfu; FecPn9; Cw] (part 0 2 b) in
  give (mkChannelHeader band class coding).
Definition dec_channel : dec channel :=
  let* h := dec_channel_header in let* i := num 2 in give (mkChannel h i).
Definition dec_channel_status : dec channel_status :=
  let* a := one in let* b := one in
  let* band := named code_band all_bands (part 5 3 a) in
  let* width := named code_bandwidth [KHz200; KHz25] (part 3 2 a) in
  let* n := one in
  give (mkChannelStatus (mkChannelStatusIdentifier band width (256 * part 0 3 a + b)) n).
Definition dec_sub_band : dec sub_band :=
  let* a := num 2 in let* b := num 2 in let* e := signed in let* c := one in let* d := one in
  give (mkSubBand a b e c d).

(** ** link *)
Definition dec_sub_profile : dec sub_profile :=
  let* b := one in let* p := dec_varint in give (mkSubProfile b p).
Definition dec_access_profile : dec access_profile :=
  let* h := dec_channel_header in
  let* p := times 4 dec_sub_profile in
  let* b := times 8 dec_sub_band in
  give (mkAccessProfile h p b).

(** ** network *)
Definition all_nls := [NlsNone; NlsAesCtr; NlsAesCbcMac128; NlsAesCbcMac64; NlsAesCbcMac32;
  NlsAesCcm128; NlsAesCcm64; NlsAesCcm32].
Definition dec_address (t : address_type) : dec address :=
  match t with
  | AtNbId => let* v := dec_varint in give (NbId v)
  | AtNoId => give NoId
  | AtUId => let* v := num 8 in give (UId v)
  | AtVId => let* v := num 2 in give (VId v)
  end.
Definition dec_nls_state (m : nls_method) : dec nls_state :=
  match m with
  | NlsNone => give NsNone
  | NlsAesCtr => let* k := some_bytes 5 in give (NsAesCtr k)
  | NlsAesCbcMac128 => let* k := some_bytes 5 in give (NsAesCbcMac128 k)
  | NlsAesCbcMac64 => let* k := some_bytes 5 in give (NsAesCbcMac64 k)
  | NlsAesCbcMac32 => let* k := some_bytes 5 in give (NsAesCbcMac32 k)
  | NlsAesCcm128 => let* k := some_bytes 5 in give (NsAesCcm128 k)
  | NlsAesCcm64 => let* k := some_bytes 5 in give (NsAesCcm64 k)
  | NlsAesCcm32 => let* k := some_bytes 5 in give (NsAesCcm32 k)
  end.
(** Control byte (see [enc_addressee]), class byte, address, state. The padding bits of the
    control byte are not looked at. *)
Definition dec_addressee {E : Env} : dec addressee :=
  let* c := one in
  let* t := named code_address_type [AtNbId; AtNoId; AtUId; AtVId] (part 4 2 c) in
  let* g := match e_feat with
            | Wizzilab => named code_group [GcAny; GcNotEqual; GcEqual; GcGreaterThan] (part 6 2 c)
            | _ => give GcAny
            end in
  let u := match e_feat with Wizzilab => flag 3 c | _ => false end in
  let* n := named code_nls all_nls (match e_feat with Wizzilab => part 0 3 c | _ => part 0 4 c end) in
  let* k := one in
  let* a := dec_address t in
  let* s := dec_nls_state n in
  give (mkAddressee g t u n (mkAccessClass (part 4 4 k) (part 0 4 k)) a s).

(** ** session *)
Definition dec_qos : dec qos :=
  let* b := one in
  let* r := named code_retry [RtNo; RtOneshotRetry; RtFifoFast; RtFifoSlow; RtSingleFast;
                              RtSingleSlow; RtOneshotSticky; RtRfu] (part 3 3 b) in
  let* m := named code_response [RmNo; RmAll; RmAny; RmNoRepeat; RmOnError; RmPreferred] (part 0 3 b) in
  give (mkQos (flag 7 b) (flag 6 b) r m).
Definition dec_dash7_status {E : Env} : dec dash7_interface_status :=
  let* c := dec_channel in
  let* rx := one in let* lb := one in let* tr := one in
  let* f := one in
  let* token := one in let* seq := one in
  let* t := dec_varint in
  let* a := dec_addressee in
  give (mkDash7Status c rx lb tr (flag 7 f) (flag 6 f) (flag 5 f) (flag 4 f) token seq t a).
Definition all_final := [FsNo; FsBusy; FsBadParam; FsDutyCycle; FsCcaTo; FsNlsKey; FsTxUdf; FsRxOvf;
  FsRxCrc; FsAbort; FsNoAck; FsRxTo; FsNotSupportedBand; FsNotSupportedChannel;
  FsNotSupportedModulation; FsVoidChannelList; FsNotSupportedLen; FsParamOvf; FsVidWoNls; FsTxSched;
  FsRxSched; FsBufferOvf; FsNotSupportedMode].
Definition dec_final : dec final_status_code :=
  let* b := one in named code_final all_final b.
Definition dec_dash7_tx {E : Env} : dec dash7_tx_status :=
  let* c := dec_channel in let* l := signed in let* e := dec_final in
  let* pad := some_bytes 3 in
  let* t := host_num 4 in let* a := dec_addressee in
  give (mkDash7TxStatus c l e t a).

(** ** data *)
Definition dec_file_header : dec file_header :=
  let* p := one in
  let* q := one in
  let* c := named code_condition [AcList; AcRead; AcWrite; AcWriteFlush] (part 4 3 q) in
  let* s := named code_storage [Transient; Volatile; Restorable; Permanent] (part 0 2 q) in
  let* a := one in let* i := one in let* size := num 4 in let* alloc := num 4 in
  give (mkFileHeader
    (mkFilePerm (flag 7 p) (flag 6 p) (mkUserPerm (flag 5 p) (flag 4 p) (flag 3 p))
                (mkUserPerm (flag 2 p) (flag 1 p) (flag 0 p)))
    (mkFsProp (flag 7 q) c s) a i size alloc).

(** ** query: the first byte is [kind (3) mask (1) signed (1) comparison (3)]. *)
Definition all_cmp := [CmpInequal; CmpEqual; CmpLt; CmpLe; CmpGt; CmpGe].
Definition when (c : bool) (m : dec (list N)) : dec (list N) := if c then m else give [].
Definition dec_query : dec query :=
  let* b := one in
  let kind := part 5 3 b in let mask := flag 4 b in
  if kind =? 0 then
    let* l := dec_length in let* f := dec_file_offset in give (QNonVoid (mkNonVoid l f))
  else if kind =? 1 then
    let* c := named code_cmp all_cmp (part 0 3 b) in
    let* l := dec_length in let* m := when mask (some_bytes l) in let* f := dec_file_offset in
    give (QCmpZero (mkCmpZero mask (mkArithParams (flag 3 b) c) l m f))
  else if kind =? 2 then
    let* c := named code_cmp all_cmp (part 0 3 b) in
    let* l := dec_length in let* m := when mask (some_bytes l) in let* v := some_bytes l in
    let* f := dec_file_offset in
    give (QCmpValue (mkCmpValue mask (mkArithParams (flag 3 b) c) l m v f))
  else if kind =? 3 then
    let* c := named code_cmp all_cmp (part 0 3 b) in
    let* l := dec_length in let* m := when mask (some_bytes l) in
    let* f := dec_file_offset in let* g := dec_file_offset in
    give (QCmpOther (mkCmpOther mask (mkArithParams (flag 3 b) c) l m f g))
  else if kind =? 4 then
    let* c := named code_range [NotInRange; InRange] (part 0 3 b) in
    let* l := dec_length in let* s := dec_length in let* t := dec_length in
    let* m := some_bytes l in let* f := dec_file_offset in
    give (QBitmapRange (mkBitmapRange mask (mkRangeParams (flag 3 b) c) l s t m f))
  else if kind =? 7 then
    let* l := dec_length in let* m := some_bytes l in let* v := some_bytes l in
    let* f := dec_file_offset in
    give (QStringSearch (mkStringSearch mask (part 0 3 b) l m v f))
  else reject.

(** ** interface *)
Definition dec_dash7_config {E : Env} : dec dash7_config :=
  let* q := dec_qos in let* d := dec_varint in
  let* x := match e_feat with Subiot => give (mkVarInt 0 false) | _ => dec_varint end in
  let* a := dec_addressee in give (mkDash7Config q d x a).
Definition dec_lorawan : dec lorawan_config :=
  let* b := one in let* p := one in let* r := one in
  give (mkLorawanConfig (flag 2 b) (flag 1 b) p r).
Definition dec_interface_config {E : Env} : dec interface_config :=
  let* i := one in
  if i =? 0 then give IcHost
  else if i =? 1 then give IcSerial
  else if i =? 2 then
    let* b := dec_lorawan in let* n := some_bytes 16 in let* a := some_bytes 16 in
    let* d := host_num 4 in let* k := host_num 4 in give (IcAbp (mkAbp b n a d k))
  else if i =? 3 then
    let* b := dec_lorawan in let* d := some_bytes 8 in let* a := some_bytes 8 in
    let* k := some_bytes 16 in give (IcOtaa (mkOtaa b d a k))
  else if i =? 0xD7 then let* c := dec_dash7_config in give (IcDash7 c)
  else give (IcUnknown i).
Definition dec_indirect_interface {E : Env} : dec indirect_interface :=
  let* i := one in
  if i =? 0 then give IiHost
  else if i =? 1 then give IiSerial
  else if i =? 0xD7 then let* a := dec_addressee in give (IiDash7 a)
  else give (IiUnknown i).

(** ** file: the file id byte decides about the form of the payload; the announced length only
    matters for files without a form of their own. *)
Definition text (n : N) : dec rstring :=
  let* s := some_bytes n in if utf8_valid s then give s else reject.
Definition dec_file {E : Env} (id len : N) : dec file :=
  if id =? 0 then let* v := num 8 in give (FUId (UId v))
  else if id =? 1 then
    let* g := signed in
    let* a1 := num 4 in let* a2 := num 4 in let* a3 := num 4 in
    let* a4 := num 4 in let* a5 := num 4 in let* a6 := num 4 in
    let* a7 := num 4 in let* a8 := num 4 in let* a9 := num 4 in
    let* b1 := one in let* b2 := one in let* b3 := one in
    let* b4 := one in let* b5 := one in let* b6 := one in
    let* b7 := one in let* b8 := one in let* b9 := one in
    let* b10 := one in let* b11 := one in
    let* c1 := num 4 in let* c2 := one in let* c3 := one in let* c4 := num 2 in
    give (FFactorySettings (mkFactory g a1 a2 a3 a4 a5 a6 a7 a8 a9
                              b1 b2 b3 b4 b5 b6 b7 b8 b9 b10 b11 c1 c2 c3 c4))
  else if id =? 2 then
    let* a := one in let* b := one in let* s := text 6 in let* t := text 7 in
    give (FFirmwareVersion (mkFirmware a b s t))
  else if id =? 5 then
    let* b := one in
    let* m := named code_eng [EmOff; EmContTx; EmTransientTx; EmPerRx; EmPerTx] b in
    let* f := one in let* t := one in let* c := dec_channel in let* e := signed in
    give (FEngineeringMode (mkEngMode m f t c e))
  else if id =? 6 then let* v := num 2 in give (FVId (VId v))
  else if id =? 9 then
    let* a := num 4 in let* b := num 4 in let* c := num 4 in let* d := num 2 in
    let* n := one in let* l := times (N.to_nat n) dec_channel_status in
    give (FPhyStatus (mkPhyStatus a b c d n l))
  else if id =? 10 then
    let* a := one in let* pad := some_bytes 2 in
    let* l := one in let* n := one in let* r := one in let* t := one in
    give (FDllConfig (mkDllConfig a l n r t))
  else if id =? 11 then
    let* a := one in let* b := one in let* c := one in let* h := dec_channel_header in
    let* i := num 2 in let* r := num 2 in let* s := num 4 in let* t := num 4 in
    give (FDllStatus (mkDllStatus a b c h i r s t))
  else if id =? 14 then let* k := host_num 16 in give (FSecurityKey k)
  else if (32 <=? id) && (id <=? 46) then
    let* p := dec_access_profile in give (FAccessProfile (id - 32) p)
  else let* l := some_bytes len in give (FOther l).

(** ** status *)
Definition dec_itf_status {E : Env} : dec itf_status_op := fun l =>
  (let* i := one in
   if i =? 0 then let* n := dec_length in give (mkItfStatusOp ItHost IsHost)
   else if i =? 1 then let* n := dec_length in give (mkItfStatusOp ItSerial IsSerial)
   else if i =? 0xD7 then
     let* n := dec_length in let* s := dec_dash7_status in give (mkItfStatusOp ItDash7 (IsDash7 s))
   else if (i =? 2) || (i =? 3) then reject
   else
     (** Unassigned: where deku puts the id of such a variant back into the stream, the length is
         read from the id byte. *)
     fun l' => (let* n := dec_length in let* p := some_bytes n in
                give (mkItfStatusOp ItUnknown (IsOther p))) (if e_rewind then l else l')) l.
Definition dec_itf_final : dec itf_final_op :=
  let* i := one in let* n := dec_length in
  if i =? 0xD7 then let* c := dec_final in give (mkItfFinalOp i (FinDash7 c))
  else let* l := some_bytes n in give (mkItfFinalOp i (FinOther l)).
Definition dec_status {E : Env} (kind : N) : dec status :=
  if kind =? 0 then let* a := one in let* s := one in give (StatusAction (mkActionStatus a s))
  else if kind =? 1 then let* s := dec_itf_status in give (StatusInterface s)
  else if kind =? 2 then
    match e_feat with
    | Wizzilab => let* s := dec_itf_final in give (StatusInterfaceFinal s)
    | _ => reject
    end
  else reject.

(** ** wizzilab transmission status: after one byte of header the stream is read from bit 6 of
    each byte on, i.e. as the bytes [shifted] gives; the last two bits are lost. *)
Fixpoint shifted (l : list N) : list N :=
  match l with
  | a :: ((b :: _) as tl) => (a mod 4 * 64 + b / 4) :: shifted tl
  | _ => []
  end.
Definition dec_tx_body {E : Env} (op : N) : dec tx_status_op :=
  let* i := one in let* n := dec_length in
  if i =? 0xD7 then let* s := dec_dash7_tx in give (mkTxStatusOp op i (TxDash7 s))
  else let* l := some_bytes n in give (mkTxStatusOp op i (TxOther l)).
Definition dec_tx {E : Env} : dec tx_status_op := fun l =>
  match l with
  | h :: ((o :: _) as tl) =>
      if part 6 2 h =? 1 then
        match dec_tx_body (part 2 6 o) (shifted tl) with
        | Some (v, rest) => Some (v, skipn (length tl - length rest) tl)
        | None => None
        end
      else None
  | _ => None
  end.

(** ** actions: [op] selects the operand; the first byte holds two flags and six bits that are
    kept in the operand. *)
Definition dec_header (b : N) : action_header := mkHeader (flag 7 b) (flag 6 b).
Definition dec_file_id_op (c : file_id_op -> action) : dec action :=
  let* b := one in let* f := one in give (c (mkFileIdOp (dec_header b) (part 0 6 b) f)).
Definition dec_file_data {E : Env} (c : file_data -> action) : dec action :=
  let* b := one in let* o := dec_file_offset in let* n := dec_length in
  let* f := dec_file (fo_file_id o) n in give (c (mkFileData (dec_header b) (part 0 6 b) o f)).
Definition dec_file_properties (c : file_properties -> action) : dec action :=
  let* b := one in let* f := one in let* h := dec_file_header in
  give (c (mkFileProperties (dec_header b) (part 0 6 b) f h)).
Definition dec_action_query (c : action_query -> action) : dec action :=
  let* b := one in let* q := dec_query in give (c (mkActionQuery (dec_header b) (part 0 6 b) q)).
Definition dec_nop (c : nop -> action) : dec action :=
  let* b := one in give (c (mkNop (dec_header b) (part 0 6 b))).

Definition dec_operand {E : Env} (op : N) : dec action :=
  match op with
  | 0 => dec_nop ANop
  | 1 => let* b := one in let* o := dec_file_offset in let* n := dec_length in
         give (AReadFileData (mkReadFileData (dec_header b) (part 0 6 b) o n))
  | 2 => dec_file_id_op AReadFileProperties
  | 4 => dec_file_data AWriteFileData
  | 5 => dec_file_data AWriteFileDataFlush
  | 6 => dec_file_properties AWriteFileProperties
  | 8 => dec_action_query AActionQuery
  | 9 => dec_action_query ABreakQuery
  | 10 => let* b := one in let* c := one in
          let* l := named code_level [LevelUser; LevelRoot] c in
          let* i := one in
          if i =? 0x42 then
            let* k := some_bytes 8 in
            give (APermissionRequest (mkPermissionRequest (dec_header b) (part 0 6 b) l (PermDash7 k)))
          else reject
  | 11 => dec_action_query AVerifyChecksum
  | 16 => dec_file_id_op AExistFile
  | 17 => dec_file_properties ACreateNewFile
  | 18 => dec_file_id_op ADeleteFile
  | 19 => dec_file_id_op ARestoreFile
  | 20 => dec_file_id_op AFlushFile
  | 23 => let* b := one in let* s := one in let* d := one in
          give (ACopyFile (mkCopyFile (dec_header b) (part 0 6 b) s d))
  | 31 => dec_file_id_op AExecuteFile
  | 32 => dec_file_data AReturnFileData
  | 33 => dec_file_properties AReturnFileProperties
  | 34 => let* b := one in
          let* t := named code_status_type [StAction; StInterface; StInterfaceFinal] (part 6 2 b) in
          let* s := dec_status (part 6 2 b) in
          give (AStatus (mkStatusOperand t (part 0 6 b) s))
  | 35 => let* b := one in let* i := one in
          give (AResponseTag (mkResponseTag (flag 7 b) (flag 6 b) (part 0 6 b) i))
  | 38 => match e_feat with
          | Wizzilab => let* v := dec_tx in give (ATxStatus v)
          | _ => reject
          end
  | 48 => let* b := one in
          let* s := named code_chunk [ChunkContinue; ChunkStart; ChunkEnd; ChunkStartEnd] (part 6 2 b) in
          give (AChunk (mkChunk s (part 0 6 b)))
  | 49 => let* b := one in
          let* s := named code_logic [LogicOr; LogicXor; LogicNor; LogicNand] (part 6 2 b) in
          give (ALogic (mkLogic s (part 0 6 b)))
  | 50 => let* b := one in let* c := dec_interface_config in
          give (AForward (mkForward (flag 6 b) (part 0 6 b) c))
  | 51 => let* b := one in
          if flag 7 b then
            let* c := dec_indirect_interface in
            give (AIndirectForward (mkIndirectForward true (flag 6 b) (part 0 6 b) (Some c)))
          else give (AIndirectForward (mkIndirectForward false (flag 6 b) (part 0 6 b) None))
  | 52 => let* b := one in let* i := one in
          give (ARequestTag (mkRequestTag (flag 7 b) (part 0 6 b) i))
  | 63 => dec_nop AExtension
  | _ => reject
  end.

Definition dec_action {E : Env} : dec action := fun l =>
  match l with b :: _ => dec_operand (part 0 6 b) l | [] => None end.

(** ** commands: actions up to the end of the bytes or up to and including the first indirect
    forward. After a transmission status two bits are pending, so the opcode of the next action
    is taken from the upper six bits of its first byte. *)
Definition is_indirect (a : action) : bool := match a with AIndirectForward _ => true | _ => false end.
Definition is_tx (a : action) : bool := match a with ATxStatus _ => true | _ => false end.
Fixpoint dec_actions {E : Env} (fuel : nat) (pending : bool) (l : list N)
  : option (list action * list N) :=
  match fuel, l with
  | S k, b :: _ =>
      match dec_operand (if pending then part 2 6 b else part 0 6 b) l with
      | Some (a, rest) =>
          if is_indirect a then Some ([a], rest)
          else match dec_actions k (is_tx a) rest with
               | Some (c, rest') => Some (a :: c, rest')
               | None => None
               end
      | None => None
      end
  | _, [] => if pending then None else Some ([], [])
  | O, _ => None
  end.
(** Every action takes at least one byte. *)
Definition dec_command {E : Env} (l : list N) : option (list action * list N) :=
  dec_actions (length l) false l.
Definition count_tx (c : list action) : nat := length (filter is_tx c).

(** ** The interface of a standalone type: the derived [from_bytes] hands back exactly the bytes
    that were not decoded, the derived [TryFrom] insists that there are none. *)
Definition decodes {A} (m : reader A) (D : dec A) : Prop := forall d, bytes d ->
  match D d with
  | Some (v, rest) => d_from_bytes m d 0 = Ok ((rest, 0%nat), v) /\
      d_try_from m d = match rest with [] => Ok v | _ => Err ETooMuchData end
  | None => exists e, d_from_bytes m d 0 = Err e /\ d_try_from m d = Err e
  end.
