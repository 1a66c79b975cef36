(** Canonical input: the byte strings that come back unchanged when they are parsed and serialised
    again. [strict_*] is the decoder of SpecDecode.v with one check at every place where two byte
    strings can mean the same:
    - numbers of variable size are given in their shortest form,
    - bits and bytes that are not looked at are zero,
    - the length in front of a payload whose size follows from its kind is the right one,
    - a status carries the id of its interface exactly where the parser puts it back into the stream,
    - there is no transmission status. *)
From Coq Require Import List NArith ZArith Bool Lia.
From Verif Require Import Base Deku Utils Types Physical Link Network Session Data Query
  Interface File Operation Action Command SpecLayout SpecDecode.
Import ListNotations.
Open Scope N_scope.

Definition only {A} (c : bool) (m : dec A) : dec A := if c then m else reject.
(** [m] uses up exactly [n] bytes. *)
Definition exactly {A} (n : N) (m : dec A) : dec A := fun l =>
  match m l with
  | Some (v, rest) => if N.of_nat (length l) =? N.of_nat (length rest) + n then Some (v, rest) else None
  | None => None
  end.

(** ** Numbers: none of the shorter forms reaches the value. *)
Definition strict_length : dec N :=
  let* b := one in
  let k := b / 64 in
  let* more := num k in
  let v := (b mod 64) * 256 ^ k + more in
  only ((k =? 0) || (64 * 256 ^ (k - 1) <=? v)) (give v).
Definition strict_varint : dec varint :=
  let* b := one in
  only ((b / 32 =? 0) || (8 <=? b mod 32)) (give (mkVarInt (b mod 32 * 4 ^ (b / 32)) false)).
Definition strict_file_offset : dec file_offset :=
  let* f := one in let* o := strict_length in give (mkFileOffset f o).

(** ** physical, link *)
Definition strict_channel_header : dec channel_header :=
  let* b := one in
  only (part 7 1 b =? 0)
   (let* band := named code_band all_bands (part 4 3 b) in
    let* class := named code_class [LoRate; Lora; NormalRate; HiRate] (part 2 2 b) in
    let* coding := named code_coding [Pn9; CodingRfu; FecPn9; Cw] (part 0 2 b) in
    give (mkChannelHeader band class coding)).
Definition strict_channel : dec channel :=
  let* h := strict_channel_header in let* i := num 2 in give (mkChannel h i).
Definition strict_sub_profile : dec sub_profile :=
  let* b := one in let* p := strict_varint in give (mkSubProfile b p).
Definition strict_access_profile : dec access_profile :=
  let* h := strict_channel_header in
  let* p := times 4 strict_sub_profile in
  let* b := times 8 dec_sub_band in
  give (mkAccessProfile h p b).

(** ** network: outside wizzilab the upper two bits of the control byte are padding. *)
Definition strict_address (t : address_type) : dec address :=
  match t with
  | AtNbId => let* v := strict_varint in give (NbId v)
  | _ => dec_address t
  end.
Definition strict_addressee {E : Env} : dec addressee :=
  let* c := one in
  only (match e_feat with Wizzilab => true | _ => part 6 2 c =? 0 end)
   (let* t := named code_address_type [AtNbId; AtNoId; AtUId; AtVId] (part 4 2 c) in
    let* g := match e_feat with
              | Wizzilab => named code_group [GcAny; GcNotEqual; GcEqual; GcGreaterThan] (part 6 2 c)
              | _ => give GcAny
              end in
    let u := match e_feat with Wizzilab => flag 3 c | _ => false end in
    let* n := named code_nls all_nls (match e_feat with Wizzilab => part 0 3 c | _ => part 0 4 c end) in
    let* k := one in
    let* a := strict_address t in
    let* s := dec_nls_state n in
    give (mkAddressee g t u n (mkAccessClass (part 4 4 k) (part 0 4 k)) a s)).

(** ** session *)
Definition strict_dash7_status {E : Env} : dec dash7_interface_status :=
  let* c := strict_channel in
  let* rx := one in let* lb := one in let* tr := one in
  let* f := one in
  only (part 0 4 f =? 0)
   (let* token := one in let* seq := one in
    let* t := strict_varint in
    let* a := strict_addressee in
    give (mkDash7Status c rx lb tr (flag 7 f) (flag 6 f) (flag 5 f) (flag 4 f) token seq t a)).

(** ** data *)
Definition strict_file_header : dec file_header :=
  let* p := one in
  let* q := one in
  only (part 2 2 q =? 0)
   (let* c := named code_condition [AcList; AcRead; AcWrite; AcWriteFlush] (part 4 3 q) in
    let* s := named code_storage [Transient; Volatile; Restorable; Permanent] (part 0 2 q) in
    let* a := one in let* i := one in let* size := num 4 in let* alloc := num 4 in
    give (mkFileHeader
      (mkFilePerm (flag 7 p) (flag 6 p) (mkUserPerm (flag 5 p) (flag 4 p) (flag 3 p))
                  (mkUserPerm (flag 2 p) (flag 1 p) (flag 0 p)))
      (mkFsProp (flag 7 q) c s) a i size alloc)).

(** ** query: a search for a non-void file leaves five bits of the first byte unused, a string
    search one. *)
Definition strict_query : dec query :=
  let* b := one in
  let kind := part 5 3 b in let mask := flag 4 b in
  if kind =? 0 then
    only (part 0 5 b =? 0)
     (let* l := strict_length in let* f := strict_file_offset in give (QNonVoid (mkNonVoid l f)))
  else if kind =? 1 then
    let* c := named code_cmp all_cmp (part 0 3 b) in
    let* l := strict_length in let* m := when mask (some_bytes l) in let* f := strict_file_offset in
    give (QCmpZero (mkCmpZero mask (mkArithParams (flag 3 b) c) l m f))
  else if kind =? 2 then
    let* c := named code_cmp all_cmp (part 0 3 b) in
    let* l := strict_length in let* m := when mask (some_bytes l) in let* v := some_bytes l in
    let* f := strict_file_offset in
    give (QCmpValue (mkCmpValue mask (mkArithParams (flag 3 b) c) l m v f))
  else if kind =? 3 then
    let* c := named code_cmp all_cmp (part 0 3 b) in
    let* l := strict_length in let* m := when mask (some_bytes l) in
    let* f := strict_file_offset in let* g := strict_file_offset in
    give (QCmpOther (mkCmpOther mask (mkArithParams (flag 3 b) c) l m f g))
  else if kind =? 4 then
    let* c := named code_range [NotInRange; InRange] (part 0 3 b) in
    let* l := strict_length in let* s := strict_length in let* t := strict_length in
    let* m := some_bytes l in let* f := strict_file_offset in
    give (QBitmapRange (mkBitmapRange mask (mkRangeParams (flag 3 b) c) l s t m f))
  else if kind =? 7 then
    only (part 3 1 b =? 0)
     (let* l := strict_length in let* m := some_bytes l in let* v := some_bytes l in
      let* f := strict_file_offset in
      give (QStringSearch (mkStringSearch mask (part 0 3 b) l m v f)))
  else reject.

(** ** interface *)
Definition strict_dash7_config {E : Env} : dec dash7_config :=
  let* q := dec_qos in let* d := strict_varint in
  let* x := match e_feat with Subiot => give (mkVarInt 0 false) | _ => strict_varint end in
  let* a := strict_addressee in give (mkDash7Config q d x a).
Definition strict_lorawan : dec lorawan_config :=
  let* b := one in
  only ((part 3 5 b =? 0) && (part 0 1 b =? 0))
   (let* p := one in let* r := one in give (mkLorawanConfig (flag 2 b) (flag 1 b) p r)).
Definition strict_interface_config {E : Env} : dec interface_config :=
  let* i := one in
  if i =? 0 then give IcHost
  else if i =? 1 then give IcSerial
  else if i =? 2 then
    let* b := strict_lorawan in let* n := some_bytes 16 in let* a := some_bytes 16 in
    let* d := host_num 4 in let* k := host_num 4 in give (IcAbp (mkAbp b n a d k))
  else if i =? 3 then
    let* b := strict_lorawan in let* d := some_bytes 8 in let* a := some_bytes 8 in
    let* k := some_bytes 16 in give (IcOtaa (mkOtaa b d a k))
  else if i =? 0xD7 then let* c := strict_dash7_config in give (IcDash7 c)
  else give (IcUnknown i).
Definition strict_indirect_interface {E : Env} : dec indirect_interface :=
  let* i := one in
  if i =? 0 then give IiHost
  else if i =? 1 then give IiSerial
  else if i =? 0xD7 then let* a := strict_addressee in give (IiDash7 a)
  else give (IiUnknown i).

(** ** file *)
Definition strict_file {E : Env} (id len : N) : dec file :=
  if id =? 5 then
    let* b := one in
    let* m := named code_eng [EmOff; EmContTx; EmTransientTx; EmPerRx; EmPerTx] b in
    let* f := one in let* t := one in let* c := strict_channel in let* e := signed in
    give (FEngineeringMode (mkEngMode m f t c e))
  else if id =? 10 then
    let* a := one in let* p := one in only (p =? 0) (let* q := one in only (q =? 0)
     (let* l := one in let* n := one in let* r := one in let* t := one in
      give (FDllConfig (mkDllConfig a l n r t))))
  else if id =? 11 then
    let* a := one in let* b := one in let* c := one in let* h := strict_channel_header in
    let* i := num 2 in let* r := num 2 in let* s := num 4 in let* t := num 4 in
    give (FDllStatus (mkDllStatus a b c h i r s t))
  else if (32 <=? id) && (id <=? 46) then
    let* p := strict_access_profile in give (FAccessProfile (id - 32) p)
  else dec_file id len.

(** ** status *)
Definition strict_itf_status {E : Env} : dec itf_status_op := fun l =>
  (let* i := one in
   if i =? 0 then let* n := strict_length in only (n =? 0) (give (mkItfStatusOp ItHost IsHost))
   else if i =? 1 then let* n := strict_length in only (n =? 0) (give (mkItfStatusOp ItSerial IsSerial))
   else if i =? 0xD7 then
     let* n := strict_length in let* s := exactly n strict_dash7_status in
     give (mkItfStatusOp ItDash7 (IsDash7 s))
   else if (i =? 2) || (i =? 3) then reject
   else fun l' =>
     (** The id of an unassigned interface is not written: it has to be the length itself. *)
     only e_rewind (let* n := strict_length in let* p := some_bytes n in
                    give (mkItfStatusOp ItUnknown (IsOther p))) l) l.
Definition strict_itf_final : dec itf_final_op :=
  let* i := one in let* n := strict_length in
  if i =? 0xD7 then let* c := dec_final in only (n =? 1) (give (mkItfFinalOp i (FinDash7 c)))
  else let* l := some_bytes n in give (mkItfFinalOp i (FinOther l)).
Definition strict_status {E : Env} (kind : N) : dec status :=
  if kind =? 1 then let* s := strict_itf_status in give (StatusInterface s)
  else if kind =? 2 then
    match e_feat with
    | Wizzilab => let* s := strict_itf_final in give (StatusInterfaceFinal s)
    | _ => reject
    end
  else dec_status kind.

(** ** actions *)
Definition strict_file_data {E : Env} (c : file_data -> action) : dec action :=
  let* b := one in let* o := strict_file_offset in let* n := strict_length in
  let* f := exactly n (strict_file (fo_file_id o) n) in
  give (c (mkFileData (dec_header b) (part 0 6 b) o f)).
Definition strict_file_properties (c : file_properties -> action) : dec action :=
  let* b := one in let* f := one in let* h := strict_file_header in
  give (c (mkFileProperties (dec_header b) (part 0 6 b) f h)).
Definition strict_action_query (c : action_query -> action) : dec action :=
  let* b := one in let* q := strict_query in give (c (mkActionQuery (dec_header b) (part 0 6 b) q)).

Definition strict_operand {E : Env} (op : N) : dec action :=
  match op with
  | 1 => let* b := one in let* o := strict_file_offset in let* n := strict_length in
         give (AReadFileData (mkReadFileData (dec_header b) (part 0 6 b) o n))
  | 4 => strict_file_data AWriteFileData
  | 5 => strict_file_data AWriteFileDataFlush
  | 6 => strict_file_properties AWriteFileProperties
  | 8 => strict_action_query AActionQuery
  | 9 => strict_action_query ABreakQuery
  | 11 => strict_action_query AVerifyChecksum
  | 17 => strict_file_properties ACreateNewFile
  | 32 => strict_file_data AReturnFileData
  | 33 => strict_file_properties AReturnFileProperties
  | 34 => let* b := one in
          let* t := named code_status_type [StAction; StInterface; StInterfaceFinal] (part 6 2 b) in
          let* s := strict_status (part 6 2 b) in
          give (AStatus (mkStatusOperand t (part 0 6 b) s))
  | 38 => reject
  | 50 => let* b := one in only (part 7 1 b =? 0)
           (let* c := strict_interface_config in
            give (AForward (mkForward (flag 6 b) (part 0 6 b) c)))
  | 51 => let* b := one in
          if flag 7 b then
            let* c := strict_indirect_interface in
            give (AIndirectForward (mkIndirectForward true (flag 6 b) (part 0 6 b) (Some c)))
          else give (AIndirectForward (mkIndirectForward false (flag 6 b) (part 0 6 b) None))
  | 52 => let* b := one in only (part 6 1 b =? 0)
           (let* i := one in give (ARequestTag (mkRequestTag (flag 7 b) (part 0 6 b) i)))
  | _ => dec_operand op
  end.
Definition strict_action {E : Env} : dec action := fun l =>
  match l with b :: _ => strict_operand (part 0 6 b) l | [] => None end.

(** ** commands: up to the end of the bytes; an indirect forward is the last action. *)
Fixpoint strict_actions {E : Env} (fuel : nat) (l : list N) : option (list action) :=
  match fuel, l with
  | _, [] => Some []
  | S k, _ =>
      match strict_action l with
      | Some (a, []) => Some [a]
      | Some (a, rest) =>
          if is_indirect a then None
          else match strict_actions k rest with Some c => Some (a :: c) | None => None end
      | None => None
      end
  | O, _ => None
  end.
Definition strict_command {E : Env} (l : list N) : option (list action) := strict_actions (length l) l.

(** Kinds of action whose input is always canonical. *)
Definition rigid (a : action) : Prop :=
  match a with
  | ANop _ | AExtension _ | AReadFileProperties _ | AExistFile _ | ADeleteFile _ | ARestoreFile _
  | AFlushFile _ | AExecuteFile _ | ACopyFile _ | APermissionRequest _ | AResponseTag _ | AChunk _
  | ALogic _ => True
  | AStatus v => match so_status v with StatusAction _ => True | _ => False end
  | _ => False
  end.
