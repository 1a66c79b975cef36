(** Vocabulary for C75: what was parsed, written again, compared in size with what it was parsed
    from. *)
From Coq Require Import List NArith ZArith Bool.
From Verif Require Import Base Deku Utils Types Physical Link Network Session Data Query
  Interface File Operation Action Command.
Import ListNotations.
Open Scope N_scope.

(** File data of a kind whose form follows from the file id, in 64 bytes or more: access profiles
    (65 bytes) and physical layer statuses of 17 channels or more (15 bytes and 3 per channel). The
    announced size is not looked at when they are parsed, so it may be a number of one byte. *)
Definition big_file (f : file) : bool :=
  match f with
  | FAccessProfile _ _ => true
  | FPhyStatus s => Nat.leb 17 (length (ps_channels s))
  | _ => false
  end.
Definition swells (a : action) : bool :=
  match a with
  | AWriteFileData v | AWriteFileDataFlush v | AReturnFileData v => big_file (fd_data v)
  | _ => false
  end.

(** An access profile of zeros, returned as file 0x20. *)
Definition zero_profile : action :=
  AReturnFileData (mkFileData (mkHeader false false) 32 (mkFileOffset 0x20 0)
    (FAccessProfile 0 (mkAccessProfile (mkChannelHeader BandRfu0 LoRate Pn9)
      (repeat (mkSubProfile 0 (mkVarInt 0 false)) 4) (repeat (mkSubBand 0 0 0%Z 0 0) 8)))).
