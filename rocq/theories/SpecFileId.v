(** Vocabulary for file ids: the names the documentation gives to runs of consecutive numbers. *)
From Coq Require Import List NArith Bool.
From Verif Require Import Base Deku File.
Import ListNotations.
Open Scope N_scope.

(** Where a run starts, and the names in it. *)
Definition file_id_runs : list (N * list file_id) :=
  [(0x00, [FidUId; FidFactorySettings; FidFirmwareVersion; FidDeviceCapacity; FidDeviceStatus;
           FidEngineeringMode; FidVId]);
   (0x08, [FidPhyConfig; FidPhyStatus; FidDllConfig; FidDllStatus; FidNetworkRouting;
           FidNetworkSecurity; FidNetworkSecurityKey; FidNetworkSsr; FidNetworkStatus;
           FidTrlStatus; FidSelConfig; FidFofStatus]);
   (0x17, [FidLocationData; FidRootKey; FidUserKey]);
   (0x1B, [FidSensorDescription; FidRtc]);
   (0x20, map (fun i => FidAccessProfile (N.of_nat i)) (seq 0 15))].

(** The number of a name. *)
Definition file_id_number (v : file_id) (b : N) : Prop :=
  exists s l k, In (s, l) file_id_runs /\ nth_error l k = Some v /\ b = s + N.of_nat k.

(** Names shared by several numbers. *)
Definition file_id_shared (v : file_id) (b : N) : Prop :=
  (v = FidRfu /\ (b = 0x07 \/ 0x14 <= b <= 0x16)) \/
  (v = FidD7AalpRfu /\ 0x1D <= b <= 0x1F) \/
  (v = FidOther /\ (b = 0x1A \/ 0x2F <= b)).

(** The values of the type. *)
Definition file_id_value (v : file_id) : Prop :=
  match v with FidAccessProfile i => i < 15 | _ => True end.
