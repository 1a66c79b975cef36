(** The text of an interface status, by the derived text of its parts: vocabulary for C47. *)
From Coq Require Import List NArith ZArith Bool String.
From Verif Require Import Base Deku Utils Types Physical Link Network Session Debug.
Import ListNotations.
Open Scope string_scope.

(** The fields of a struct with a number for the timeout. *)
Definition number_for (n : N) (fields : list (string * dv)) : list (string * dv) :=
  map (fun p => if String.eqb (fst p) "response_timeout" then (fst p, DNum (Z.of_N n)) else p) fields.

(** A DASH7 status is written as [{:?}] would, with a number for the timeout and with a comma and
    a space too many at the end. *)
Definition status_shown {E : Env} (plain : N -> bool) (s : interface_status) (t : string) : Prop :=
  match s with
  | IsHost => t = "HostInterfaceStatus{}"
  | IsSerial => t = "SerialInterfaceStatus{}"
  | IsOther l => t = "OtherInterfaceStatus{ " ++ show_dv plain (DList (map (fun b => DNum (Z.of_N b)) l)) ++ " }"
  | IsDash7 d => exists name fields front,
      d_interface_status s = DTuple "Dash7" [DStruct name fields] /\
      show_dv plain (DStruct name (number_for (vi_value (ds_timeout d)) fields)) = front ++ " }" /\
      t = front ++ ",  }"
  end.
