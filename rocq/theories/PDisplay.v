(** Property C47, continued: the text of the interface status of a command. *)
From Coq Require Import List NArith ZArith Bool String Ascii.
From Verif Require Import Base Deku Utils Types Physical Link Network Session Display Debug SpecApi SpecDisplay LDisplay.
Import ListNotations.
Open Scope string_scope.

Theorem C47_status : forall (E : Env) (plain : N -> bool) (s : interface_status),
  status_shown plain s (show_interface_status (derived plain) s).
Proof. exact @status_text. Qed.
Print Assumptions C47_status.

(** The flags in their places; bytes of another interface in their order. *)
Example C47_status_example :
  let s := mkDash7Status (mkChannel (mkChannelHeader Band868 LoRate Pn9) 3) 70 80 90 true false false true 5 6 (mkVarInt 7 true)
    (mkAddressee GcAny AtNbId false NlsNone (mkAccessClass 1 2) (NbId (mkVarInt 8 false)) NsNone) in
  show_interface_status (derived (E := env_spec) (fun _ => false)) (IsDash7 s) =
    "Dash7InterfaceStatus { channel: Channel { header: ChannelHeader { channel_band: Band868, channel_class: LoRate, channel_coding: Pn9 }, index: 3 }, rx_level: 70, link_budget: 80, target_rx_level: 90, nls: true, missed: false, retry: false, unicast: true, fifo_token: 5, sequence_number: 6, response_timeout: 7, addressee: Addressee { address_type: NbId, nls_method: None, access_class: AccessClass { specifier: 1, mask: 2 }, address: NbId(VarInt { value: 8, ceil: false }), nls_state: None },  }" /\
  show_interface_status (derived (E := env_spec) (fun _ => false)) (IsOther [1; 2; 30]%N) = "OtherInterfaceStatus{ [1, 2, 30] }".
Proof. vm_compute. split; reflexivity. Qed.
