(** C09-C13, C15, C16: commands. *)
From Coq Require Import List NArith ZArith Bool.
From Verif Require Import Base Deku Utils Types Physical Link Network Session Data Query Interface File
  Operation Action Command WellFormed SpecLayout SpecApi SpecAction SpecFail Samples LActionApi
  LReencode LCommandApi LCommandMore LWrite LWitness LConcat.
Import ListNotations.
Open Scope N_scope.

(** C09, commands. *)
Theorem C09_command_reencode : forall (E : Env) d c r, read_command 0 (new_reader d) = Ok (c, r) -> Forall reencodable c ->
  exists l, command_to_bytes c = Ok l /\ bytes l /\ command_try_from l = Ok c.
Proof. exact @command_reencode. Qed.
Print Assumptions C09_command_reencode.

Example C09_command_example : forall E : Env,
  command_try_from [0xB4; 7; 0x20; 0x40; 0x40; 5; 0x40; 1; 9] =
    Ok [sample_tag; AReturnFileData (mkFileData (mkHeader false false) 32 (mkFileOffset 0x40 5) (FOther [9]))].
Proof. intros [[] [] []]; reflexivity. Qed.

(** C10. *)
Theorem C10_command_round_trip : forall (E : Env) c, wf_command c ->
  exists l, command_to_bytes c = Ok l /\ bytes l /\ command_try_from l = Ok c.
Proof. exact @command_round_trip. Qed.
Print Assumptions C10_command_round_trip.

Example C10_example : forall E : Env, wf_command sample_command /\ wf_command [] /\
  length sample_command = 4%nat /\ command_try_from [] = Ok [].
Proof.
  intros E. split; [exact sample_command_wf|]. split; [|repeat split].
  split; [constructor|]. intros [|x pre] a post H; discriminate.
Qed.

(** C11. *)
Theorem C11_concat_refuted : ~ (forall (E : Env) a b x y, command_to_bytes a = Ok x -> command_to_bytes b = Ok y ->
  command_to_bytes (a ++ b) = Ok (x ++ y)).
Proof. exact concat_refuted. Qed.
Print Assumptions C11_concat_refuted.

(** A TxStatus leaves six bits over, so four of them fill bytes again; otherwise only Nops without
    flags, eight zero bits each, can follow. *)
Theorem C11_concat_exact : forall (E : Env) a b x y, command_to_bytes a = Ok x -> command_to_bytes b = Ok y ->
  (command_to_bytes (a ++ b) = Ok (x ++ y) <->
   (length (filter is_tx_status a) mod 4 = 0)%nat \/ Forall (fun k => exists o, k = ANop (mkNop (mkHeader false false) o)) b).
Proof. exact @concat_exact. Qed.
Print Assumptions C11_concat_exact.

Theorem C11_concat_bits : forall (E : Env) a b, write_command (a ++ b) = write_command a +++ write_command b.
Proof. exact @write_command_app. Qed.
Print Assumptions C11_concat_bits.

Theorem C11_concat : forall (E : Env) a b, Forall (fun x => is_tx_status x = false) a ->
  command_to_bytes (a ++ b) = rbind (command_to_bytes a) (fun x => rbind (command_to_bytes b) (fun y => Ok (x ++ y))).
Proof. exact @command_app. Qed.
Print Assumptions C11_concat.

Theorem C11_actions : forall (E : Env) c, Forall (fun a => ~ unwritable a) c -> Forall (fun a => is_tx_status a = false) c ->
  exists ls, Forall2 (fun a l => action_to_bytes a = Ok l) c ls /\ command_to_bytes c = Ok (concat ls).
Proof. exact @command_concat. Qed.
Print Assumptions C11_actions.

Theorem C11_fails : forall (E : Env) c,
  (Exists unwritable c -> command_to_bytes c = Err EInvalidParam) /\
  (~ Exists unwritable c -> exists l, command_to_bytes c = Ok l /\ bytes l).
Proof. exact @command_fails_iff. Qed.
Print Assumptions C11_fails.

Example C11_example : forall E : Env,
  command_to_bytes [sample_tag] = Ok [0xB4; 7] /\ command_to_bytes [sample_nop; sample_tag] = Ok [0x80; 0xB4; 7] /\
  command_to_bytes ([sample_tag] ++ [sample_nop; sample_tag]) = Ok [0xB4; 7; 0x80; 0xB4; 7] /\
  @command_to_bytes env_wizzilab [sample_tx] = Ok [0x40; 0x98; 0x24; 0x08; 0x04; 0x08] /\
  @command_to_bytes env_wizzilab [sample_tx; sample_tag] = Ok [0x40; 0x98; 0x24; 0x08; 0x04; 0x0A; 0xD0; 0x1C].
Proof. intros [[] [] []]; repeat split. Qed.

Example C11_example_tx : let E := env_wizzilab in
  let z := ANop (mkNop (mkHeader false false) 7) in
  command_to_bytes [sample_tx; z] = Ok [0x40; 0x98; 0x24; 0x08; 0x04; 0x08; 0] /\
  command_to_bytes (repeat sample_tx 4 ++ [sample_tag])
  = rbind (command_to_bytes (repeat sample_tx 4)) (fun x => Ok (x ++ [0xB4; 7])) /\
  (exists x, command_to_bytes (repeat sample_tx 4) = Ok x /\ length x = 23%nat).
Proof. repeat split. eexists. split; reflexivity. Qed.

(** C12: actions and commands. *)
Theorem C12_action_no_panic : forall (E : Env) d, action_try_from d <> Panic /\ action_try_from d <> Err EFuel.
Proof. exact @action_no_panic. Qed.
Print Assumptions C12_action_no_panic.

Theorem C12_command_no_panic : forall (E : Env) d,
  match command_try_from d with
  | Ok c => (length c <= length d)%nat
  | Err e => e <> EFuel
  | Panic => False
  end.
Proof. exact @command_no_panic. Qed.
Print Assumptions C12_command_no_panic.

Example C12_example : forall E : Env,
  command_try_from (repeat 0 5) = Ok (repeat (ANop (mkNop (mkHeader false false) 0)) 5) /\
  command_try_from [0x20; 0x40; 0; 0xFF; 0xFF; 0xFF; 0xFF] = Err EIncomplete.
Proof. intros [[] [] []]; repeat split. Qed.

(** C13, commands. *)
Theorem C13_command_truncated : forall (E : Env) c k, wf_command c -> (k < length (enc_command c))%nat ->
  (forall j, (j <= length c)%nat -> k <> length (enc_command (firstn j c))) ->
  command_try_from (firstn k (enc_command c)) = Err EIncomplete.
Proof. exact @command_truncated. Qed.
Print Assumptions C13_command_truncated.

Theorem C13_command_cut : forall (E : Env) c j, wf_command c -> (j <= length c)%nat ->
  firstn (length (enc_command (firstn j c))) (enc_command c) = enc_command (firstn j c) /\
  command_try_from (enc_command (firstn j c)) = Ok (firstn j c).
Proof. exact @command_cut. Qed.
Print Assumptions C13_command_cut.

Example C13_command_example : forall E : Env,
  map (fun k => command_try_from (firstn k [0xB4; 7; 0x80; 0xB4; 7])) [0; 1; 2; 3; 4]%nat =
  [Ok []; Err EIncomplete; Ok [sample_tag]; Ok [sample_tag; sample_nop]; Err EIncomplete].
Proof. intros [[] [] []]; reflexivity. Qed.

(** C15, commands. *)
Theorem C15_command_remainder : forall (E : Env) d c r, read_command 0 (new_reader d) = Ok (c, r) ->
  Forall (fun a => is_tx_status a = false) c ->
  exists q, actions_at d 0 c q /\ (q <= length d)%nat /\ (last_is_indirect c = false -> q = length d) /\
    command_from_bytes d 0 = Ok ((skipn (q + length c) d, 0%nat), c).
Proof. exact @command_remainder. Qed.
Print Assumptions C15_command_remainder.

Example C15_command_example : forall E : Env,
  command_from_bytes [0xB4; 7; 0x33; 1; 2; 3] 0 =
    Ok (([3], 0%nat), [sample_tag; AIndirectForward (mkIndirectForward false false 51 None)]).
Proof. intros [[] [] []]; reflexivity. Qed.

(** C16. *)
Theorem C16_indirect_last : forall (E : Env) len r c r', reader_state r -> read_command len r = Ok (c, r') ->
  indirect_last c.
Proof. exact @read_command_shape. Qed.
Print Assumptions C16_indirect_last.

Theorem C16_rest_ignored : forall (E : Env) d c r e, read_command 0 (new_reader d) = Ok (c, r) -> last_is_indirect c = true ->
  exists r', read_command 0 (new_reader (d ++ e)) = Ok (c, r') /\ bread r' = bread r.
Proof. exact @command_ext. Qed.
Print Assumptions C16_rest_ignored.

Theorem C16_no_round_trip : forall (E : Env) pre a post, Forall wf_action (pre ++ a :: post) ->
  Forall (fun x => is_indirect x = false) pre -> is_indirect a = true -> post <> [] ->
  exists l k, command_to_bytes (pre ++ a :: post) = Ok l /\ command_to_bytes post = Ok k /\
    command_try_from l = (if Nat.leb (length k) (S (length pre)) then Ok (pre ++ [a]) else Err ETooMuchData) /\
    command_try_from l <> Ok (pre ++ a :: post).
Proof. exact @after_indirect. Qed.
Print Assumptions C16_no_round_trip.

Example C16_example : forall E : Env,
  Forall wf_action [sample_tag; sample_indirect; sample_nop] /\
  command_try_from [0xB4; 7; 0x33; 0x80; 0x80] = Ok [sample_tag; AIndirectForward (mkIndirectForward false false 51 None)] /\
  command_try_from [0xB4; 7; 0x33; 0x80; 0x80; 0x80] = Err ETooMuchData.
Proof.
  intros E. split; [|destruct E as [[] [] []]; repeat split].
  exact (Forall_cons _ sample_tag_wf (Forall_cons _ sample_indirect_wf (Forall_cons _ sample_nop_wf (Forall_nil _)))).
Qed.
