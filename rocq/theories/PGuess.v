(** C98: what the parse tool takes an input for. *)
From Coq Require Import List NArith Bool.
From Verif Require Import Base Deku Network File Operation Action Command Frames Cli DefaultCtx WellFormed SpecLayout SpecApi SpecDecode SpecFrames
  SpecFrameDecode SpecCli SpecGuess LCli LGuess.
Import ListNotations.
Open Scope N_scope.

(** Without a type some commands are shown as frames ... *)
Theorem C98_command_refuted : forall E : Env, exists c1 b1 s1 v1 c2 b2 s2 v2,
  (wf_command c1 /\ command_to_bytes c1 = Ok b1 /\ command_try_from b1 = Ok c1 /\ spells s1 b1 /\ cli_main None None s1 = Ok [PrBackground v1]) /\
  (wf_command c2 /\ command_to_bytes c2 = Ok b2 /\ command_try_from b2 = Ok c2 /\ spells s2 b2 /\ cli_main None None s2 = Ok [PrFrame v2]).
Proof. exact @command_refuted. Qed.
Print Assumptions C98_command_refuted.

(** ... namely those of six bytes and those that start with a frame followed by a byte for each of its actions. *)
Theorem C98_command_exact : forall (E : Env) fid s b c, spells s b -> command_try_from b = Ok c ->
  (cli_main None fid s = Ok [PrCommand c] <->
   length b <> 6%nat /\ forall v rest, dec_fframe b = Some (v, rest) -> ~ whole_frame v (length rest)).
Proof. exact @command_shown. Qed.
Print Assumptions C98_command_exact.

Theorem C98_six_bytes : forall (E : Env) fid s b, spells s b -> length b = 6%nat ->
  exists v, bframe_try_from b = Ok v /\ bframe_to_bytes v = Ok b /\ cli_main None fid s = Ok [PrBackground v].
Proof. exact @six_background. Qed.
Print Assumptions C98_six_bytes.

(** Other short commands are shown right. *)
Theorem C98_command_short : forall (E : Env) fid s b c, spells s b -> command_try_from b = Ok c ->
  (length b < 10)%nat -> length b <> 6%nat -> cli_main None fid s = Ok [PrCommand c].
Proof. exact @command_short. Qed.
Print Assumptions C98_command_short.

(** What is shown as a frame is longer than its length field says, or its command ends in an indirect forward. *)
Theorem C98_frame_needs : forall (E : Env) t fid s b v, spells s b -> t = None \/ t = Some PForeground ->
  cli_main t fid s = Ok [PrFrame v] ->
  exists rest, dec_fframe b = Some (v, rest) /\ whole_frame v (length rest) /\ (10 + length rest <= length b)%nat /\
    (ends_in_indirect (command_of v) \/ (ff_length v <> 0 /\ ff_length v + 2 + N.of_nat (length rest) <= N.of_nat (length b))).
Proof. exact @frame_needs. Qed.
Print Assumptions C98_frame_needs.

(** A frame and nothing else is not shown, even if the type is given ... *)
Theorem C98_frame_refuted : forall E : Env, exists v b s, wf_fframe v /\ dec_fframe b = Some (v, []) /\ spells s b /\
  fails (cli_main (Some PForeground) None s) /\ exists rest f, cli_main None None s = Ok [PrFile rest f].
Proof. exact @frame_refuted. Qed.
Print Assumptions C98_frame_refuted.

(** ... unless it has no action, or with wizzilab one. *)
Theorem C98_frame_alone : forall (E : Env) t fid s b v, spells s b -> t = None \/ t = Some PForeground ->
  dec_fframe b = Some (v, []) ->
  (cli_main t fid s = Ok [PrFrame v] <-> length (command_of v) = one_if_wizzilab).
Proof. exact @frame_alone. Qed.
Print Assumptions C98_frame_alone.

Theorem C98_frame_exact : forall (E : Env) t fid s b v rest, spells s b -> t = None \/ t = Some PForeground ->
  dec_fframe b = Some (v, rest) ->
  (cli_main t fid s = Ok [PrFrame v] <-> whole_frame v (length rest)) /\
  (~ whole_frame v (length rest) -> fails (cli_main (Some PForeground) fid s)).
Proof. exact @frame_shown. Qed.
Print Assumptions C98_frame_exact.

Theorem C98_whole_frame : forall (E : Env) v n, count_tx (command_of v) = 0%nat ->
  (whole_frame v n <-> (n + one_if_wizzilab = length (command_of v))%nat).
Proof. exact @whole_rest. Qed.
Print Assumptions C98_whole_frame.

(** A system file is shown as a unique id. *)
Theorem C98_file_refuted : forall E : Env, exists id f b s,
  file_to_bytes f = Ok b /\ file_from_bytes b 0 id 0 = Ok (([], 0%nat), f) /\ spells s b /\
  exists u, cli_main (Some PSystemfile) None s = Ok [PrFile (skipn 8 b, 0%nat) (FUId u)] /\ f <> FUId u.
Proof. exact @file_refuted. Qed.
Print Assumptions C98_file_refuted.

Theorem C98_file_exact : forall (E : Env) s b id rest f, spells s b -> file_from_bytes b 0 id 0 = Ok (rest, f) ->
  (cli_main (Some PSystemfile) None s = Ok [PrFile rest f] <-> id = FidUId \/ ((length b < 8)%nat /\ f = FOther [])).
Proof. exact @file_shown. Qed.
Print Assumptions C98_file_exact.

(** A frame with two request tags is no frame to the tool unless two bytes follow, with wizzilab one. *)
Example C98_example : forall (E : Env) s,
  dec_fframe tags_bytes = Some (small_frame 12 [tag 1; tag 2] 0x0707, []) /\
  (spells s tags_bytes -> cli_main (Some PForeground) None s = Panic) /\
  (spells s (tags_bytes ++ match e_feat with Wizzilab => [0x3E] | _ => [0x3E; 0x3F] end) ->
   cli_main None None s = Ok [PrFrame (small_frame 12 [tag 1; tag 2] 0x0707)]) /\
  (spells s [0xB4; 1; 0xB4; 2] -> cli_main None None s = Ok [PrCommand [tag 1; tag 2]]).
Proof.
  intros E s. split; [exact tags_frame|]. split; [|split]; intros Hs.
  - rewrite (proj1 (cli_typed None s _ Hs)). destruct E as [[] [] []]; vm_compute; reflexivity.
  - rewrite (any_exact None s _ Hs). destruct E as [[] [] []]; vm_compute; reflexivity.
  - rewrite (any_exact None s _ Hs). destruct E as [[] [] []]; vm_compute; reflexivity.
Qed.
