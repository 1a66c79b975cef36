(** C39, C40: the command line tool. *)
From Coq Require Import List NArith ZArith Bool Lia Relations.
From Verif Require Import Base Deku Network Operation Action Command File Frames Cli SpecApi SpecCli LCli.
Import ListNotations.
Open Scope N_scope.

(** C39: neither form reports anything but malformed hex ... *)
Theorem C39_refuted : forall E : Env,
  ~ (forall fid s bs, spells s bs -> no_kind bs -> fails (cli_main None fid s)).
Proof. exact @any_refuted. Qed.
Print Assumptions C39_refuted.

Theorem C39_systemfile_refuted : forall E : Env,
  ~ (forall s bs, spells s bs -> no_file bs -> fails (cli_main (Some PSystemfile) None s)).
Proof. exact @systemfile_refuted. Qed.
Print Assumptions C39_systemfile_refuted.

Theorem C39_fails_exact : forall (E : Env) fid s,
  (fails (cli_main None fid s) <-> (forall bs, ~ spells s bs)) /\
  (fails (cli_main (Some PSystemfile) None s) <-> (forall bs, ~ spells s bs)).
Proof. exact @fails_exact. Qed.
Print Assumptions C39_fails_exact.

(** ... because some file always matches: eight bytes are a unique id, fewer are an empty file. No
    other system file is ever found. *)
Theorem C39_any_exact : forall (E : Env) fid s bs, spells s bs ->
  cli_main None fid s =
  Ok [match fframe_try_from bs with
      | Ok f => PrFrame f
      | _ => match bframe_try_from bs with
             | Ok f => PrBackground f
             | _ => match command_try_from bs with
                    | Ok c => PrCommand c
                    | _ => if Nat.leb 8 (length bs) then PrFile (skipn 8 bs, 0%nat) (FUId (UId (N_of_be (firstn 8 bs))))
                           else PrFile (bs, 0%nat) (FOther [])
                    end
             end
      end].
Proof. exact @any_exact. Qed.
Print Assumptions C39_any_exact.

Theorem C39_systemfile_exact : forall (E : Env) s bs, spells s bs ->
  cli_main (Some PSystemfile) None s =
  Ok [if Nat.leb 8 (length bs) then PrFile (skipn 8 bs, 0%nat) (FUId (UId (N_of_be (firstn 8 bs))))
      else PrFile (bs, 0%nat) (FOther [])].
Proof. exact @systemfile_exact. Qed.
Print Assumptions C39_systemfile_exact.

(** "3E" is nothing, and is printed as an empty file; a firmware version of 15 bytes is printed as
    a unique id. *)
Example C39_example : forall E : Env,
  spells [0x33; 0x45] [0x3E] /\ no_kind [0x3E] /\
  cli_main None None [0x33; 0x45] = Ok [PrFile ([0x3E], 0%nat) (FOther [])] /\
  (let d := [1; 2; 0x61; 0x62; 0x63; 0; 0; 0; 0x37; 0; 0; 0; 0; 0; 0] in
   file_from_bytes d 0 FidFirmwareVersion 0 = Ok (([], 0%nat), FFirmwareVersion (mkFirmware 1 2 [0x61; 0x62; 0x63; 0; 0; 0] [0x37; 0; 0; 0; 0; 0; 0])) /\
   parse_any_file d = Ok [PrFile (skipn 8 d, 0%nat) (FUId (UId 0x102616263000000))]).
Proof.
  intros E. split; [exact x3e_spells|]. split; [exact x3e_no_kind|].
  split; [rewrite (any_exact None _ _ x3e_spells); destruct E as [[] [] []]; reflexivity|].
  destruct E as [[] [] []]; split; reflexivity.
Qed.

(** C40: white space. *)
Theorem C40_white_space : forall (E : Env) t fid a b, same_but_space a b -> cli_main t fid a = cli_main t fid b.
Proof. exact @white_space_ignored. Qed.
Print Assumptions C40_white_space.

(** The bytes are the digit pairs, whatever the case of the digits, and nothing else counts. *)
Theorem C40_bytes : forall (E : Env) t fid a b bs, spells a bs -> spells b bs -> cli_main t fid a = cli_main t fid b.
Proof. exact @same_bytes. Qed.
Print Assumptions C40_bytes.

Theorem C40_parsed : forall (E : Env) fid s bs, spells s bs ->
  cli_main (Some PForeground) fid s = match fframe_try_from bs with Ok f => Ok [PrFrame f] | _ => Panic end /\
  cli_main (Some PBackground) fid s = match bframe_try_from bs with Ok f => Ok [PrBackground f] | _ => Panic end /\
  cli_main (Some PAlp) fid s = match command_try_from bs with Ok c => Ok [PrCommand c] | _ => Panic end /\
  cli_main (Some PSerial) fid s = Panic /\
  forall i, cli_main (Some PSystemfile) (Some i) s =
    match file_id_try_from i with
    | Ok id => match file_from_bytes bs 0 id 0 with Ok (rest, f) => Ok [PrFile rest f] | _ => Panic end
    | _ => Panic
    end.
Proof. exact @cli_typed. Qed.
Print Assumptions C40_parsed.

(** Anything else is rejected. *)
Theorem C40_rejected : forall (E : Env) t fid s, (forall bs, ~ spells s bs) -> fails (cli_main t fid s).
Proof. exact @rejected. Qed.
Print Assumptions C40_rejected.

(** A string stands for at most one byte string, and every byte string has one. *)
Theorem C40_spelling : (forall s a b, spells s a -> spells s b -> a = b) /\
  (forall s bs, spells s bs -> bytes bs) /\ (forall bs, bytes bs -> exists s, spells s bs).
Proof. exact (conj spells_unique (conj spells_bytes spells_every)). Qed.
Print Assumptions C40_spelling.

(** "0 0　" is one Nop; "0" and "0G" are nothing. *)
Example C40_example : forall E : Env,
  spells [48; 32; 48; 0x3000] [0] /\ same_but_space [48; 48] [48; 32; 48; 0x3000] /\
  cli_main (Some PAlp) None [48; 32; 48; 0x3000] = Ok [PrCommand [ANop (mkNop (mkHeader false false) 0)]] /\
  (forall bs, ~ spells [48] bs) /\ (forall bs, ~ spells [48; 71] bs).
Proof.
  intros E. assert (S : spells [48; 32; 48; 0x3000] [0]).
  { exists [0; 0]. split; [|exact (pr_byte 0 0 [] [] pr_end)].
    apply dg_digit; [cbn; tauto|]. apply dg_space; [cbn; tauto|]. apply dg_digit; [cbn; tauto|].
    apply dg_space; [cbn; tauto|]. constructor. }
  split; [exact S|]. split.
  { eapply rst_trans; apply rst_step.
    - apply (sp_insert [48] 32 [48]). cbn; tauto.
    - apply (sp_insert [48; 32; 48] 0x3000 []). cbn; tauto. }
  split; [destruct E as [[] [] []]; reflexivity|].
  split; intros bs H; apply decode_spells in H; discriminate.
Qed.
