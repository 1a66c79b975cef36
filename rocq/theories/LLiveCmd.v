(** Operands and actions: where they run out of input, which continuations are accepted. *)
From Coq Require Import List NArith ZArith Bool Lia ZifyBool ZifyNat ZifyN Arith.
From Verif Require Import Base Deku Utils Types Physical Link Network Session Data Query
  Interface File Operation Action Command WellFormed SpecLayout SpecDecode SpecLive LBits LUtf8 LReader LLayout LNiceOps
  LDecode LDecodeTypes LDecodeOps LDecodeAct LDecodeCmd LDecodeTx LJoin LLive LLiveOps LLiveAct.
Import ListNotations.
Open Scope N_scope.

Lemma LivX_head {A X} (g : reader X) (F : N -> X) (k : X -> reader A) (K : X -> dec A) (m : reader A) (D : dec A) (Y : N -> list N -> Prop) (Z : X -> list N -> Prop) :
  Liv g (let* b := one in give (F b)) Any -> (forall x, LivX (k x) (K x) Any (Z x)) -> (forall x, St (K x) Any) ->
  (forall r, RWf r -> m r = bind g k r) -> (forall l, D l = (let* b := one in K (F b)) l) -> (forall b l, Y b l -> Z (F b) l) ->
  LivX m D Any (fun l => forall b rest, l = b :: rest -> Y b rest).
Proof.
  intros H G HS Hm HD HY. eapply LivX_ext; [eapply LivX_bind with (m := g) (f := k) (D := let* b := one in give (F b)) (K := K) (P := Any)
    (X := Z) (Y := fun l => forall b rest, l = b :: rest -> Y b rest);
      [exact H|exact G|intros; apply HS|]|exact Hm| |auto].
  - intros l v rest Hl HZ. destruct l as [|b l]; [discriminate|]. unfold andthen, one, give in Hl. assert (v = F b /\ rest = l) as [-> ->] by (split; congruence).
    apply HY, HZ. reflexivity.
  - intros l. rewrite HD, andthen_andthen. reflexivity.
Qed.
Lemma Liv_head {A X} (g : reader X) (F : N -> X) (k : X -> reader A) (K : X -> dec A) (m : reader A) (D : dec A) :
  Liv g (let* b := one in give (F b)) Any -> (forall x, Liv (k x) (K x) Any) -> (forall x, St (K x) Any) ->
  (forall r, RWf r -> m r = bind g k r) -> (forall l, D l = (let* b := one in K (F b)) l) -> Liv m D Any.
Proof.
  intros H G HS Hm HD. eapply LivX_weaken; [eapply LivX_head with (Y := fun _ _ => True); [exact H|exact G|exact HS|exact Hm|exact HD|]|].
  - intros. exact I.
  - intros l _ b rest _. exact I.
Qed.
Lemma Liv_hdr : Liv g_hdr (let* b := one in give (dec_header b, part 0 6 b)) Any.
Proof. one_byte Dec_hdr; [|st]. apply (NI_bind _ 2); [lia|ni|intros ?; ni]. Qed.
Lemma Liv_bbo : Liv g_bbo (let* b := one in give (flag 7 b, flag 6 b, part 0 6 b)) Any.
Proof. one_byte Dec_bbo. st. Qed.
Lemma Liv_pbo : Liv g_pbo (let* b := one in give (flag 6 b, part 0 6 b)) Any.
Proof. one_byte Dec_pbo. st. Qed.
Lemma Liv_bpo : Liv g_bpo (let* b := one in give (flag 7 b, part 0 6 b)) Any.
Proof. one_byte Dec_bpo. st. Qed.

Lemma Liv_nop c : Liv (v <- read_nop ;; ret (c v)) (dec_nop c) Any.
Proof.
  eapply (Liv_head g_hdr _ (fun x => ret (c (mkNop (fst x) (snd x)))) (fun x => give (c (mkNop (fst x) (snd x)))));
    [exact Liv_hdr|intros x; lv|intros x; st| |reflexivity].
  unfold read_nop, g_hdr. rsame.
Qed.
Lemma Liv_file_id_op c : Liv (v <- read_file_id_op ;; ret (c v)) (dec_file_id_op c) Any.
Proof.
  eapply (Liv_head g_hdr _ (fun x => f <- read_u8 ;; ret (c (mkFileIdOp (fst x) (snd x) f)))
     (fun x => let* f := one in give (c (mkFileIdOp (fst x) (snd x) f))));
    [exact Liv_hdr|intros x; lv|intros x; st| |reflexivity].
  unfold read_file_id_op, g_hdr. rsame.
Qed.
Lemma Liv_file_properties c : Liv (v <- read_file_properties ;; ret (c v)) (dec_file_properties c) Any.
Proof.
  eapply (Liv_head g_hdr _ (fun x => f <- read_u8 ;; p <- read_file_header ;; ret (c (mkFileProperties (fst x) (snd x) f p)))
     (fun x => let* f := one in let* p := dec_file_header in give (c (mkFileProperties (fst x) (snd x) f p))));
    [exact Liv_hdr|intros x; lv|intros x; st| |reflexivity].
  unfold read_file_properties, g_hdr. rsame.
Qed.
Lemma Liv_action_query c : Liv (v <- read_action_query ;; ret (c v)) (dec_action_query c) Any.
Proof.
  eapply (Liv_head g_hdr _ (fun x => q <- read_query ;; ret (c (mkActionQuery (fst x) (snd x) q)))
     (fun x => let* q := dec_query in give (c (mkActionQuery (fst x) (snd x) q))));
    [exact Liv_hdr|intros x; lv|intros x; st| |reflexivity].
  unfold read_action_query, g_hdr. rsame.
Qed.
Lemma Liv_read_file_data : Liv (v <- read_read_file_data ;; ret (AReadFileData v))
  (let* b := one in let* o := dec_file_offset in let* n := dec_length in
   give (AReadFileData (mkReadFileData (dec_header b) (part 0 6 b) o n))) Any.
Proof.
  eapply (Liv_head g_hdr _ (fun x => o <- read_file_offset ;; n <- read_length ;; ret (AReadFileData (mkReadFileData (fst x) (snd x) o n)))
     (fun x => let* o := dec_file_offset in let* n := dec_length in give (AReadFileData (mkReadFileData (fst x) (snd x) o n))));
    [exact Liv_hdr|intros x; lv|intros x; st| |reflexivity].
  unfold read_read_file_data, g_hdr. rsame.
Qed.
Lemma Liv_copy_file : Liv (v <- read_copy_file ;; ret (ACopyFile v))
  (let* b := one in let* s := one in let* d := one in
   give (ACopyFile (mkCopyFile (dec_header b) (part 0 6 b) s d))) Any.
Proof.
  eapply (Liv_head g_hdr _ (fun x => o <- read_u8 ;; n <- read_u8 ;; ret (ACopyFile (mkCopyFile (fst x) (snd x) o n)))
     (fun x => let* o := one in let* n := one in give (ACopyFile (mkCopyFile (fst x) (snd x) o n))));
    [exact Liv_hdr|intros x; lv|intros x; st| |reflexivity].
  unfold read_copy_file, g_hdr. rsame.
Qed.
Lemma Liv_level : Liv read_permission_level (let* c := one in named code_level [LevelUser; LevelRoot] c) Any.
Proof. one_byte Dec_level. witness [0]. Qed.
Lemma Liv_permission_request : Liv (v <- read_permission_request ;; ret (APermissionRequest v))
  (let* b := one in let* c := one in
          let* l := named code_level [LevelUser; LevelRoot] c in
          let* i := one in
          if i =? 0x42 then
            let* k := some_bytes 8 in
            give (APermissionRequest (mkPermissionRequest (dec_header b) (part 0 6 b) l (PermDash7 k)))
          else reject) Any.
Proof.
  assert (S1 : forall x l, St (let* i := one in if i =? 0x42 then
            let* k := some_bytes 8 in
            give (APermissionRequest (mkPermissionRequest (fst x) (snd x) l (PermDash7 k)))
          else reject) Any).
  { intros x l. witness [0x42; 0; 0; 0; 0; 0; 0; 0; 0]. }
  eapply (Liv_head g_hdr _ (fun x => l <- read_permission_level ;; i <- read_u8 ;;
     if i =? 0x42 then k <- read_list 8 read_u8 ;; ret (APermissionRequest (mkPermissionRequest (fst x) (snd x) l (PermDash7 k)))
     else fail EParse)
     (fun x => let* l := (let* c := one in named code_level [LevelUser; LevelRoot] c) in let* i := one in
          if i =? 0x42 then
            let* k := some_bytes 8 in
            give (APermissionRequest (mkPermissionRequest (fst x) (snd x) l (PermDash7 k)))
          else reject)); [exact Liv_hdr| | | |].
  - intros x. apply Liv_bind with (P := Any); [exact Liv_level|intros l|intros l _; apply S1].
    apply Liv_bind with (P := fun i => i = 0x42); [apply Liv_u8 with (b := 0x42); reflexivity|intros i|intros i ->; cbn [N.eqb Pos.eqb]; st].
    apply Liv_if; lv.
  - intros x. apply St_bind with (P := Any); [loc|witness [0]|intros l _; apply S1].
  - unfold read_permission_request, g_hdr, read_permission. intros r Hr. rewrite !bind_bind. apply bind_ext. intros h r1.
    rewrite !bind_bind. apply bind_ext. intros o r2. rewrite !bind_bind.
    change (bind (ret (h, o)) ?f r2) with (f (h, o) r2). cbn beta. cbn [fst snd]. apply bind_ext. intros l r3.
    rewrite !bind_bind. apply bind_ext. intros i r4.
    destruct (i =? 0x42); [rewrite !bind_bind; reflexivity|reflexivity].
  - intros l. apply andthen_ext. intros b l1. cbn [fst snd]. rewrite andthen_andthen. reflexivity.
Qed.
Lemma Liv_response_tag : Liv (v <- read_response_tag ;; ret (AResponseTag v))
  (let* b := one in let* i := one in give (AResponseTag (mkResponseTag (flag 7 b) (flag 6 b) (part 0 6 b) i))) Any.
Proof.
  eapply (Liv_head g_bbo _ (fun x => i <- read_u8 ;; ret (AResponseTag (mkResponseTag (fst (fst x)) (snd (fst x)) (snd x) i)))
     (fun x => let* i := one in give (AResponseTag (mkResponseTag (fst (fst x)) (snd (fst x)) (snd x) i))));
    [exact Liv_bbo|intros x; lv|intros x; st| |reflexivity].
  unfold read_response_tag, g_bbo. rsame.
Qed.
Lemma Liv_request_tag : Liv (v <- read_request_tag ;; ret (ARequestTag v))
  (let* b := one in let* i := one in give (ARequestTag (mkRequestTag (flag 7 b) (part 0 6 b) i))) Any.
Proof.
  eapply (Liv_head g_bpo _ (fun x => i <- read_u8 ;; ret (ARequestTag (mkRequestTag (fst x) (snd x) i)))
     (fun x => let* i := one in give (ARequestTag (mkRequestTag (fst x) (snd x) i))));
    [exact Liv_bpo|intros x; lv|intros x; st| |reflexivity].
  unfold read_request_tag, g_bpo. rsame.
Qed.
Lemma Liv_forward {E : Env} : Liv (v <- read_forward ;; ret (AForward v))
  (let* b := one in let* c := dec_interface_config in give (AForward (mkForward (flag 6 b) (part 0 6 b) c))) Any.
Proof.
  eapply (Liv_head g_pbo _ (fun x => c <- read_interface_config ;; ret (AForward (mkForward (fst x) (snd x) c)))
     (fun x => let* c := dec_interface_config in give (AForward (mkForward (fst x) (snd x) c))));
    [exact Liv_pbo|intros x; lv|intros x; st| |reflexivity].
  unfold read_forward, g_pbo. rsame.
Qed.
Lemma Liv_indirect {E : Env} : Liv (v <- read_indirect_forward ;; ret (AIndirectForward v))
  (let* b := one in
          if flag 7 b then
            let* c := dec_indirect_interface in
            give (AIndirectForward (mkIndirectForward true (flag 6 b) (part 0 6 b) (Some c)))
          else give (AIndirectForward (mkIndirectForward false (flag 6 b) (part 0 6 b) None))) Any.
Proof.
  eapply (Liv_head g_bbo _ (fun x => if fst (fst x) then c <- read_indirect_interface ;;
       ret (AIndirectForward (mkIndirectForward true (snd (fst x)) (snd x) (Some c)))
     else ret (AIndirectForward (mkIndirectForward false (snd (fst x)) (snd x) None)))
     (fun x => if fst (fst x) then let* c := dec_indirect_interface in
            give (AIndirectForward (mkIndirectForward true (snd (fst x)) (snd x) (Some c)))
          else give (AIndirectForward (mkIndirectForward false (snd (fst x)) (snd x) None)))).
  - exact Liv_bbo.
  - intros x. destruct (fst (fst x)); lv.
  - intros x. destruct (fst (fst x)); st.
  - intros r Hr. unfold read_indirect_forward, g_bbo. rewrite !bind_bind. apply bind_ext. intros v r1.
    rewrite !bind_bind. apply bind_ext. intros y r2. rewrite !bind_bind. apply bind_ext. intros o r3.
    change (bind (ret (v, y, o)) ?f r3) with (f (v, y, o) r3). cbn beta. cbn [fst snd].
    destruct v; cbn [read_cond]; [rewrite !bind_bind; reflexivity|reflexivity].
  - reflexivity.
Qed.
Lemma Liv_chunk : Liv (v <- read_chunk ;; ret (AChunk v))
  (let* b := one in
   let* s := named code_chunk [ChunkContinue; ChunkStart; ChunkEnd; ChunkStartEnd] (part 6 2 b) in
   give (AChunk (mkChunk s (part 0 6 b)))) Any.
Proof. eapply Liv_flat; [one_byte Dec_chunk; witness [0]|dsame]. Qed.
Lemma Liv_logic : Liv (v <- read_logic ;; ret (ALogic v))
  (let* b := one in
   let* s := named code_logic [LogicOr; LogicXor; LogicNor; LogicNand] (part 6 2 b) in
   give (ALogic (mkLogic s (part 0 6 b)))) Any.
Proof. eapply Liv_flat; [one_byte Dec_logic; witness [0]|dsame]. Qed.

(** ** status *)
Lemma Liv_action_status : Liv read_action_status (let* a := one in let* s := one in give (mkActionStatus a s)) Any.
Proof. unfold read_action_status. lv. Qed.
Lemma Liv_itf_final : Liv read_itf_final_op dec_itf_final Any.
Proof.
  eapply Liv_ext with (m := i <- read_u8 ;; l <- read_length ;;
    if i =? 0xD7 then c <- read_final_status_code ;; ret (mkItfFinalOp i (FinDash7 c))
    else l <- read_vec_u8 l ;; ret (mkItfFinalOp i (FinOther l))) (D := dec_itf_final).
  - unfold dec_itf_final. apply Liv_bind with (P := Any); [lv|intros i|intros i _].
    + apply Liv_bind with (P := Any); [lv|intros l; apply Liv_if; lv|intros n _; destruct (i =? 0xD7); st].
    + apply St_bind with (P := Any); [loc|st|intros n _; destruct (i =? 0xD7); st].
  - intros r Hr. unfold read_itf_final_op, read_interface_final_status. apply bind_ext. intros i r1. apply bind_ext.
    intros l r2. destruct (i =? 0xD7); rewrite bind_bind; reflexivity.
  - reflexivity.
Qed.
Definition status_ok (t : status_type) (l : list N) : Prop := t = StInterface -> itf_ok l.
Lemma LivX_read_status {E : Env} t : LivX (read_status t) (dec_status (code_status_type t)) Any (status_ok t).
Proof.
  destruct t; cbn [read_status code_status_type]; unfold dec_status; cbn [N.eqb Pos.eqb].
  - eapply LivX_weaken; [eapply Liv_flat; [exact Liv_action_status|dsame]|]. intros. exact I.
  - eapply LivX_bindX with (P := Any) (X0 := itf_ok) (X := fun _ _ => True);
      [exact LivX_itf_status|intros v; apply Liv_ret|intros; st|intros l H; apply H; reflexivity|auto].
  - eapply LivX_weaken with (X := Any); [|intros; exact I]. unfold is_wizzilab. destruct e_feat; [apply Liv_fail; discriminate|apply Liv_fail; discriminate|].
    eapply Liv_flat; [exact Liv_itf_final|reflexivity].
Qed.
Lemma Liv_g_status : Liv g_status
  (let* b := one in
   let* t := named code_status_type [StAction; StInterface; StInterfaceFinal] (part 6 2 b) in
   give (t, part 0 6 b)) (fun x => fst x = StAction).
Proof. one_byte Dec_g_status. witness [0]. Qed.
Lemma LivX_status {E : Env} : LivX (v <- read_status_operand ;; ret (AStatus v))
  (let* b := one in
          let* t := named code_status_type [StAction; StInterface; StInterfaceFinal] (part 6 2 b) in
          let* s := dec_status (part 6 2 b) in
          give (AStatus (mkStatusOperand t (part 0 6 b) s))) Any
  (fun l => forall b i rest, l = b :: i :: rest -> part 6 2 b = 1 -> i <> 2 /\ i <> 3).
Proof.
  eapply LivX_ext with (m := x <- g_status ;; s <- read_status (fst x) ;; ret (AStatus (mkStatusOperand (fst x) (snd x) s)))
    (D := let* x := (let* b := one in
   let* t := named code_status_type [StAction; StInterface; StInterfaceFinal] (part 6 2 b) in
   give (t, part 0 6 b)) in let* s := dec_status (code_status_type (fst x)) in give (AStatus (mkStatusOperand (fst x) (snd x) s)))
    (X := fun l => forall b i rest, l = b :: i :: rest -> part 6 2 b = 1 -> i <> 2 /\ i <> 3).
  - eapply LivX_bind with (P := fun x => fst x = StAction) (X := fun x => status_ok (fst x)); [exact Liv_g_status| | |].
    + intros x. eapply LivX_bindX with (P := Any) (X0 := status_ok (fst x)) (X := fun _ _ => True);
        [apply LivX_read_status|intros s; apply Liv_ret|intros; st|auto|auto].
    + intros [t o] Ht. cbn [fst snd] in *. subst t. cbn [code_status_type]. unfold dec_status. cbn [N.eqb]. st.
    + intros l v rest H HY Ht i q ->. destruct l as [|b l]; [discriminate|]. unfold andthen in H. cbn [one] in H.
      unfold named in H. destruct (find _ _) as [t|] eqn:F; [|discriminate]. apply find_some in F as [_ F]. apply N.eqb_eq in F.
      unfold give in H. assert (v = (t, part 0 6 b) /\ l = i :: q) as [-> ->] by (split; congruence). cbn [fst] in Ht. subst t.
      eapply HY; [reflexivity|]. rewrite <- F. reflexivity.
  - intros r Hr. unfold read_status_operand, g_status. rewrite !bind_bind. apply bind_ext. intros t r1. rewrite !bind_bind.
    apply bind_ext. intros o r2. rewrite !bind_bind. reflexivity.
  - intros l. rewrite andthen_andthen. apply andthen_ext. intros b l1. rewrite andthen_andthen. unfold named.
    destruct (find _ _) as [t|] eqn:F; [|reflexivity]. apply find_some in F as [_ F]. apply N.eqb_eq in F.
    unfold andthen at 1. unfold give at 1. rewrite <- F. reflexivity.
  - auto.
Qed.

(** ** file data *)
Definition payload_ok (l : list N) : Prop := forall o l2 n x y q,
  dec_file_offset l = Some (o, l2) -> fo_file_id o = 2 -> dec_length l2 = Some (n, x :: y :: q) -> version_ok q.
Lemma FinX_payload {E : Env} (x : action_header * N) (c : file_data -> action) :
  LivX (f <- read_file_offset ;; d <- read_file_payload f ;; ret (c (mkFileData (fst x) (snd x) f d)))
      (let* o := dec_file_offset in let* n := dec_length in
       let* f := dec_file (fo_file_id o) n in give (c (mkFileData (fst x) (snd x) o f))) Any payload_ok.
Proof.
  (** Only ids of files below 256 occur; elsewhere the reader is replaced by one that agrees. *)
  pose (body := fun o => l <- read_length ;; d <- read_file (file_id_of (fo_file_id o)) l ;; ret (c (mkFileData (fst x) (snd x) o d))).
  eapply LivX_ext with (m := o <- read_file_offset ;; body o) (X := payload_ok); [| |reflexivity|auto].
  - eapply LivX_bind with (P := Any) (X := fun o l => forall n a b q, fo_file_id o = 2 -> dec_length l = Some (n, a :: b :: q) -> version_ok q); [lv| |intros; st|].
    + intros o. unfold body.
      eapply LivX_bind with (P := Any) (X := fun n l => file_ok (fo_file_id o) l); [lv| |intros; st|].
      * intros n. eapply LivX_bindX with (P := Any) (X0 := file_ok (fo_file_id o)) (X := fun _ _ => True);
          [apply LivX_file|intros d; apply Liv_ret|intros; st|auto|auto].
      * intros l n rest H HY Ho a b q ->. eapply HY; [exact Ho|exact H].
    + intros l o rest H HY n a b q Ho Hn. eapply HY; eassumption.
  - intros r Hr. pose proof (Dec_file_offset r Hr) as HD. unfold DecAt in HD.
    destruct (dec_file_offset (octets (view r))) as [[o rest]|] eqn:Eo.
    2: { destruct HD as [e HD]. unfold bind. rewrite HD. reflexivity. }
    destruct HD as (k & Hk & _ & HD). unfold bind at 1. rewrite HD. symmetry. unfold bind at 1. rewrite HD. symmetry.
    assert (B : fo_file_id o < 256).
    { unfold dec_file_offset, andthen, give in Eo. destruct (octets (view r)) as [|b tl] eqn:Ev; [discriminate|]. cbn [one] in Eo.
      destruct (dec_length tl) as [[n l]|]; [|discriminate]. injection Eo as <- _. cbn. eapply octets_head. exact Ev. }
    unfold body, read_file_payload. rewrite bind_bind. apply bind_ext. intros n r2. unfold bind.
    rewrite file_id_try_from_ok by exact B. reflexivity.
Qed.
Lemma LivX_file_data {E : Env} c : LivX (v <- read_file_data ;; ret (c v)) (dec_file_data c) Any
  (fun l => forall b rest, l = b :: rest -> payload_ok rest).
Proof.
  eapply (LivX_head g_hdr _ (fun x => f <- read_file_offset ;; d <- read_file_payload f ;; ret (c (mkFileData (fst x) (snd x) f d))) _ _ _ (fun _ => payload_ok) (fun _ => payload_ok));
    [exact Liv_hdr|intros x; apply FinX_payload|intros x; st| |reflexivity|auto].
  unfold read_file_data, g_hdr. rsame.
Qed.

(** ** Operands *)
Definition op_ok (op : N) (l : list N) : Prop :=
  (op = 34 -> forall b i rest, l = b :: i :: rest -> part 6 2 b = 1 -> i <> 2 /\ i <> 3) /\
  (In op [4; 5; 32] -> forall b rest, l = b :: rest -> payload_ok rest).
Lemma LivX_operand {E : Env} op : op < 64 -> (e_feat = Wizzilab -> op <> 38) ->
  LivX (reader_of op) (dec_operand op) Any (op_ok op).
Proof.
  intros Ho H38. unfold reader_of, action_readers, is_wizzilab.
  assert (L0 : forall m D X, Liv m D (@Any action) -> LivX m D Any X).
  { intros m D X H. eapply LivX_weaken; [exact H|]. intros l _. exact I. }
  destruct op as [|p];
    [|do 6 (try (destruct p as [p|p|]; [| |]));
      try (exfalso; revert Ho; clear; lia)];
    unfold dec_operand; destruct e_feat eqn:EF; cbn [app assoc N.eqb Pos.eqb];
    first
      [ exfalso; apply H38; reflexivity
      | apply L0, Liv_fail; discriminate
      | apply L0; 
        first [ apply Liv_nop | apply Liv_file_id_op | apply Liv_file_properties | apply Liv_action_query
                | apply Liv_read_file_data | apply Liv_copy_file | apply Liv_permission_request
                | apply Liv_response_tag | apply Liv_request_tag | apply Liv_forward | apply Liv_indirect
                | apply Liv_chunk | apply Liv_logic ]
      | eapply LivX_weaken; [apply LivX_status|intros l [H _]; apply H; reflexivity]
      | eapply LivX_weaken; [apply LivX_file_data|intros l [_ H]; apply H; cbn [In]; tauto] ].
Qed.
