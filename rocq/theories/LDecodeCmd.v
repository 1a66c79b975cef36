(** Actions and commands against the decoder of SpecDecode.v. *)
From Coq Require Import List NArith ZArith Bool Lia ZifyBool ZifyNat ZifyN Arith.
From Verif Require Import Base Deku Utils Types Physical Link Network Session Data Query
  Interface File Operation Action Command SpecLayout SpecDecode LBits LReader LLayout LNiceOps
  LDecode LDecodeTypes LDecodeOps LDecodeAct.
Import ListNotations.
Open Scope N_scope.

Ltac aligned := apply Dec_A.

(** ** Operands take at least one byte *)
Definition Takes {A} (D : dec A) : Prop :=
  forall l v rest, bytes l -> D l = Some (v, rest) -> (length rest < length l)%nat.
Definition DecS {A} (m : reader A) (D : dec A) : Prop := DecA m D /\ Takes D.
Lemma DecA_shrink {A} (m : reader A) D l v rest : DecA m D -> bytes l -> D l = Some (v, rest) ->
  (length rest <= length l)%nat.
Proof.
  intros H Hl HD. specialize (H (new_reader l) (RWf_new l) eq_refl). unfold DecAt in H.
  rewrite view_new, octets_bits, HD in H by exact Hl. destruct H as (k & _ & -> & _). rewrite skipn_length. lia.
Qed.
Lemma Takes_head {A} (K : N -> dec A) : (forall b, exists m, DecA m (K b)) -> Takes (let* b := one in K b).
Proof.
  intros H l v rest Hl. destruct l as [|b tl]; [discriminate|]. apply Forall_cons_iff in Hl as [_ Hl].
  unfold andthen. cbn [one length]. intros HD. destruct (H b) as [m Hm].
  pose proof (DecA_shrink m (K b) tl v rest Hm Hl HD). lia.
Qed.
Lemma Takes_ext {A} (D D' : dec A) : Takes D -> (forall l, D' l = D l) -> Takes D'.
Proof. intros H G l v rest Hl HD. rewrite G in HD. exact (H l v rest Hl HD). Qed.
Lemma DecS_head {A X} (g : reader X) (F : N -> X) (k : X -> reader A) (K : X -> dec A) (m : reader A) (D : dec A) :
  Dec g (let* b := one in give (F b)) -> (forall x, DecA (k x) (K x)) ->
  (forall r, RWf r -> m r = bind g k r) -> (forall l, D l = (let* b := one in K (F b)) l) -> DecS m D.
Proof.
  intros H G Hm HD. split; [eapply DecA_head; eassumption|]. eapply Takes_ext; [|exact HD].
  apply Takes_head. intros b. exists (k (F b)). apply G.
Qed.
Lemma DecA_named {A B} (code : A -> N) all c (f : A -> B) :
  exists m, DecA m (let* s := named code all c in give (f s)).
Proof.
  unfold named. destruct (find _ all) as [s|]; eexists; aligned.
  - eapply Dec_ext; [apply (Dec_ret (f s))|reflexivity|reflexivity].
  - eapply Dec_ext; [apply (Dec_fail EParse)|reflexivity|reflexivity].
Qed.

Lemma DecS_nop c : DecS (v <- read_nop ;; ret (c v)) (dec_nop c).
Proof.
  eapply (DecS_head g_hdr _ (fun x => ret (c (mkNop (fst x) (snd x)))));
    [exact Dec_hdr|intros x; aligned; apply Dec_ret| |reflexivity].
  unfold read_nop, g_hdr. rsame.
Qed.
Lemma DecS_file_id_op c : DecS (v <- read_file_id_op ;; ret (c v)) (dec_file_id_op c).
Proof.
  eapply (DecS_head g_hdr _ (fun x => f <- read_u8 ;; ret (c (mkFileIdOp (fst x) (snd x) f))));
    [exact Dec_hdr|intros x; aligned; dsteps1| |reflexivity].
  unfold read_file_id_op, g_hdr. rsame.
Qed.
Lemma DecS_file_properties c : DecS (v <- read_file_properties ;; ret (c v)) (dec_file_properties c).
Proof.
  eapply (DecS_head g_hdr _ (fun x => f <- read_u8 ;; p <- read_file_header ;; ret (c (mkFileProperties (fst x) (snd x) f p))));
    [exact Dec_hdr|intros x; aligned; dsteps1| |reflexivity].
  unfold read_file_properties, g_hdr. rsame.
Qed.
Lemma DecS_action_query c : DecS (v <- read_action_query ;; ret (c v)) (dec_action_query c).
Proof.
  eapply (DecS_head g_hdr _ (fun x => q <- read_query ;; ret (c (mkActionQuery (fst x) (snd x) q))));
    [exact Dec_hdr|intros x; aligned; apply Dec_bind; [exact Dec_query|intros q; apply Dec_ret]| |reflexivity].
  unfold read_action_query, g_hdr. rsame.
Qed.
Lemma DecS_read_file_data : DecS (v <- read_read_file_data ;; ret (AReadFileData v))
  (let* b := one in let* o := dec_file_offset in let* n := dec_length in
   give (AReadFileData (mkReadFileData (dec_header b) (part 0 6 b) o n))).
Proof.
  eapply (DecS_head g_hdr _ (fun x => o <- read_file_offset ;; n <- read_length ;; ret (AReadFileData (mkReadFileData (fst x) (snd x) o n))));
    [exact Dec_hdr|intros x; aligned; dsteps1| |reflexivity].
  unfold read_read_file_data, g_hdr. rsame.
Qed.
Lemma DecS_copy_file : DecS (v <- read_copy_file ;; ret (ACopyFile v))
  (let* b := one in let* s := one in let* d := one in
   give (ACopyFile (mkCopyFile (dec_header b) (part 0 6 b) s d))).
Proof.
  eapply (DecS_head g_hdr _ (fun x => o <- read_u8 ;; n <- read_u8 ;; ret (ACopyFile (mkCopyFile (fst x) (snd x) o n))));
    [exact Dec_hdr|intros x; aligned; dsteps1| |reflexivity].
  unfold read_copy_file, g_hdr. rsame.
Qed.
Lemma DecS_permission_request : DecS (v <- read_permission_request ;; ret (APermissionRequest v))
  (let* b := one in let* c := one in
          let* l := named code_level [LevelUser; LevelRoot] c in
          let* i := one in
          if i =? 0x42 then
            let* k := some_bytes 8 in
            give (APermissionRequest (mkPermissionRequest (dec_header b) (part 0 6 b) l (PermDash7 k)))
          else reject).
Proof.
  eapply (DecS_head g_hdr _ (fun x => l <- read_permission_level ;; i <- read_u8 ;;
     if i =? 0x42 then k <- read_list 8 read_u8 ;; ret (APermissionRequest (mkPermissionRequest (fst x) (snd x) l (PermDash7 k)))
     else fail EParse)); [exact Dec_hdr| | |].
  - intros x. aligned. apply Dec_bind; [exact Dec_level|intros l]. apply Dec_bind; [exact Dec_u8|intros i].
    apply Dec_if; dsteps1.
  - unfold read_permission_request, g_hdr, read_permission. intros r Hr. rewrite !bind_bind. apply bind_ext. intros h r1.
    rewrite !bind_bind. apply bind_ext. intros o r2. rewrite !bind_bind.
    change (bind (ret (h, o)) ?f r2) with (f (h, o) r2). cbn beta. cbn [fst snd]. apply bind_ext. intros l r3.
    rewrite !bind_bind. apply bind_ext. intros i r4.
    destruct (i =? 0x42); [rewrite !bind_bind; reflexivity|reflexivity].
  - intros l. apply andthen_ext. intros b l1. cbn [fst snd]. rewrite andthen_andthen. reflexivity.
Qed.
Lemma DecS_response_tag : DecS (v <- read_response_tag ;; ret (AResponseTag v))
  (let* b := one in let* i := one in give (AResponseTag (mkResponseTag (flag 7 b) (flag 6 b) (part 0 6 b) i))).
Proof.
  eapply (DecS_head g_bbo _ (fun x => i <- read_u8 ;; ret (AResponseTag (mkResponseTag (fst (fst x)) (snd (fst x)) (snd x) i))));
    [exact Dec_bbo|intros x; aligned; dsteps1| |reflexivity].
  unfold read_response_tag, g_bbo. rsame.
Qed.
Lemma DecS_request_tag : DecS (v <- read_request_tag ;; ret (ARequestTag v))
  (let* b := one in let* i := one in give (ARequestTag (mkRequestTag (flag 7 b) (part 0 6 b) i))).
Proof.
  eapply (DecS_head g_bpo _ (fun x => i <- read_u8 ;; ret (ARequestTag (mkRequestTag (fst x) (snd x) i))));
    [exact Dec_bpo|intros x; aligned; dsteps1| |reflexivity].
  unfold read_request_tag, g_bpo. rsame.
Qed.
Lemma DecS_forward {E : Env} : DecS (v <- read_forward ;; ret (AForward v))
  (let* b := one in let* c := dec_interface_config in give (AForward (mkForward (flag 6 b) (part 0 6 b) c))).
Proof.
  eapply (DecS_head g_pbo _ (fun x => c <- read_interface_config ;; ret (AForward (mkForward (fst x) (snd x) c))));
    [exact Dec_pbo|intros x; apply DecA_bind'; [exact DecA_interface_config|intros c; apply Dec_ret]| |reflexivity].
  unfold read_forward, g_pbo. rsame.
Qed.
Lemma DecS_indirect {E : Env} : DecS (v <- read_indirect_forward ;; ret (AIndirectForward v))
  (let* b := one in
          if flag 7 b then
            let* c := dec_indirect_interface in
            give (AIndirectForward (mkIndirectForward true (flag 6 b) (part 0 6 b) (Some c)))
          else give (AIndirectForward (mkIndirectForward false (flag 6 b) (part 0 6 b) None))).
Proof.
  eapply (DecS_head g_bbo _ (fun x => if fst (fst x) then c <- read_indirect_interface ;;
       ret (AIndirectForward (mkIndirectForward true (snd (fst x)) (snd x) (Some c)))
     else ret (AIndirectForward (mkIndirectForward false (snd (fst x)) (snd x) None)))).
  - exact Dec_bbo.
  - intros x. instantiate (1 := fun x => if fst (fst x) then _ else _). cbn beta. destruct (fst (fst x)).
    + apply DecA_bind'; [exact DecA_indirect_interface|intros c; apply Dec_ret].
    + aligned. apply Dec_ret.
  - intros r Hr. unfold read_indirect_forward, g_bbo. rewrite !bind_bind. apply bind_ext. intros v r1.
    rewrite !bind_bind. apply bind_ext. intros y r2. rewrite !bind_bind. apply bind_ext. intros o r3.
    change (bind (ret (v, y, o)) ?f r3) with (f (v, y, o) r3). cbn beta. cbn [fst snd].
    destruct v; cbn [read_cond]; [rewrite !bind_bind; reflexivity|reflexivity].
  - reflexivity.
Qed.
Lemma DecS_chunk : DecS (v <- read_chunk ;; ret (AChunk v))
  (let* b := one in
   let* s := named code_chunk [ChunkContinue; ChunkStart; ChunkEnd; ChunkStartEnd] (part 6 2 b) in
   give (AChunk (mkChunk s (part 0 6 b)))).
Proof.
  split; [|apply Takes_head; intros b; apply DecA_named].
  aligned. eapply Dec_ext with (m := v <- read_chunk ;; ret (AChunk v));
    [apply Dec_bind; [exact Dec_chunk|intros v; apply Dec_ret]|reflexivity|dsame].
Qed.
Lemma DecS_logic : DecS (v <- read_logic ;; ret (ALogic v))
  (let* b := one in
   let* s := named code_logic [LogicOr; LogicXor; LogicNor; LogicNand] (part 6 2 b) in
   give (ALogic (mkLogic s (part 0 6 b)))).
Proof.
  split; [|apply Takes_head; intros b; apply DecA_named].
  aligned. eapply Dec_ext with (m := v <- read_logic ;; ret (ALogic v));
    [apply Dec_bind; [exact Dec_logic|intros v; apply Dec_ret]|reflexivity|dsame].
Qed.
Lemma DecA_read_status {E : Env} t : DecA (read_status t) (dec_status (code_status_type t)).
Proof.
  destruct t; cbn [read_status code_status_type]; unfold dec_status; cbn [N.eqb Pos.eqb].
  - aligned. eapply Dec_ext with (m := v <- read_action_status ;; ret (StatusAction v));
      [apply Dec_bind; [exact Dec_action_status|intros v; apply Dec_ret]|reflexivity|dsame].
  - apply DecA_bind'; [exact DecA_itf_status|intros v; apply Dec_ret].
  - aligned. unfold is_wizzilab. destruct e_feat; [apply Dec_fail|apply Dec_fail|].
    apply Dec_bind; [exact Dec_itf_final|intros v; apply Dec_ret].
Qed.
Lemma DecS_status {E : Env} : DecS (v <- read_status_operand ;; ret (AStatus v))
  (let* b := one in
          let* t := named code_status_type [StAction; StInterface; StInterfaceFinal] (part 6 2 b) in
          let* s := dec_status (part 6 2 b) in
          give (AStatus (mkStatusOperand t (part 0 6 b) s))).
Proof.
  split.
  2: { apply Takes_head. intros b. unfold named. destruct (find _ _) as [t|] eqn:F.
       - apply find_some in F as [_ F]. apply N.eqb_eq in F. rewrite <- F.
         exists (s <- read_status t ;; ret (AStatus (mkStatusOperand t (part 0 6 b) s))).
         eapply DecA_ext; [apply (DecA_bind' (read_status t)); [apply (DecA_read_status t)|intros s; apply Dec_ret]|reflexivity|reflexivity].
       - eexists. aligned. eapply Dec_ext; [apply (Dec_fail EParse)|reflexivity|reflexivity]. }
  eapply DecA_ext with (m := x <- g_status ;; s <- read_status (fst x) ;; ret (AStatus (mkStatusOperand (fst x) (snd x) s))).
  - apply DecA_bind; [exact Dec_g_status|intros x]. apply DecA_bind'; [apply DecA_read_status|intros s; apply Dec_ret].
  - intros r Hr. unfold read_status_operand, g_status. rewrite !bind_bind. apply bind_ext. intros t r1. rewrite !bind_bind.
    apply bind_ext. intros o r2. rewrite !bind_bind. reflexivity.
  - intros l. rewrite andthen_andthen. apply andthen_ext. intros b l1. rewrite andthen_andthen. unfold named.
    destruct (find _ _) as [t|] eqn:F; [|reflexivity]. apply find_some in F as [_ F]. apply N.eqb_eq in F.
    unfold andthen at 1. unfold give at 1. rewrite <- F. reflexivity.
Qed.
Lemma octets_head l b tl : octets l = b :: tl -> b < 256.
Proof. intros H. pose proof (octets_bytes l) as B. rewrite H in B. apply Forall_cons_iff in B. apply B. Qed.
Lemma Dec_file_data_body {E : Env} (x : action_header * N) (c : file_data -> action) :
  Dec (f <- read_file_offset ;; d <- read_file_payload f ;; ret (c (mkFileData (fst x) (snd x) f d)))
      (let* o := dec_file_offset in let* n := dec_length in
       let* f := dec_file (fo_file_id o) n in give (c (mkFileData (fst x) (snd x) o f))).
Proof.
  intros r Hr. apply DecAt_bind; [exact Hr|apply Dec_file_offset; exact Hr|]. intros o k rest Ho Hk _ _ Ha.
  assert (B : fo_file_id o < 256).
  { unfold dec_file_offset, andthen, give in Ho. destruct (octets (view r)) as [|b tl] eqn:Eo; [discriminate|]. cbn [one] in Ho.
    destruct (dec_length tl) as [[n l]|]; [|discriminate]. injection Ho as <- _. cbn. eapply octets_head. exact Eo. }
  refine ((_ : Dec _ _) _ Ha).
  eapply Dec_ext with (m := l <- read_length ;; d <- read_file (file_id_of (fo_file_id o)) l ;; ret (c (mkFileData (fst x) (snd x) o d))).
  - apply Dec_bind; [exact Dec_length|intros n]. apply Dec_bind; [apply Dec_file_at|intros d]. apply Dec_ret.
  - intros r1 H1. unfold read_file_payload. rewrite bind_bind. apply bind_ext. intros n r2. unfold bind.
    rewrite file_id_try_from_ok by exact B. reflexivity.
  - reflexivity.
Qed.
Lemma DecS_file_data {E : Env} c : DecS (v <- read_file_data ;; ret (c v)) (dec_file_data c).
Proof.
  eapply (DecS_head g_hdr _ (fun x => f <- read_file_offset ;; d <- read_file_payload f ;; ret (c (mkFileData (fst x) (snd x) f d))));
    [exact Dec_hdr|intros x; aligned; apply Dec_file_data_body| |reflexivity].
  unfold read_file_data, g_hdr. rsame.
Qed.
