(** Queries, interfaces, files and operands against the decoder of SpecDecode.v. *)
From Coq Require Import List NArith ZArith Bool Lia ZifyBool ZifyNat ZifyN Arith.
From Verif Require Import Base Deku Utils Types Physical Link Network Session Data Query
  Interface File Operation Action Command SpecLayout SpecDecode LBits LReader LLayout LNiceOps LDecode LDecodeTypes.
Import ListNotations.
Open Scope N_scope.

Ltac dstep1 := first
  [ apply Dec_ret | apply Dec_fail | exact Dec_u8 | exact Dec_u16 | exact Dec_u32 | exact Dec_u64 | exact Dec_i8
  | exact Dec_length | exact Dec_varint | exact Dec_file_offset | exact Dec_channel_header | exact Dec_channel
  | exact Dec_addressee | exact Dec_qos | exact Dec_final | exact Dec_dash7_status | exact Dec_dash7_tx
  | exact Dec_file_header | exact Dec_access_profile
  | apply Dec_vec | exact Dec_native_4 | exact Dec_native_16 | exact Dec_bytes_5 | exact Dec_bytes_8
  | apply Dec_bind; [|intros ?] ].
Ltac dsteps1 := repeat dstep1.

Lemma bind_bind {A B C} (m : reader A) (f : A -> reader B) (g : B -> reader C) r :
  bind (bind m f) g r = bind m (fun x => bind (f x) g) r.
Proof. unfold bind. destruct (m r) as [[v r1]|e|]; reflexivity. Qed.
Lemma bind_ext {A B} (m : reader A) (f g : A -> reader B) r :
  (forall v r1, f v r1 = g v r1) -> bind m f r = bind m g r.
Proof. intros H. unfold bind. destruct (m r) as [[v r1]|e|]; [apply H|reflexivity|reflexivity]. Qed.
Lemma andthen_andthen {A B C} (m : dec A) (f : A -> dec B) (g : B -> dec C) l :
  andthen (andthen m f) g l = andthen m (fun x => andthen (f x) g) l.
Proof. unfold andthen. destruct (m l) as [[v r1]|]; reflexivity. Qed.
Lemma andthen_ext {A B} (m : dec A) (f g : A -> dec B) l :
  (forall v r1, f v r1 = g v r1) -> andthen m f l = andthen m g l.
Proof. intros H. unfold andthen. destruct (m l) as [[v r1]|]; [apply H|reflexivity]. Qed.

(** ** query *)
Inductive qhead :=
| Q0 | Q1 (k : N) (m : bool) (p : arith_params) | Q4 (m : bool) (p : range_params) | Q7 (m : bool) (e : N).
Definition g_query : reader qhead :=
  x <- read_uint 3 ;;
  match assoc x [(0, skip_bits 5 ;;; ret Q0);
                 (1, m <- read_bool ;; p <- read_arith_params ;; ret (Q1 1 m p));
                 (2, m <- read_bool ;; p <- read_arith_params ;; ret (Q1 2 m p));
                 (3, m <- read_bool ;; p <- read_arith_params ;; ret (Q1 3 m p));
                 (4, m <- read_bool ;; p <- read_range_params ;; ret (Q4 m p));
                 (7, m <- read_bool ;; skip_bits 1 ;;; e <- read_uint 3 ;; ret (Q7 m e))] with
  | Some m => m | None => fail EParse end.
Definition d_query : dec qhead :=
  let* b := one in
  let kind := part 5 3 b in let mask := flag 4 b in
  if kind =? 0 then give Q0
  else if (kind =? 1) || (kind =? 2) || (kind =? 3) then
    let* c := named code_cmp all_cmp (part 0 3 b) in give (Q1 kind mask (mkArithParams (flag 3 b) c))
  else if kind =? 4 then
    let* c := named code_range [NotInRange; InRange] (part 0 3 b) in give (Q4 mask (mkRangeParams (flag 3 b) c))
  else if kind =? 7 then give (Q7 mask (part 0 3 b))
  else reject.
Lemma PB_assoc {A} x (t : list (N * reader A)) (f : N -> bp A) :
  (forall k m, In (k, m) t -> PB m (f k)) ->
  PB (match assoc x t with Some m => m | None => fail EParse end)
     (if existsb (fun km => x =? fst km) t then f x else p_none).
Proof.
  intros H. induction t as [|[k m] t IH]; cbn [assoc existsb fst]; [apply PB_fail|].
  destruct (N.eqb_spec x k) as [->|Hk]; cbn [orb].
  - apply H. left. reflexivity.
  - apply IH. intros k' m' Hi. apply H. right. exact Hi.
Qed.
Lemma Dec_g_query : Dec g_query d_query.
Proof.
  eapply Dec_group.
  - unfold g_query. eapply PB_bind; [apply PB_uint|]. intros x. cbn [assoc].
    instantiate (1 := fun x => if x =? 0 then _ else if x =? 1 then _ else if x =? 2 then _ else
                               if x =? 3 then _ else if x =? 4 then _ else if x =? 7 then _ else _).
    cbn beta. unfold read_arith_params, read_range_params.
    destruct (x =? 0); [pb|]. destruct (x =? 1); [pb|]. destruct (x =? 2); [pb|].
    destruct (x =? 3); [pb|]. destruct (x =? 4); [pb|]. destruct (x =? 7); [pb|]. apply PB_fail.
  - reflexivity.
  - tree.
Qed.
Definition k_query (h : qhead) : reader query :=
  match h with
  | Q0 => l <- read_length ;; f <- read_file_offset ;; ret (QNonVoid (mkNonVoid l f))
  | Q1 k m p =>
      if k =? 1 then
        l <- read_length ;; x <- read_cond_vec m l ;; f <- read_file_offset ;; ret (QCmpZero (mkCmpZero m p l x f))
      else if k =? 2 then
        l <- read_length ;; x <- read_cond_vec m l ;; v <- read_vec_u8 l ;; f <- read_file_offset ;;
        ret (QCmpValue (mkCmpValue m p l x v f))
      else
        l <- read_length ;; x <- read_cond_vec m l ;; f <- read_file_offset ;; g <- read_file_offset ;;
        ret (QCmpOther (mkCmpOther m p l x f g))
  | Q4 m p => l <- read_length ;; s <- read_length ;; t <- read_length ;; x <- read_vec_u8 l ;;
              f <- read_file_offset ;; ret (QBitmapRange (mkBitmapRange m p l s t x f))
  | Q7 m e => l <- read_length ;; x <- read_vec_u8 l ;; v <- read_vec_u8 l ;; f <- read_file_offset ;;
              ret (QStringSearch (mkStringSearch m e l x v f))
  end.
Definition kd_query (h : qhead) : dec query :=
  match h with
  | Q0 => let* l := dec_length in let* f := dec_file_offset in give (QNonVoid (mkNonVoid l f))
  | Q1 k m p =>
      if k =? 1 then
        let* l := dec_length in let* x := when m (some_bytes l) in let* f := dec_file_offset in
        give (QCmpZero (mkCmpZero m p l x f))
      else if k =? 2 then
        let* l := dec_length in let* x := when m (some_bytes l) in let* v := some_bytes l in
        let* f := dec_file_offset in give (QCmpValue (mkCmpValue m p l x v f))
      else
        let* l := dec_length in let* x := when m (some_bytes l) in
        let* f := dec_file_offset in let* g := dec_file_offset in give (QCmpOther (mkCmpOther m p l x f g))
  | Q4 m p => let* l := dec_length in let* s := dec_length in let* t := dec_length in let* x := some_bytes l in
              let* f := dec_file_offset in give (QBitmapRange (mkBitmapRange m p l s t x f))
  | Q7 m e => let* l := dec_length in let* x := some_bytes l in let* v := some_bytes l in
              let* f := dec_file_offset in give (QStringSearch (mkStringSearch m e l x v f))
  end.
Lemma Dec_cond_vec m l : Dec (read_cond_vec m l) (when m (some_bytes l)).
Proof. destruct m; cbn [read_cond_vec when]; dsteps1. Qed.
Lemma Dec_k_query h : Dec (k_query h) (kd_query h).
Proof.
  destruct h as [|k m p|m p|m e]; cbn [k_query kd_query].
  - dsteps1.
  - apply Dec_if; [|apply Dec_if]; repeat first [apply Dec_cond_vec|dstep1].
  - dsteps1.
  - dsteps1.
Qed.
Ltac rsame1 := intros ?r; unfold bind, ret, fail;
  repeat (match goal with
          | |- context [match ?e with Ok _ => _ | Err _ => _ | Panic => _ end] =>
              lazymatch e with
              | context [match _ with _ => _ end] => fail
              | _ => destruct e as [[? ?]|?|]
              end
          end; unfold k_query, bind, ret; cbn [N.eqb Pos.eqb]; try reflexivity); try reflexivity.
Lemma Dec_query : Dec read_query dec_query.
Proof.
  eapply Dec_ext with (m := h <- g_query ;; k_query h).
  - apply Dec_bind; [exact Dec_g_query|]. intros h. apply Dec_k_query.
  - intros r Hr. unfold read_query, g_query, query_readers. rewrite bind_bind. apply bind_ext. clear.
    intros x. cbn [assoc].
    destruct (N.eqb_spec x 0); [subst; unfold read_non_void; rsame1|].
    destruct (N.eqb_spec x 1); [subst; unfold read_cmp_zero; rsame1|].
    destruct (N.eqb_spec x 2); [subst; unfold read_cmp_value; rsame1|].
    destruct (N.eqb_spec x 3); [subst; unfold read_cmp_other; rsame1|].
    destruct (N.eqb_spec x 4); [subst; unfold read_bitmap_range; rsame1|].
    destruct (N.eqb_spec x 7); [subst; unfold read_string_search; rsame1|].
    reflexivity.
  - intros l. unfold dec_query, d_query. rewrite andthen_andthen. apply andthen_ext. clear. intros b. cbv zeta.
    destruct (N.eqb_spec (part 5 3 b) 0) as [Hk|_]; [rewrite ?Hk; cbn [orb N.eqb Pos.eqb]; reflexivity|].
    destruct (N.eqb_spec (part 5 3 b) 1) as [Hk|_]; [rewrite ?Hk; cbn [orb N.eqb Pos.eqb]; dsame|].
    destruct (N.eqb_spec (part 5 3 b) 2) as [Hk|_]; [rewrite ?Hk; cbn [orb N.eqb Pos.eqb]; dsame|].
    destruct (N.eqb_spec (part 5 3 b) 3) as [Hk|_]; [rewrite ?Hk; cbn [orb N.eqb Pos.eqb]; dsame|]. cbn [orb].
    destruct (N.eqb_spec (part 5 3 b) 4) as [Hk|_]; [rewrite ?Hk; cbn [orb N.eqb Pos.eqb]; dsame|].
    destruct (N.eqb_spec (part 5 3 b) 7) as [Hk|_]; reflexivity.
Qed.

(** ** interface *)
Lemma Dec_dash7_config {E : Env} : Dec read_dash7_config dec_dash7_config.
Proof. unfold read_dash7_config, dec_dash7_config, is_subiot. destruct e_feat; dsteps1. Qed.
Definition g_lorawan : reader (bool * bool) :=
  skip_bits 5 ;;; a <- read_bool ;; b <- read_bool ;; skip_bits 1 ;;; ret (a, b).
Lemma Dec_g_lorawan : Dec g_lorawan (let* b := one in give (flag 2 b, flag 1 b)).
Proof. unfold g_lorawan. group. Qed.
Lemma Dec_lorawan : Dec read_lorawan_config dec_lorawan.
Proof.
  eapply Dec_ext with (m := x <- g_lorawan ;; p <- read_u8 ;; r <- read_u8 ;; ret (mkLorawanConfig (fst x) (snd x) p r)).
  - apply Dec_bind; [exact Dec_g_lorawan|]. intros x. dsteps1.
  - unfold read_lorawan_config, g_lorawan. rsame.
  - unfold dec_lorawan. dsame.
Qed.

(** Readers that look at the id of an unassigned variant again: on a byte boundary. *)
Definition DecA {A} (m : reader A) (D : dec A) : Prop := forall r, RWf r -> left r = [] -> DecAt m D r.
Lemma Dec_A {A} (m : reader A) D : Dec m D -> DecA m D.
Proof. intros H r Hr _. apply H. exact Hr. Qed.
Lemma DecA_bind {A B} (m : reader A) (f : A -> reader B) D K :
  Dec m D -> (forall v, DecA (f v) (K v)) -> DecA (bind m f) (andthen D K).
Proof.
  intros H G r Hr Hl. apply DecAt_bind; [exact Hr|apply H; exact Hr|]. intros v k rest _ Hk _ _ Ha. apply G; [exact Ha|].
  rewrite adv_aligned by assumption. reflexivity.
Qed.
Lemma DecA_bind' {A B} (m : reader A) (f : A -> reader B) D K :
  DecA m D -> (forall v, Dec (f v) (K v)) -> DecA (bind m f) (andthen D K).
Proof.
  intros H G r Hr Hl. apply DecAt_bind; [exact Hr|apply H; assumption|]. intros v k rest _ Hk _ _ Ha. apply G. exact Ha.
Qed.
Lemma DecA_id {E : Env} {A} (m : N -> reader A) (D : N -> dec A) (f : N -> A) (known : N -> bool) :
  (forall x, known x = true -> Dec (m x) (D x)) ->
  (forall x, known x = false -> D x = give (f x) /\ m x = (i <- read_id_field x ;; ret (f i))) ->
  DecA (x <- read_u8 ;; m x) (let* x := one in D x).
Proof.
  intros H G r Hr Hl. apply DecAt_bind; [exact Hr|apply Dec_u8; exact Hr|]. intros x k rest _ Hk _ Hm Ha.
  destruct (known x) eqn:Hx; [apply H; assumption|]. destruct (G x Hx) as [-> ->].
  unfold DecAt, give, bind. rewrite (id_field_aligned r x (adv r (8 * k)) Hr Hl Hm).
  exists 0%nat. split; [lia|]. split; [reflexivity|]. rewrite adv_0. reflexivity.
Qed.
Lemma DecA_interface_config {E : Env} : DecA read_interface_config dec_interface_config.
Proof.
  unfold read_interface_config, dec_interface_config.
  apply (DecA_id (fun x => match assoc x _ with Some m => m | None => _ end)
           (fun i => if i =? 0 then _ else _) IcUnknown (fun x => existsb (N.eqb x) [0; 1; 2; 3; 0xD7]));
    intros x; cbn [existsb assoc]; intros Hx.
  - destruct (x =? 0); [dsteps1|]. destruct (x =? 1); [dsteps1|].
    destruct (x =? 2).
    { eapply Dec_ext with (m := c <- read_abp ;; ret (IcAbp c)); [unfold read_abp|reflexivity|].
      - apply Dec_bind; [repeat first [exact Dec_lorawan|dstep1]|]. intros c. apply Dec_ret.
      - dsame. }
    destruct (x =? 3).
    { eapply Dec_ext with (m := c <- read_otaa ;; ret (IcOtaa c)); [unfold read_otaa|reflexivity|].
      - apply Dec_bind; [repeat first [exact Dec_lorawan|dstep1]|]. intros c. apply Dec_ret.
      - dsame. }
    destruct (x =? 0xD7); [|discriminate]. repeat first [exact Dec_dash7_config|dstep1].
  - destruct (x =? 0); [discriminate|]. destruct (x =? 1); [discriminate|]. destruct (x =? 2); [discriminate|].
    destruct (x =? 3); [discriminate|]. destruct (x =? 0xD7); [discriminate|]. split; reflexivity.
Qed.
Lemma DecA_indirect_interface {E : Env} : DecA read_indirect_interface dec_indirect_interface.
Proof.
  unfold read_indirect_interface, dec_indirect_interface.
  apply (DecA_id (fun x => match assoc x _ with Some m => m | None => _ end)
           (fun i => if i =? 0 then _ else _) IiUnknown (fun x => existsb (N.eqb x) [0; 1; 0xD7]));
    intros x; cbn [existsb assoc]; intros Hx.
  - destruct (x =? 0); [dsteps1|]. destruct (x =? 1); [dsteps1|].
    destruct (x =? 0xD7); [|discriminate]. dsteps1.
  - destruct (x =? 0); [discriminate|]. destruct (x =? 1); [discriminate|].
    destruct (x =? 0xD7); [discriminate|]. split; reflexivity.
Qed.
