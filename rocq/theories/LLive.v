(** Lemmas for C63: which inputs that end too early can be continued. *)
From Coq Require Import List NArith ZArith Bool Lia ZifyBool ZifyNat ZifyN Arith.
From Verif Require Import Base Deku Utils Types Physical Link Network Session Data Query
  Interface File Operation Action Command WellFormed SpecLayout SpecDecode LBits LReader LLayout LNiceOps
  LDecode LDecodeTypes LDecodeOps LDecodeAct LDecodeCmd LDecodeTx LJoin.
Import ListNotations.
Open Scope N_scope.

(** [D] accepts some bytes as a whole, with a value in [P]. *)
Definition St {A} (D : dec A) (P : A -> Prop) : Prop := exists s v, bytes s /\ D s = Some (v, []) /\ P v.
(** Where [m] runs out of input, [D] accepts some continuation, unless [X] rules it out. *)
Definition FinX {A} (m : reader A) (D : dec A) (P : A -> Prop) (X : list N -> Prop) : Prop := forall r, RWf r -> left r = [] ->
  m r = Err EIncomplete -> X (octets (view r)) ->
  exists s v, bytes s /\ D (octets (view r) ++ s) = Some (v, []) /\ P v.
Definition Any {A} (_ : A) : Prop := True.
Definition LivX {A} (m : reader A) (D : dec A) (P : A -> Prop) (X : list N -> Prop) : Prop :=
  DecA m D /\ Loc D /\ FinX m D P X.
Definition Liv {A} (m : reader A) (D : dec A) (P : A -> Prop) : Prop := LivX m D P Any.

Lemma LivX_ext {A} (m m' : reader A) (D D' : dec A) P (X X' : list N -> Prop) : LivX m D P X ->
  (forall r, RWf r -> m' r = m r) -> (forall l, D' l = D l) -> (forall l, X' l -> X l) -> LivX m' D' P X'.
Proof.
  intros (HA & HL & HF) Hm HD HX. split; [|split].
  - eapply DecA_ext; eassumption.
  - intros l v r H. rewrite HD in H. destruct (HL _ _ _ H) as (p & Hp & Hs). exists p. split; [exact Hp|].
    intros s. rewrite HD. apply Hs.
  - intros r Hr Hl H Hx. rewrite Hm in H by exact Hr. destruct (HF r Hr Hl H (HX _ Hx)) as (s & v & Bs & Hs & Hv).
    exists s, v. rewrite HD. auto.
Qed.
Lemma Liv_ext {A} (m m' : reader A) (D D' : dec A) P : Liv m D P ->
  (forall r, RWf r -> m' r = m r) -> (forall l, D' l = D l) -> Liv m' D' P.
Proof. intros H Hm HD. eapply LivX_ext; [exact H|exact Hm|exact HD|auto]. Qed.
Lemma Liv_weaken {A} (m : reader A) D (P Q : A -> Prop) : Liv m D P -> (forall v, P v -> Q v) -> Liv m D Q.
Proof.
  intros (HA & HL & HF) H. split; [exact HA|]. split; [exact HL|]. intros r Hr Hl He Hx.
  destruct (HF r Hr Hl He Hx) as (s & v & Bs & Hs & Hv). exists s, v. auto.
Qed.
Lemma Liv_ret {A} (v : A) P : Liv (ret v) (give v) P.
Proof. split; [apply Dec_A, Dec_ret|]. split; [apply Loc_give|]. intros r Hr Hl H. discriminate. Qed.
Lemma Liv_fail {A} e P : e <> EIncomplete -> Liv (@fail A e) reject P.
Proof. intros He. split; [apply Dec_A, Dec_fail|]. split; [apply Loc_reject|]. intros r Hr Hl H. injection H as ->. contradiction. Qed.
Lemma St_bind {A B} (D : dec A) (K : A -> dec B) P Q : Loc D -> St D P -> (forall v, P v -> St (K v) Q) -> St (andthen D K) Q.
Proof.
  intros HL (s & v & Bs & Hs & Hv) H. destruct (H v Hv) as (t & w & Bt & Ht & Hw). exists (s ++ t), w.
  split; [apply Forall_app; split; assumption|]. split; [|exact Hw]. unfold andthen.
  destruct (HL _ _ _ Hs) as (p & Hp & Hp'). rewrite app_nil_r in Hp. subst p. rewrite Hp'. exact Ht.
Qed.
Lemma DecA_bindA {A B} (m : reader A) (f : A -> reader B) D K :
  DecA m D -> (forall v, DecA (f v) (K v)) -> DecA (bind m f) (andthen D K).
Proof.
  intros H G r Hr Hl. apply DecAt_bind; [exact Hr|apply H; assumption|]. intros v k rest _ Hk _ _ Ha. apply G; [exact Ha|].
  rewrite adv_aligned by assumption. reflexivity.
Qed.
Lemma LivX_bindX {A B} (m : reader A) (f : A -> reader B) D K P Q (X0 : list N -> Prop) (X : A -> list N -> Prop) (Y : list N -> Prop) :
  LivX m D P X0 -> (forall v, LivX (f v) (K v) Q (X v)) -> (forall v, P v -> St (K v) Q) -> (forall l, Y l -> X0 l) ->
  (forall l v rest, D l = Some (v, rest) -> Y l -> X v rest) -> LivX (bind m f) (andthen D K) Q Y.
Proof.
  intros (HA & HL & HF) H HS HX0 HX. split; [|split].
  - apply DecA_bindA; [exact HA|]. intros v. apply H.
  - apply Loc_bind; [exact HL|]. intros v. apply H.
  - intros r Hr Hl He Hy. unfold bind in He. destruct (m r) as [[v r1]|e|] eqn:Em; [| |discriminate].
    + specialize (HA r Hr Hl). unfold DecAt in HA. destruct (D (octets (view r))) as [[w rest]|] eqn:ED.
      2: { destruct HA as [e HA]. congruence. }
      destruct HA as (k & Hk & Hrest & HA). assert (w = v /\ r1 = adv r (8 * k)) as [-> ->] by (split; congruence). clear HA.
      destruct (H v) as (_ & _ & Hf). specialize (Hf (adv r (8 * k)) (RWf_adv _ _ Hr Hk)).
      rewrite adv_aligned in Hf at 1 by assumption. specialize (Hf eq_refl He).
      rewrite view_adv, octets_skip, <- Hrest in Hf by assumption. specialize (Hf (HX _ _ _ ED Hy)).
      destruct Hf as (s & x & Bs & Hs & Hx). exists s, x. split; [exact Bs|]. split; [|exact Hx].
      destruct (HL _ _ _ ED) as (p & Hp & Hp'). unfold andthen. rewrite Hp, <- app_assoc, Hp'. exact Hs.
    + injection He as ->. destruct (HF r Hr Hl Em (HX0 _ Hy)) as (s & v & Bs & Hs & Hv).
      destruct (HS v Hv) as (t & w & Bt & Ht & Hw). exists (s ++ t), w.
      split; [apply Forall_app; split; assumption|]. split; [|exact Hw]. unfold andthen.
      destruct (HL _ _ _ Hs) as (p & Hp & Hp'). rewrite app_nil_r in Hp. rewrite app_assoc, Hp, Hp'. exact Ht.
Qed.
Lemma LivX_bind {A B} (m : reader A) (f : A -> reader B) D K P Q (X : A -> list N -> Prop) (Y : list N -> Prop) :
  Liv m D P -> (forall v, LivX (f v) (K v) Q (X v)) -> (forall v, P v -> St (K v) Q) ->
  (forall l v rest, D l = Some (v, rest) -> Y l -> X v rest) -> LivX (bind m f) (andthen D K) Q Y.
Proof. intros H G HS HX. eapply LivX_bindX; [exact H|exact G|exact HS|intros l _; exact I|exact HX]. Qed.
Lemma Liv_bind {A B} (m : reader A) (f : A -> reader B) D K P Q :
  Liv m D P -> (forall v, Liv (f v) (K v) Q) -> (forall v, P v -> St (K v) Q) -> Liv (bind m f) (andthen D K) Q.
Proof. intros H G HS. eapply LivX_bind; [exact H|exact G|exact HS|]. intros. exact I. Qed.
Lemma Liv_if {A} (c : bool) (m m' : reader A) D D' P :
  Liv m D P -> Liv m' D' P -> Liv (if c then m else m') (if c then D else D') P.
Proof. destruct c; auto. Qed.

(** ** Starts *)
Lemma St_give {A} (v : A) (P : A -> Prop) : P v -> St (give v) P.
Proof. intros H. exists [], v. split; [constructor|]. split; [reflexivity|exact H]. Qed.
Lemma St_one (P : N -> Prop) b : b < 256 -> P b -> St one P.
Proof. intros Hb H. exists [b], b. split; [repeat constructor; exact Hb|]. split; [reflexivity|exact H]. Qed.
Lemma bytes_repeat k : bytes (repeat 0 k).
Proof. apply Forall_forall. intros x H. apply repeat_spec in H. subst x. reflexivity. Qed.
Lemma St_some n : St (some_bytes n) Any.
Proof.
  exists (repeat 0 (N.to_nat n)), (repeat 0 (N.to_nat n)). split; [apply bytes_repeat|]. split; [|exact I].
  unfold some_bytes. rewrite repeat_length. destruct (N.leb_spec n (N.of_nat (N.to_nat n))); [|lia].
  rewrite firstn_all2, skipn_all2 by (rewrite repeat_length; lia). reflexivity.
Qed.
Lemma St_times {A} n (D : dec A) : Loc D -> St D Any -> St (times n D) Any.
Proof.
  intros HL HS. induction n as [|n IH]; cbn [times]; [apply St_give; exact I|].
  apply St_bind with (P := Any); [exact HL|exact HS|]. intros v _. apply St_bind with (P := Any); [apply Loc_times; exact HL|exact IH|].
  intros w _. apply St_give. exact I.
Qed.
(** By example. *)
Ltac witness l := exists l; eexists; split; [repeat constructor|split; [vm_compute; reflexivity|try exact I; try reflexivity]].

(** ** One byte *)
Definition NI {A} (n : nat) (m : reader A) : Prop := forall r, RWf r -> (n <= length (view r))%nat ->
  match m r with
  | Ok (_, r') => RWf r' /\ (length (view r) <= length (view r') + n)%nat
  | Err e => e <> EIncomplete
  | Panic => True
  end.
Lemma NI_uint n : NI n (read_uint n).
Proof.
  intros r Hr L. rewrite read_uint_ok by assumption. split; [apply RWf_adv; assumption|].
  rewrite view_adv, skipn_length by assumption. lia.
Qed.
Lemma NI_skip n : NI n (skip_bits n).
Proof.
  intros r Hr L. unfold skip_bits, bind. rewrite read_bits_ok by assumption. split; [apply RWf_adv; assumption|].
  rewrite view_adv, skipn_length by assumption. lia.
Qed.
Lemma NI_ret {A} n (v : A) : NI n (ret v).
Proof. intros r Hr L. split; [exact Hr|lia]. Qed.
Lemma NI_fail {A} n e : e <> EIncomplete -> NI n (@fail A e).
Proof. intros H r Hr L. exact H. Qed.
Lemma NI_bind {A B} n k (m : reader A) (f : A -> reader B) : (k <= n)%nat -> NI k m -> (forall v, NI (n - k) (f v)) -> NI n (bind m f).
Proof.
  intros Hk H G r Hr L. unfold bind. specialize (H r Hr (Nat.le_trans _ _ _ Hk L)).
  destruct (m r) as [[v r1]|e|]; [|exact H|exact I]. destruct H as (W & H).
  specialize (G v r1 W ltac:(lia)). destruct (f v r1) as [[w r2]|e|]; [|exact G|exact I]. destruct G as (W2 & G). split; [exact W2|lia].
Qed.
Lemma NI_bool n : (1 <= n)%nat -> NI n read_bool.
Proof. intros H. apply NI_bind with (k := 1%nat); [exact H|apply NI_uint|]. intros v. apply NI_ret. Qed.
Lemma NI_enum {A} n k (f : N -> option A) : (k <= n)%nat -> NI n (read_enum k f).
Proof. intros H. apply NI_bind with (k := k); [exact H|apply NI_uint|]. intros v. destruct (f v); [apply NI_ret|apply NI_fail; discriminate]. Qed.
Ltac ni := repeat first
  [ apply NI_ret | apply NI_fail; discriminate | apply NI_uint | apply NI_skip
  | apply NI_bool; cbn; lia | apply NI_enum; cbn; lia
  | match goal with
    | |- NI _ (bind (read_uint ?k) _) => apply (NI_bind _ k); [cbn; lia|apply NI_uint|intros ?]
    | |- NI _ (bind (skip_bits ?k) _) => apply (NI_bind _ k); [cbn; lia|apply NI_skip|intros ?]
    | |- NI _ (bind read_bool _) => apply (NI_bind _ 1); [cbn; lia|apply NI_bool; lia|intros ?]
    | |- NI _ (bind (read_enum ?k _) _) => apply (NI_bind _ k); [cbn; lia|apply NI_enum; lia|intros ?]
    | |- NI _ (bind (ret _) _) => apply (NI_bind _ 0); [lia|apply NI_ret|intros ?]
    | |- NI _ (match ?x with _ => _ end) => destruct x
    | |- NI _ (bind ?m _) => unfold m
    | |- NI _ ?m => unfold m
    end ].
Lemma Liv_group {A} (m : reader A) D P : Dec m D -> Loc D -> NI 8 m -> St D P -> Liv m D P.
Proof.
  intros HD HL HN HS. split; [apply Dec_A; exact HD|]. split; [exact HL|]. intros r Hr Hl He _.
  destruct (Nat.le_gt_cases 8 (length (view r))) as [L|L].
  - specialize (HN r Hr L). rewrite He in HN. contradiction.
  - rewrite octets_short by exact L. exact HS.
Qed.
Lemma Liv_u8 (P : N -> Prop) b : b < 256 -> P b -> Liv read_u8 one P.
Proof. intros Hb H. apply Liv_group; [exact Dec_u8|apply Loc_one|exact (NI_uint 8)|apply St_one with (b := b); assumption]. Qed.

(** ** Several bytes *)
Lemma fill n l : (length l < N.to_nat n)%nat ->
  some_bytes n (l ++ repeat 0 (N.to_nat n - length l)) = Some (l ++ repeat 0 (N.to_nat n - length l), []).
Proof.
  intros H. unfold some_bytes. rewrite app_length, repeat_length. destruct (N.leb_spec n (N.of_nat (length l + (N.to_nat n - length l)))); [|lia].
  rewrite firstn_all2, skipn_all2 by (rewrite app_length, repeat_length; lia). reflexivity.
Qed.
Lemma Liv_block {A} (m : reader A) n (f : list N -> A) : Dec m (let* l := some_bytes n in give (f l)) ->
  (forall r, RWf r -> (8 * N.to_nat n <= length (view r))%nat -> m r <> Err EIncomplete) -> Liv m (let* l := some_bytes n in give (f l)) Any.
Proof.
  intros HD HN. split; [apply Dec_A; exact HD|]. split; [loc|]. intros r Hr Hl He _.
  destruct (Nat.le_gt_cases (8 * N.to_nat n) (length (view r))) as [L|L]; [destruct (HN r Hr L He)|].
  exists (repeat 0 (N.to_nat n - length (octets (view r)))). eexists. split; [apply bytes_repeat|]. split; [|exact I].
  unfold andthen. rewrite fill; [reflexivity|]. rewrite octets_length. divlia.
Qed.
Lemma Liv_num k : Liv (read_uint (8 * k)) (num (N.of_nat k)) Any.
Proof.
  apply Liv_block; [apply Dec_num|]. intros r Hr L. rewrite read_uint_ok by (try exact Hr; lia). discriminate.
Qed.
Lemma Liv_u16 : Liv read_u16be (num 2) Any. Proof. exact (Liv_num 2). Qed.
Lemma Liv_u32 : Liv read_u32be (num 4) Any. Proof. exact (Liv_num 4). Qed.
Lemma Liv_u64 : Liv read_u64be (num 8) Any. Proof. exact (Liv_num 8). Qed.
Lemma Liv_byte : Liv read_u8 one Any. Proof. apply Liv_u8 with (b := 0); [reflexivity|exact I]. Qed.
Lemma Liv_i8 : Liv read_i8 signed Any.
Proof. apply Liv_bind with (P := Any); [apply Liv_byte|intros; apply Liv_ret|intros; apply St_give; exact I]. Qed.
Lemma Liv_pad k : Liv (skip_bits (8 * k)) (let* l := some_bytes (N.of_nat k) in give tt) Any.
Proof.
  apply (Liv_block _ _ (fun _ => tt)); [apply Dec_pad|]. intros r Hr L. unfold skip_bits, bind. rewrite read_bits_ok by (try exact Hr; lia). discriminate.
Qed.
Lemma Liv_native {E : Env} k : Liv (read_native k) (host_num (N.of_nat k)) Any.
Proof.
  apply Liv_block; [apply Dec_native|]. intros r Hr L. unfold read_native, bind. rewrite read_bits_ok by (try exact Hr; lia). discriminate.
Qed.
Lemma Liv_native_4 {E : Env} : Liv (read_native 4) (host_num 4) Any. Proof. exact (Liv_native 4). Qed.
Lemma Liv_native_16 {E : Env} : Liv (read_native 16) (host_num 16) Any. Proof. exact (Liv_native 16). Qed.
Lemma Liv_times {A} n (m : reader A) D : Liv m D Any -> St D Any -> Liv (read_list n m) (times n D) Any.
Proof.
  intros H HS. pose proof H as (_ & HL & _). induction n as [|n IH]; cbn [read_list times]; [apply Liv_ret|].
  apply Liv_bind with (P := Any); [exact H| |].
  - intros x. apply Liv_bind with (P := Any); [exact IH|intros; apply Liv_ret|intros; apply St_give; exact I].
  - intros x _. apply St_bind with (P := Any); [apply Loc_times; exact HL|apply St_times; assumption|]. intros. apply St_give. exact I.
Qed.
Lemma Liv_bytes n : Liv (read_list n read_u8) (some_bytes (N.of_nat n)) Any.
Proof.
  eapply Liv_ext; [apply (Liv_times n), St_one with (b := 0); [apply Liv_byte|reflexivity|exact I]|reflexivity|].
  intros l. symmetry. apply times_one.
Qed.
Lemma Liv_bytes_5 : Liv (read_list 5 read_u8) (some_bytes 5) Any. Proof. exact (Liv_bytes 5). Qed.
Lemma Liv_bytes_8 : Liv (read_list 8 read_u8) (some_bytes 8) Any. Proof. exact (Liv_bytes 8). Qed.
Lemma Liv_vec n : Liv (read_vec_u8 n) (some_bytes n) Any.
Proof.
  split; [apply Dec_A, Dec_vec|]. split; [apply Loc_some|]. intros r Hr Hl He _.
  destruct (N.le_gt_cases n (N.of_nat (length (octets (view r))))) as [L|L].
  - pose proof (Dec_vec n r Hr) as H. unfold DecAt, some_bytes in H.
    destruct (N.leb_spec n (N.of_nat (length (octets (view r))))); [|lia]. destruct H as (k & _ & _ & H). congruence.
  - exists (repeat 0 (N.to_nat n - length (octets (view r)))). eexists. split; [apply bytes_repeat|]. split; [|exact I].
    apply fill. lia.
Qed.
