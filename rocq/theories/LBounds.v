(** Lemmas for C88: how many bytes an action takes. *)
From Coq Require Import List NArith ZArith Bool Lia ZifyBool ZifyNat ZifyN Arith.
From Verif Require Import Base Deku Utils Types Physical Link Network Session Data Query
  Interface File Operation Action Command Position WellFormed SpecLayout SpecApi SpecDecode SpecBounds
  LBits LReader LDecodeTx LDecode LCanon LJoin LPosition.
Import ListNotations.
Open Scope N_scope.

Notation size l := (N.of_nat (length l)).
(** At least [lo] and at most [hi] bytes are taken; what is decoded meets [P]. *)
Definition TK {A} (lo hi : N) (P : A -> Prop) (D : dec A) : Prop := forall l v r, bytes l -> D l = Some (v, r) ->
  bytes r /\ P v /\ lo + size r <= size l <= hi + size r.
Definition any {A} (_ : A) : Prop := True.

Lemma TK_bind {A B} a b lo hi P Q (D : dec A) (K : A -> dec B) : TK a b P D -> b <= hi -> (forall v, P v -> TK (lo - a) (hi - b) Q (K v)) ->
  TK lo hi Q (andthen D K).
Proof.
  intros HD Hb HK l v r Hl H. unfold andthen in H. destruct (D l) as [[x l']|] eqn:E; [|discriminate].
  destruct (HD _ _ _ Hl E) as (B1 & P1 & S1). destruct (HK x P1 _ _ _ B1 H) as (B2 & P2 & S2). split; [exact B2|]. split; [exact P2|]. lia.
Qed.
Lemma TK_give {A} (v : A) lo hi (P : A -> Prop) : P v -> lo = 0 -> TK lo hi P (give v).
Proof. intros Hv -> l w r Hl H. unfold give in H. injection H as <- <-. repeat split; try assumption; lia. Qed.
Lemma TK_reject {A} lo hi (P : A -> Prop) : TK lo hi P reject.
Proof. intros l w r Hl H. discriminate. Qed.
Lemma TK_weaken {A} lo hi lo' hi' (P Q : A -> Prop) D : TK lo hi P D -> lo' <= lo -> hi <= hi' -> (forall v, P v -> Q v) -> TK lo' hi' Q D.
Proof. intros H L R I l v r Hl E. destruct (H _ _ _ Hl E) as (B & HP & S). split; [exact B|]. split; [auto|lia]. Qed.
Lemma TK_if {A} (c : bool) lo hi P (D D' : dec A) : TK lo hi P D -> TK lo hi P D' -> TK lo hi P (if c then D else D').
Proof. destruct c; auto. Qed.
Lemma TK_one : TK 1 1 (fun b => b < 256) one.
Proof. intros [|b l] v r Hl H; cbn in H; [discriminate|]. injection H as <- <-. inversion Hl; subst. cbn [length]. repeat split; try assumption; lia. Qed.
Lemma TK_some n : TK n n any (some_bytes n).
Proof.
  intros l v r Hl H. apply some_bytes_inv in H as (-> & L). apply Forall_app in Hl as (_ & Hr). split; [exact Hr|]. split; [exact I|].
  rewrite app_length. lia.
Qed.
Lemma TK_upto n c : n <= c -> TK 0 c any (some_bytes n).
Proof. intros H. apply (TK_weaken _ _ _ _ _ _ _ (TK_some n)); [lia|exact H|auto]. Qed.
Lemma TK_named {A} (code : A -> N) all c lo hi : lo = 0 -> TK lo hi any (named code all c).
Proof. intros ->. unfold named. destruct (find _ all); [apply TK_give; [exact I|reflexivity]|apply TK_reject]. Qed.
Lemma TK_num k : TK k k any (num k).
Proof. unfold num. eapply TK_bind; [apply TK_some|lia|]. intros v _. apply TK_give; [exact I|lia]. Qed.
Lemma TK_host {E : Env} k : TK k k any (host_num k).
Proof. unfold host_num. eapply TK_bind; [apply TK_some|lia|]. intros v _. apply TK_give; [exact I|lia]. Qed.
Lemma TK_times {A} n (D : dec A) k : TK k k any D -> TK (N.of_nat n * k) (N.of_nat n * k) any (times n D).
Proof.
  intros H. induction n as [|n IH]; [apply TK_give; [exact I|reflexivity]|]. cbn [times].
  eapply TK_bind; [exact H|lia|]. intros v _. eapply TK_bind; [exact IH|lia|]. intros w _. apply TK_give; [exact I|lia].
Qed.
Lemma TK_length : TK 1 4 (fun n => n <= most) dec_length.
Proof.
  unfold dec_length. intros l v r Hl H. destruct l as [|b l]; [discriminate|]. unfold andthen, one in H.
  inversion Hl as [|? ? Hb Hl']; subst. unfold byte in Hb.
  assert (K : b / 64 < 4) by (apply N.div_lt_upper_bound; lia).
  unfold num, andthen, give in H. destruct (some_bytes (b / 64) l) as [[t r']|] eqn:E; [|discriminate]. injection H as <- <-.
  apply some_bytes_inv in E as (-> & L). apply Forall_app in Hl' as (Ht & Hr). split; [exact Hr|]. split.
  - pose proof (N_of_be_lt t Ht) as B. rewrite L, N2Nat.id in B. unfold most. change (2 ^ 30) with 1073741824.
    assert (M : b mod 64 < 64) by (apply N.mod_lt; lia).
    assert (b / 64 = 0 \/ b / 64 = 1 \/ b / 64 = 2 \/ b / 64 = 3) as [Q|[Q|[Q|Q]]] by lia; rewrite Q in *;
      change (256 ^ 0) with 1 in *; change (256 ^ 1) with 256 in *; change (256 ^ 2) with 65536 in *; change (256 ^ 3) with 16777216 in *; lia.
  - cbn [length]. rewrite app_length. lia.
Qed.
Lemma TK_when c D hi : TK 0 hi any D -> TK 0 hi any (when c D).
Proof. intros H. unfold when. destruct c; [exact H|apply TK_give; [exact I|reflexivity]]. Qed.
Lemma most_large : 1000 <= most. Proof. vm_compute. discriminate. Qed.
Create HintDb tk.
#[global] Hint Resolve TK_one TK_num TK_host TK_length : tk.
Ltac tk_piece := first
  [ eassumption | solve [eauto with tk nocore] | apply TK_upto; eassumption | apply TK_some | apply TK_when; apply TK_upto; eassumption
  | apply (TK_named _ _ _ 0 0); reflexivity | apply (TK_give _ 0 0 any); [exact I|reflexivity] ].
Ltac tk := repeat first
  [ apply TK_reject | apply TK_give; [exact I|lia]
  | apply TK_named; lia
  | eapply TK_bind; [tk_piece|lia|intros ? ?; cbv beta in *]
  | apply TK_if
  | match goal with |- TK _ _ _ (match ?x with _ => _ end) => destruct x end ].
Ltac tk0 := intros; tk.
Lemma TK_varint : TK 1 1 any dec_varint. Proof. unfold dec_varint. tk. Qed.
Lemma TK_file_offset : TK 2 5 any dec_file_offset. Proof. unfold dec_file_offset. tk. Qed.
#[global] Hint Resolve TK_varint TK_file_offset : tk.
Lemma TK_channel_header : TK 1 1 any dec_channel_header. Proof. unfold dec_channel_header. tk. Qed.
#[global] Hint Resolve TK_channel_header : tk.
Lemma TK_channel : TK 3 3 any dec_channel. Proof. unfold dec_channel. tk. Qed.
Lemma TK_channel_status : TK 3 3 any dec_channel_status. Proof. unfold dec_channel_status. tk. Qed.
Lemma TK_signed : TK 1 1 any signed. Proof. unfold signed. tk. Qed.
#[global] Hint Resolve TK_channel TK_signed : tk.
Lemma TK_sub_band : TK 7 7 any dec_sub_band. Proof. unfold dec_sub_band. tk. Qed.
Lemma TK_sub_profile : TK 2 2 any dec_sub_profile. Proof. unfold dec_sub_profile. tk. Qed.
Lemma TK_access_profile : TK 65 65 any dec_access_profile.
Proof.
  unfold dec_access_profile. pose proof (TK_times 4 _ _ TK_sub_profile). pose proof (TK_times 8 _ _ TK_sub_band). tk.
Qed.
Lemma TK_address t : TK 0 8 any (dec_address t). Proof. unfold dec_address. tk. Qed.
Lemma TK_nls m : TK 0 5 any (dec_nls_state m). Proof. unfold dec_nls_state. tk. Qed.
#[global] Hint Resolve TK_address TK_nls TK_access_profile : tk.
Lemma TK_addressee {E : Env} : TK 2 15 any dec_addressee. Proof. unfold dec_addressee. destruct e_feat; tk. Qed.
#[global] Hint Resolve TK_addressee : tk.
Lemma TK_qos : TK 1 1 any dec_qos. Proof. unfold dec_qos. tk. Qed.
Lemma TK_dash7_status {E : Env} : TK 12 25 any dec_dash7_status. Proof. unfold dec_dash7_status. tk. Qed.
Lemma TK_final : TK 1 1 any dec_final. Proof. unfold dec_final. tk. Qed.
#[global] Hint Resolve TK_qos TK_dash7_status TK_final : tk.
Lemma TK_dash7_tx {E : Env} : TK 14 27 any dec_dash7_tx. Proof. unfold dec_dash7_tx. tk. Qed.
Lemma TK_file_header : TK 12 12 any dec_file_header. Proof. unfold dec_file_header. tk. Qed.
#[global] Hint Resolve TK_dash7_tx TK_file_header : tk.
Lemma TK_query : TK 4 (10 + 2 * most) any dec_query. Proof. pose proof most_large. unfold dec_query. tk. Qed.
Lemma TK_dash7_config {E : Env} : TK 4 18 any dec_dash7_config. Proof. unfold dec_dash7_config. destruct e_feat; tk. Qed.
Lemma TK_lorawan : TK 3 3 any dec_lorawan. Proof. unfold dec_lorawan. tk. Qed.
#[global] Hint Resolve TK_query TK_dash7_config TK_lorawan : tk.
Lemma TK_interface_config {E : Env} : TK 1 44 any dec_interface_config. Proof. unfold dec_interface_config. tk. Qed.
Lemma TK_indirect {E : Env} : TK 1 16 any dec_indirect_interface. Proof. unfold dec_indirect_interface. tk. Qed.
Lemma TK_text n : TK n n any (text n). Proof. unfold text. tk. Qed.
#[global] Hint Resolve TK_interface_config TK_indirect TK_text : tk.
Lemma TK_file {E : Env} id len : len <= most -> TK 0 most any (dec_file id len).
Proof.
  intros H. pose proof most_large. unfold dec_file. tk.
  - assert (X : v3 <= 255) by lia.
    pose proof (TK_times (N.to_nat v3) _ _ TK_channel_status) as T. rewrite N2Nat.id in T.
    eapply TK_bind; [apply (TK_weaken _ _ 0 765 _ any _ T); [lia|lia|auto]|lia|]. intros ? _. tk.
Qed.
#[global] Hint Resolve TK_file : tk.
Lemma TK_itf_final : TK 2 (5 + most) any dec_itf_final. Proof. pose proof most_large. unfold dec_itf_final. tk. Qed.
Lemma length_takes i l n r : dec_length (i :: l) = Some (n, r) -> size (i :: l) = 1 + i / 64 + size r /\ (i < 64 -> n = i).
Proof.
  unfold dec_length, num, andthen, one, give. destruct (some_bytes (i / 64) l) as [[t r']|] eqn:E; [|discriminate].
  intros H. injection H as <- <-. apply some_bytes_inv in E as (-> & L). split; [cbn [length]; rewrite app_length; lia|].
  intros K. rewrite (N.div_small i 64 K) in *. rewrite (N.mod_small i 64 K). destruct t; [|discriminate]. cbn [N_of_be]. change (256 ^ 0) with 1. 
  unfold N_of_be. cbn. lia.
Qed.
Lemma TK_itf_status {E : Env} : TK 2 ((if e_rewind then 4 else 5) + most) any dec_itf_status.
Proof.
  pose proof most_large. intros l v r Hl H0. unfold dec_itf_status in H0.
  destruct l as [|i l]; [discriminate|]. unfold andthen at 1, one at 1 in H0. inversion Hl as [|? ? Hi Hl']; subst. unfold byte in Hi.
  assert (S : size (i :: l) = 1 + size l) by (cbn [length]; lia).
  assert (G : forall (D : dec itf_status_op), D l = Some (v, r) -> TK 1 29 any D ->
    bytes r /\ any v /\ 2 + size r <= size (i :: l) <= (if e_rewind then 4 else 5) + most + size r).
  { intros D HD T. destruct (T _ _ _ Hl' HD) as (B & _ & Q). split; [exact B|]. split; [exact I|]. rewrite S. destruct e_rewind; lia. }
  destruct (i =? 0) eqn:E0; [apply (G _ H0); tk|]. destruct (i =? 1) eqn:E1; [apply (G _ H0); tk|].
  destruct (i =? 0xD7) eqn:E7; [apply (G _ H0); tk|]. destruct ((i =? 2) || (i =? 3)) eqn:E2; [discriminate|].
  assert (T : TK 1 (4 + most) any (let* n := dec_length in let* p := some_bytes n in give (mkItfStatusOp ItUnknown (IsOther p)))) by tk.
  destruct e_rewind.
  - destruct (T _ _ _ Hl H0) as (B & _ & Q). split; [exact B|]. split; [exact I|]. split; [|lia].
    unfold andthen at 1 in H0. destruct (dec_length (i :: l)) as [[n l2]|] eqn:EL; [|discriminate].
    apply length_takes in EL as (K1 & K2). unfold andthen, give in H0.
    destruct (some_bytes n l2) as [[t r']|] eqn:ES; [|discriminate]. injection H0 as _ <-. apply some_bytes_inv in ES as (-> & L).
    rewrite app_length in K1. destruct (N.lt_ge_cases i 64) as [C|C].
    + specialize (K2 C). rewrite (N.div_small i 64 C) in K1. lia.
    + pose proof (N.div_le_lower_bound i 64 1 ltac:(lia) ltac:(lia)). lia.
  - destruct (T _ _ _ Hl' H0) as (B & _ & Q). split; [exact B|]. split; [exact I|]. lia.
Qed.
Definition status_most {E : Env} : N := match e_feat, e_rewind with Wizzilab, _ | _, false => 5 | _, true => 4 end.
Lemma TK_status {E : Env} k : TK 2 (status_most + most) any (dec_status k).
Proof.
  pose proof most_large. unfold dec_status, status_most. pose proof TK_itf_status as T. pose proof TK_itf_final as T'.
  destruct e_rewind, e_feat; tk.
Qed.
#[global] Hint Resolve TK_status : tk.
Lemma TK_tx_body {E : Env} op : TK 2 (5 + most) any (dec_tx_body op).
Proof. pose proof most_large. unfold dec_tx_body. tk. Qed.
Lemma shifted_bytes l : bytes l -> bytes (shifted l).
Proof.
  intros H. induction l as [|a [|b l] IH]; [constructor..|]. cbn [shifted]. inversion H as [|? ? Ha Hl]; subst. inversion Hl; subst.
  constructor; [|apply IH; exact Hl]. unfold byte in *. pose proof (N.mod_lt a 4 ltac:(lia)).
  assert (b / 4 < 64) by (apply N.div_lt_upper_bound; lia). lia.
Qed.
Lemma TK_tx {E : Env} : TK 4 (7 + most) any dec_tx.
Proof.
  intros l v r Hl H. destruct l as [|h [|o tl]]; try discriminate. unfold dec_tx in H. inversion Hl as [|? ? _ Hl']; subst.
  set (m := o :: tl) in *. assert (Lm : (1 <= length m)%nat) by (cbn; lia).
  destruct (part 6 2 h =? 1); [|discriminate].
  destruct (dec_tx_body (part 2 6 o) (shifted m)) as [[w rest]|] eqn:E1; [|discriminate]. assert (r = skipn (length m - length rest) m) as -> by congruence.
  destruct (TK_tx_body _ _ _ _ (shifted_bytes _ Hl') E1) as (_ & _ & Q). rewrite shifted_length in Q. clearbody m.
  split; [apply Forall_forall; intros x Hx; apply (proj1 (Forall_forall _ _) Hl'); rewrite <- (firstn_skipn (length m - length rest) m); apply in_or_app; right; exact Hx|].
  split; [exact I|]. rewrite skipn_length. cbn [length]. lia.
Qed.
#[global] Hint Resolve TK_tx : tk.
Lemma TK_operand {E : Env} op : match bounds op with Some (lo, hi) => TK lo hi any (dec_operand op) | None => dec_operand op = reject end.
Proof.
  pose proof most_large.
  unfold bounds, dec_operand, dec_nop, dec_file_id_op, dec_file_data, dec_file_properties, dec_action_query.
  destruct op as [|op]; [tk|].
  do 7 (try destruct op as [op|op|]); cbv iota; try reflexivity; try solve [tk].
  - destruct e_feat; [reflexivity..|tk].
  - pose proof (TK_status (E := E)) as T. unfold status_most in T. destruct e_feat, e_rewind; tk.
Qed.

Theorem bounds_sound {E : Env} d p n a q : bytes d -> (p <= length d)%nat -> from_stream read_action d p 0 = Ok (n, a, q) ->
  exists lo hi, bounds (nth p d 0 mod 64) = Some (lo, hi) /\ N.of_nat p + lo <= N.of_nat q <= N.of_nat p + hi.
Proof.
  intros Hd Hp H. pose proof (action_left d p Hd Hp) as L. destruct (dec_action (skipn p d)) as [[a' r]|] eqn:D;
    [|destruct L as [e L]; congruence].
  destruct L as (Lr & L). rewrite H in L. assert (q = length d - length r)%nat as -> by congruence. clear L H.
  unfold dec_action in D. destruct (skipn p d) as [|b l] eqn:Sk; [discriminate|].
  assert (nth p d 0 = b) as -> by (rewrite <- (firstn_skipn p d), Sk, app_nth2; rewrite firstn_length_le by exact Hp; [rewrite Nat.sub_diag; reflexivity|lia]).
  change (b mod 64) with (b mod 2 ^ 6). replace (b mod 2 ^ 6) with (part 0 6 b) by (unfold part; rewrite N.div_1_r; reflexivity).
  pose proof (TK_operand (part 0 6 b)) as T. destruct (bounds (part 0 6 b)) as [[lo hi]|]; [|rewrite T in D; discriminate].
  exists lo, hi. split; [reflexivity|].
  assert (Hb : bytes (b :: l)) by (rewrite <- Sk; apply Forall_forall; intros x Hx; apply (proj1 (Forall_forall _ _) Hd); rewrite <- (firstn_skipn p d); apply in_or_app; right; exact Hx).
  destruct (T _ _ _ Hb D) as (_ & _ & Q). rewrite <- Sk, skipn_length in Q. lia.
Qed.

(** ** Byte strings that take the fewest and the most bytes. *)
Definition zeros (n : N) : list N := repeat 0 (N.to_nat n).
Lemma zeros_size n : length (zeros n) = N.to_nat n. Proof. apply repeat_length. Qed.
Lemma zeros_bytes n : bytes (zeros n).
Proof. apply Forall_forall. intros x Hx. apply repeat_spec in Hx as ->. unfold byte. lia. Qed.
Definition full : list N := [255; 255; 255; 255].
Lemma length_full r : dec_length (full ++ r) = Some (most, r).
Proof.
  unfold dec_length, num, andthen, give. cbn [full app one]. change (255 / 64) with 3.
  pose proof (some_app 3 [255; 255; 255] r eq_refl) as S. cbn [app] in S. rewrite S. reflexivity.
Qed.
Lemma some_full n r : some_bytes n (zeros n ++ r) = Some (zeros n, r).
Proof. apply some_app, zeros_size. Qed.
Lemma some_full0 n : some_bytes n (zeros n) = Some (zeros n, []).
Proof. rewrite <- (app_nil_r (zeros n)) at 1. apply some_full. Qed.

Definition fewest (op : N) : list N :=
  match op with
  | 0 | 48 | 49 | 51 | 63 => [op]
  | 2 | 16 | 18 | 19 | 20 | 31 | 35 | 50 | 52 => [op; 0]
  | 23 | 34 => [op; 0; 0]
  | 1 => [op; 0; 0; 0]
  | 4 | 5 | 32 => [op; 64; 0; 0]
  | 6 | 17 | 33 => op :: zeros 13
  | 8 | 9 | 11 => [op; 32; 0; 0; 0]
  | 10 => [op; 0; 0x42] ++ zeros 8
  | _ => [64 + op; 0; 0; 0]
  end.
Definition wizzilab {E : Env} : bool := match e_feat with Wizzilab => true | _ => false end.
Definition greatest {E : Env} (z : list N) (op : N) : list N :=
  match op with
  | 1 => [op; 0] ++ full ++ full
  | 4 | 5 | 32 => [op; 64] ++ full ++ full ++ z
  | 8 | 9 | 11 => [op; 80] ++ full ++ z ++ z ++ [0] ++ full
  | 34 => if wizzilab then [0xA2; 0] ++ full ++ z
          else if e_rewind then [0x62] ++ full ++ z
          else [0x62; 4] ++ full ++ z
  | 38 => [0x66; 0; 3; 255; 255; 255; 252] ++ z
  | 50 => [op; 2] ++ zeros 43
  | 51 => [0xB3; 0xD7; 0x21] ++ zeros 14
  | _ => fewest op
  end.
Lemma fewest_ok {E : Env} op lo hi : bounds op = Some (lo, hi) ->
  size (fewest op) = lo /\ bytes (fewest op) /\ nth 0 (fewest op) 0 mod 64 = op /\ exists a, dec_action (fewest op) = Some (a, []).
Proof.
  assert (Q : forall (P : Prop), None = Some (lo, hi) -> P) by discriminate.
  destruct E as [f h w].
  destruct op as [|op]; [|do 7 (try destruct op as [op|op|])]; cbn [bounds e_feat]; try exact (Q _).
  all: destruct f; try exact (Q _); intros H; injection H as <- <-.
  all: split; [reflexivity|]; split; [repeat constructor|]; split; [reflexivity|].
  all: destruct h, w; eexists; vm_compute; reflexivity.
Qed.
Lemma shifted_zeros a n : a mod 4 = 0 -> shifted (a :: zeros n) = zeros n.
Proof.
  unfold zeros. revert a. induction (N.to_nat n) as [|k IH]; intros a Ha; [reflexivity|]. cbn [repeat].
  change (shifted (a :: 0 :: repeat 0 k)) with ((a mod 4 * 64 + 0 / 4) :: shifted (0 :: repeat 0 k)). rewrite Ha, IH by reflexivity. reflexivity.
Qed.
(** The lemmas below hold for any [z] of the greatest length, so nothing computes with it. *)
Definition takes (n : N) (z : list N) : Prop := length z = N.to_nat n.
Lemma takes_app n z : takes n z -> forall r, some_bytes n (z ++ r) = Some (z, r).
Proof. intros H r. apply some_app, H. Qed.
Lemma takes_all n z : takes n z -> some_bytes n z = Some (z, []).
Proof. intros H. rewrite <- (app_nil_r z) at 1. apply takes_app, H. Qed.
Lemma full_size : length full = 4%nat. Proof. reflexivity. Qed.
Lemma full_bytes : bytes full. Proof. repeat constructor. Qed.
Ltac go := repeat first [rewrite length_full | match goal with T : takes _ _ |- _ => first [rewrite (takes_app _ _ T) | rewrite (takes_all _ _ T)] end | progress cbv beta iota].
Lemma data_full {E : Env} z c op : takes most z -> exists a, dec_file_data c (op :: 64 :: full ++ full ++ z) = Some (a, []).
Proof.
  intros T.
  eexists. unfold dec_file_data, dec_file_offset, andthen, give. cbn [one]. go. unfold dec_file. cbn [fo_file_id].
  cbn [N.eqb Pos.eqb N.leb N.compare Pos.compare Pos.compare_cont andb]. unfold andthen, give. go. reflexivity.
Qed.
Lemma query_full z c op : takes most z -> exists a, dec_action_query c (op :: 80 :: full ++ z ++ z ++ 0 :: full) = Some (a, []).
Proof.
  intros T.
  eexists. unfold dec_action_query, dec_query. unfold andthen at 1. cbn [one]. unfold andthen at 1. unfold andthen at 1. cbn [one].
  change (part 5 3 80) with 2. change (flag 4 80) with true. cbn [N.eqb Pos.eqb]. change (part 0 3 80) with 0.
  unfold named. cbn [find all_cmp code_cmp N.eqb]. unfold when, dec_file_offset, andthen, give. go. cbn [one].
  rewrite <- (app_nil_r full). go. reflexivity.
Qed.
Lemma final_full z : takes most z -> exists s, dec_itf_final (0 :: full ++ z) = Some (s, []).
Proof. intros T. eexists. unfold dec_itf_final, andthen, give. cbn [one]. go. change (0 =? 0xD7) with false. go. reflexivity. Qed.
Lemma itf_full {E : Env} z : takes most z -> exists s, dec_itf_status ((if e_rewind then [] else [4]) ++ full ++ z) = Some (s, []).
Proof.
  intros T.
  eexists. unfold dec_itf_status. destruct e_rewind.
  - unfold andthen at 1. change ([] ++ full ++ z) with (255 :: [255; 255; 255] ++ z). cbn [one].
    change (255 =? 0) with false. change (255 =? 1) with false. change (255 =? 0xD7) with false. change (255 =? 2) with false. change (255 =? 3) with false.
    cbv beta iota. change (255 :: [255; 255; 255] ++ z) with (full ++ z). unfold andthen, give. cbn [orb]. go. reflexivity.
  - unfold andthen at 1. change ([4] ++ full ++ z) with (4 :: full ++ z). cbn [one].
    change (4 =? 0) with false. change (4 =? 1) with false. change (4 =? 0xD7) with false. change (4 =? 2) with false. change (4 =? 3) with false.
    cbn [orb]. unfold andthen, give. go. reflexivity.
Qed.
Lemma status_full {E : Env} z : takes most z -> exists a, dec_operand 34 (greatest z 34) = Some (a, []).
Proof.
  intros T.
  unfold greatest, wizzilab, dec_operand. destruct (final_full z T) as [s F], (itf_full z T) as [t I].
  assert (G : e_feat <> Wizzilab -> exists a, (let* b := one in
     let* t := named code_status_type [StAction; StInterface; StInterfaceFinal] (part 6 2 b) in
     let* s := dec_status (part 6 2 b) in give (AStatus (mkStatusOperand t (part 0 6 b) s))) (0x62 :: (if e_rewind then [] else [4]) ++ full ++ z) = Some (a, [])).
  { intros _. eexists. unfold andthen at 1. cbn [one]. change (part 6 2 0x62) with 1. unfold named. cbn [find code_status_type N.eqb Pos.eqb].
    unfold dec_status. cbn [N.eqb Pos.eqb]. unfold andthen, give. rewrite I. reflexivity. }
  destruct e_feat eqn:Ef.
  - revert G. destruct e_rewind; intros G; exact (G ltac:(discriminate)).
  - revert G. destruct e_rewind; intros G; exact (G ltac:(discriminate)).
  - eexists. unfold andthen at 1. cbn [app one]. change (part 6 2 0xA2) with 2. unfold named. cbn [find code_status_type N.eqb Pos.eqb].
    unfold dec_status. cbn [N.eqb Pos.eqb]. rewrite Ef. unfold andthen, give. rewrite F. reflexivity.
Qed.
Lemma tx_full {E : Env} z : takes most z -> (forall a, a mod 4 = 0 -> shifted (a :: z) = z) -> exists a, dec_tx (greatest z 38) = Some (a, []).
Proof.
  intros T Z.
  unfold greatest. cbn [app]. eexists. unfold dec_tx. change (part 6 2 0x66 =? 1) with true. cbv iota.
  assert (S : shifted (0 :: 3 :: 255 :: 255 :: 255 :: 252 :: z) = 0 :: full ++ z).
  { change (0 :: full ++ z) with (0 :: 255 :: 255 :: 255 :: 255 :: z). rewrite <- (Z 252 eq_refl) at 2. reflexivity. }
  rewrite S. clear S. unfold dec_tx_body, andthen, give. cbn [one]. go. change (0 =? 0xD7) with false. go.
  rewrite skipn_all2 by (cbn [length]; lia). reflexivity.
Qed.
Lemma greatest_ok {E : Env} z op lo hi : takes most z -> bytes z -> (forall a, a mod 4 = 0 -> shifted (a :: z) = z) -> bounds op = Some (lo, hi) ->
  size (greatest z op) = hi /\ bytes (greatest z op) /\ nth 0 (greatest z op) 0 mod 64 = op /\ exists a, dec_action (greatest z op) = Some (a, []).
Proof.
  intros T Z1 Z2.
  assert (Sz : size z = most) by (unfold takes in T; lia).
  assert (Sm : forall op, bounds op = Some (lo, hi) -> lo = hi -> greatest z op = fewest op -> size (greatest z op) = hi /\ bytes (greatest z op) /\ nth 0 (greatest z op) 0 mod 64 = op /\ exists a, dec_action (greatest z op) = Some (a, [])).
  { intros o B Q G. rewrite G, <- Q. exact (fewest_ok o lo hi B). }
  assert (Fd : forall o c, (forall l, dec_operand o l = dec_file_data c l) -> part 0 6 o = o -> exists a, dec_action (o :: 64 :: full ++ full ++ z) = Some (a, [])).
  { intros o c Ho Po. destruct (data_full z c o T) as [a Ha]. exists a. unfold dec_action. rewrite Po, Ho. exact Ha. }
  assert (Fq : forall o c, (forall l, dec_operand o l = dec_action_query c l) -> part 0 6 o = o -> exists a, dec_action (o :: 80 :: full ++ z ++ z ++ 0 :: full) = Some (a, [])).
  { intros o c Ho Po. destruct (query_full z c o T) as [a Ha]. exists a. unfold dec_action. rewrite Po, Ho. exact Ha. }
  assert (Q : forall (P : Prop), None = Some (lo, hi) -> P) by discriminate.
  assert (W : forall m l, bytes l -> (forall x, In x m -> x < 256) -> bytes (m ++ l)).
  { intros m l Hl Hm. apply Forall_app. split; [|exact Hl]. apply Forall_forall. exact Hm. }
  assert (K : forall P : N -> Prop, P 0 -> P 1 -> P 2 -> P 4 -> P 5 -> P 6 -> P 8 -> P 9 -> P 10 -> P 11 -> P 16 -> P 17 -> P 18 -> P 19 -> P 20 -> P 23 ->
    P 31 -> P 32 -> P 33 -> P 34 -> P 35 -> P 38 -> P 48 -> P 49 -> P 50 -> P 51 -> P 52 -> P 63 -> bounds op = Some (lo, hi) -> P op).
  { clear. intros P. intros. destruct op as [|op]; [assumption|]. do 7 (try destruct op as [op|op|]); try assumption; discriminate. }
  intros B. pose proof B as B0. revert B. refine (K (fun op => bounds op = Some (lo, hi) -> size (greatest z op) = hi /\ bytes (greatest z op) /\ nth 0 (greatest z op) 0 mod 64 = op /\ exists a, dec_action (greatest z op) = Some (a, [])) _ _ _ _ _ _ _ _ _ _ _ _ _ _ _ _ _ _ _ _ _ _ _ _ _ _ _ _ B0); clear B0 K.
  all: try (intros B; apply Sm; [exact B|injection B as <- <-; reflexivity|reflexivity]).
  all: assert (Fb := full_bytes).
  - intros B. assert (hi = 10) as -> by (cbn [bounds] in B; congruence). split; [reflexivity|]. split; [repeat constructor|]. split; [reflexivity|].
    destruct E as [[] [] []]; eexists; vm_compute; reflexivity.
  - intros B. assert (hi = 10 + most) as -> by (cbn [bounds] in B; congruence). unfold greatest. cbn [app]. split; [cbn [length]; rewrite !app_length, full_size; lia|].
    split; [|split; [reflexivity|exact (Fd 4 _ (fun l => eq_refl) eq_refl)]].
    apply (W [4; 64]); [|now intros x [<-|[<-|[]]]]. apply Forall_app; split; [exact Fb|]. apply Forall_app; split; assumption.
  - intros B. assert (hi = 10 + most) as -> by (cbn [bounds] in B; congruence). unfold greatest. cbn [app]. split; [cbn [length]; rewrite !app_length, full_size; lia|].
    split; [|split; [reflexivity|exact (Fd 5 _ (fun l => eq_refl) eq_refl)]].
    apply (W [5; 64]); [|now intros x [<-|[<-|[]]]]. apply Forall_app; split; [exact Fb|]. apply Forall_app; split; assumption.
  - intros B. assert (hi = 11 + 2 * most) as -> by (cbn [bounds] in B; congruence). unfold greatest. cbn [app]. split; [cbn [length]; rewrite !app_length; cbn [length]; rewrite !full_size; lia|].
    split; [|split; [reflexivity|exact (Fq 8 _ (fun l => eq_refl) eq_refl)]].
    apply (W [8; 80]); [|now intros x [<-|[<-|[]]]]. repeat (apply Forall_app; split; [assumption|]). apply (W [0]); [exact Fb|now intros x [<-|[]]].
  - intros B. assert (hi = 11 + 2 * most) as -> by (cbn [bounds] in B; congruence). unfold greatest. cbn [app]. split; [cbn [length]; rewrite !app_length; cbn [length]; rewrite !full_size; lia|].
    split; [|split; [reflexivity|exact (Fq 9 _ (fun l => eq_refl) eq_refl)]].
    apply (W [9; 80]); [|now intros x [<-|[<-|[]]]]. repeat (apply Forall_app; split; [assumption|]). apply (W [0]); [exact Fb|now intros x [<-|[]]].
  - intros B. assert (hi = 11 + 2 * most) as -> by (cbn [bounds] in B; congruence). unfold greatest. cbn [app]. split; [cbn [length]; rewrite !app_length; cbn [length]; rewrite !full_size; lia|].
    split; [|split; [reflexivity|exact (Fq 11 _ (fun l => eq_refl) eq_refl)]].
    apply (W [11; 80]); [|now intros x [<-|[<-|[]]]]. repeat (apply Forall_app; split; [assumption|]). apply (W [0]); [exact Fb|now intros x [<-|[]]].
  - intros B. assert (hi = 10 + most) as -> by (cbn [bounds] in B; congruence). unfold greatest. cbn [app]. split; [cbn [length]; rewrite !app_length, full_size; lia|].
    split; [|split; [reflexivity|exact (Fd 32 _ (fun l => eq_refl) eq_refl)]].
    apply (W [32; 64]); [|now intros x [<-|[<-|[]]]]. apply Forall_app; split; [exact Fb|]. apply Forall_app; split; assumption.
  - intros B. destruct (status_full z T) as [a Ha].
    assert (G : exists c t, greatest z 34 = c :: t /\ c mod 64 = 34).
    { unfold greatest. destruct wizzilab; [eexists _, _; split; reflexivity|]. destruct e_rewind; eexists _, _; split; reflexivity. }
    destruct G as (c & t & Gc & Gm). split; [|split; [|split; [rewrite Gc; exact Gm|exists a; unfold dec_action]]].
    + assert (hi = match e_feat, e_rewind with Wizzilab, _ | _, false => 6 | _, true => 5 end + most) as -> by (cbn [bounds] in B; congruence).
      unfold greatest, wizzilab. destruct e_feat, e_rewind; cbn [app length]; rewrite app_length, full_size; lia.
    + unfold greatest. assert (X : bytes (full ++ z)) by (apply Forall_app; split; assumption).
      destruct wizzilab; [apply (W [0xA2; 0]); [exact X|now intros x [<-|[<-|[]]]]|].
      destruct e_rewind; [apply (W [0x62]); [exact X|now intros x [<-|[]]]|apply (W [0x62; 4]); [exact X|now intros x [<-|[<-|[]]]]].
    + rewrite Gc in *. replace (part 0 6 c) with 34; [exact Ha|]. rewrite <- Gm. unfold part. rewrite N.div_1_r. reflexivity.
  - intros B. cbn [bounds] in B. destruct e_feat eqn:Ef; try discriminate. assert (hi = 7 + most) as -> by congruence.
    unfold greatest. cbn [app]. split; [cbn [length]; lia|]. split; [apply (W [0x66; 0; 3; 255; 255; 255; 252]); [exact Z1|]|].
    + cbn [In]. intros x Hx. repeat (destruct Hx as [<-|Hx]; [reflexivity|]). contradiction.
    + split; [reflexivity|]. destruct (tx_full z T Z2) as [a Ha]. unfold greatest in Ha. cbn [app] in Ha. exists (ATxStatus a).
      unfold dec_action. change (part 0 6 0x66) with 38. unfold dec_operand. rewrite Ef. unfold andthen, give. rewrite Ha. reflexivity.
  - intros B. assert (hi = 45) as -> by (cbn [bounds] in B; congruence). split; [reflexivity|]. split; [repeat constructor|]. split; [reflexivity|].
    destruct E as [[] [] []]; eexists; vm_compute; reflexivity.
  - intros B. assert (hi = 17) as -> by (cbn [bounds] in B; congruence). split; [reflexivity|]. split; [repeat constructor|]. split; [reflexivity|].
    destruct E as [[] [] []]; eexists; vm_compute; reflexivity.
Qed.
Lemma whole {E : Env} d a : bytes d -> dec_action d = Some (a, []) -> exists n, from_stream read_action d 0 0 = Ok (n, a, length d).
Proof.
  intros Hd H. pose proof (action_left d 0 Hd ltac:(lia)) as L. cbn [skipn] in L. rewrite H in L. destruct L as (_ & L).
  cbn [length] in L. rewrite !Nat.sub_0_r in L. rewrite L. eexists. reflexivity.
Qed.
Theorem bounds_least {E : Env} op lo hi : bounds op = Some (lo, hi) -> exists d n a, bytes d /\ nth 0 d 0 mod 64 = op /\
  size d = lo /\ from_stream read_action d 0 0 = Ok (n, a, length d).
Proof.
  intros H. destruct (fewest_ok op lo hi H) as (H1 & H2 & H3 & a & H4). destruct (whole _ a H2 H4) as (n & H5).
  exists (fewest op), n, a. auto.
Qed.
Theorem bounds_greatest {E : Env} op lo hi : bounds op = Some (lo, hi) -> exists d n a, bytes d /\ nth 0 d 0 mod 64 = op /\
  size d = hi /\ from_stream read_action d 0 0 = Ok (n, a, length d).
Proof.
  intros H. destruct (greatest_ok (zeros most) op lo hi (zeros_size most) (zeros_bytes most) (fun a => shifted_zeros a most) H) as (H1 & H2 & H3 & a & H4).
  destruct (whole _ a H2 H4) as (n & H5). exists (greatest (zeros most) op), n, a. auto.
Qed.
Theorem bounds_all {E : Env} d p n a q : bytes d -> (p <= length d)%nat -> from_stream read_action d p 0 = Ok (n, a, q) ->
  N.of_nat p + 1 <= N.of_nat q <= N.of_nat p + 2 ^ 31 + 9.
Proof.
  intros Hd Hp H. destruct (bounds_sound d p n a q Hd Hp H) as (lo & hi & B & Q).
  assert (K : 1 <= lo /\ hi <= 2 ^ 31 + 9).
  { clear - B. assert (M : most = 1073741823) by reflexivity. change (2 ^ 31) with 2147483648. revert B. generalize (nth p d 0 mod 64). intros o.
    unfold bounds. destruct o as [|o]; [|do 7 (try destruct o as [o|o|])]; try discriminate; destruct e_feat, e_rewind; try discriminate; intros B;
      assert (Bl := f_equal (fun x => match x with Some (u, _) => u | None => 1 end) B);
      assert (Bh := f_equal (fun x => match x with Some (_, u) => u | None => 1 end) B); cbv beta iota in Bl, Bh; clear B; lia. }
  lia.
Qed.
