(** Serialising what was parsed: the two kinds of action that are not well formed. *)
From Coq Require Import List NArith ZArith Bool Lia ZifyBool ZifyNat ZifyN Arith.
From Verif Require Import Base Deku Utils Types Physical Link Network Session Data Query
  Interface File Operation Action Command WellFormed SpecLayout SpecAction SpecApi LBits LReader LTypes
  LUtf8 LLayout LRound LRoundOps LAction LApi LNumbers LNice LNiceFile LNiceOps LCount LActionApi.
Import ListNotations.
Open Scope N_scope.

(** ** TxStatus *)
Lemma W_dash7_tx_status {E : Env} v : wf_tx_status v -> W (write_dash7_tx_status v) (enc_dash7_tx_status v).
Proof.
  intros (H1 & H2 & H3 & H4). unfold write_dash7_tx_status, enc_dash7_tx_status.
  apply W_app; [apply W_channel; exact H1|]. cbn [app]. apply W_i8; [exact H2|].
  assert (P : forall w tl, W w tl -> W (write_pad 24 +++ w) (0 :: 0 :: 0 :: tl)).
  { intros w tl (-> & Hb). split; [reflexivity|]. repeat (apply Forall_cons; [reflexivity|]). exact Hb. }
  apply (W_u8 (final_status_code_id (tx_error v))); [destruct (tx_error v); reflexivity|].
  apply P. apply W_app; [apply W_native|apply W_addressee; exact H4].
Qed.
Lemma enc_native_length {E : Env} k v : length (enc_native k v) = k.
Proof. unfold enc_native. destruct e_host; rewrite ?rev_length; apply be_bytes_length. Qed.
Lemma enc_addressee_short {E : Env} a : wf_addressee a -> (length (enc_addressee a) <= 15)%nat.
Proof.
  intros (_ & H1 & H2 & _ & _ & H3). unfold enc_addressee. cbn [length]. rewrite app_length.
  assert (length (enc_address (ad_address a)) <= 8)%nat.
  { destruct (ad_address a); cbn; try lia. }
  assert (length (enc_nls_state (ad_state a)) <= 5)%nat.
  { destruct (ad_state a); cbn in *; try lia; unfold wf_fixed in H3; rewrite ?H3; try lia.
    all: destruct H3 as (? & H3); cbn; rewrite ?app_length, ?H3; cbn; lia. }
  lia.
Qed.
Lemma tx_payload_W {E : Env} v : parsed_tx_status v ->
  W (write_interface_tx_status (txo_status v)) (enc_tx_payload (txo_status v)) /\
  wf_length (N.of_nat (length (enc_tx_payload (txo_status v)))).
Proof.
  intros (_ & _ & H). destruct (txo_status v) as [s|l]; cbn [write_interface_tx_status enc_tx_payload].
  - destruct H as (_ & H). split; [apply W_dash7_tx_status; exact H|].
    pose proof (enc_addressee_short (tx_addressee s) (proj2 (proj2 (proj2 H)))) as L.
    unfold enc_dash7_tx_status, enc_channel, wf_length. rewrite !app_length, enc_native_length.
    cbn [length]. rewrite !be_bytes_length. change (2 ^ 30) with 1073741824. lia.
  - destruct H as (_ & H1 & H2). split; [apply W_vec; exact H1|exact H2].
Qed.
(** What is written: two type bits, six padding bits, and only then the opcode. *)
Lemma tx_written {E : Env} v : parsed_tx_status v ->
  write_action (ATxStatus v)
  = Ok (bits_of_bytes [0x40] ++ bits_of 6 38 ++ bits_of_bytes (txo_itf_id v :: enc_prefixed (enc_tx_payload (txo_status v)))).
Proof.
  intros H. destruct (tx_payload_W v H) as (H1 & H2).
  destruct (W_prefixed _ _ H1 H2) as (Hp & _).
  cbn [write_action action_opcode]. unfold write_tx_status_op. rewrite Hp. reflexivity.
Qed.
Lemma bytes_of_bits_8 b l : b < 256 -> bytes_of_bits (bits_of 8 b ++ l) = b :: bytes_of_bits l.
Proof.
  intros H. pose proof (bits_of_length 8 b) as L. remember (bits_of 8 b) as bs eqn:Hbs.
  destruct bs as [|x0 [|x1 [|x2 [|x3 [|x4 [|x5 [|x6 [|x7 [|? ?]]]]]]]]]; try discriminate.
  cbn [app bytes_of_bits]. f_equal. rewrite Hbs. apply N_of_bits_bits_of_small. exact H.
Qed.
Lemma tx_bytes {E : Env} v : parsed_tx_status v ->
  exists t, action_to_bytes (ATxStatus v) = Ok (0x40 :: t).
Proof.
  intros H. unfold action_to_bytes, to_bytes. rewrite tx_written by exact H. cbn [rbind bits_of_bytes].
  rewrite <- !app_assoc. rewrite bytes_of_bits_8 by reflexivity. eexists. reflexivity.
Qed.
Lemma read_nop_byte {E : Env} t : read_action (new_reader (0x40 :: t))
  = Ok (ANop (mkNop (mkHeader false true) 0), mkRd (0x40 :: t) 1 [] 16).
Proof.
  pose proof (action_new (ANop (mkNop (mkHeader false true) 0)) t) as H. apply H. reflexivity.
Qed.

(** ** Unknown interface status *)
Lemma unknown_W {E : Env} l : wf_payload l ->
  W (write_action (unknown_status l)) (0x62 :: enc_length (N.of_nat (length l)) ++ l).
Proof.
  intros (H1 & H2). cbn [unknown_status write_action action_opcode].
  unfold write_status_operand, write_status_type, write_opcode. cbn [so_type so_status].
  change (0x62 :: enc_length (N.of_nat (length l)) ++ l) with (pack [(2, 1); (6, 34)] :: enc_prefixed l). pk.
  cbn [write_status]. unfold write_itf_status_op. cbn [iso_type iso_status].
  unfold write_interface_type. cbn [interface_type_id]. rewrite wseq_nil_l.
  apply W_prefixed; [apply W_vec; exact H1|exact H2].
Qed.
Lemma read_status_62 {E : Env} r p t : At r p -> skipn p (data r) = 0x62 :: t ->
  read_action r =
  match read_itf_status_op (mkRd (data r) (S p) [] (bread r + 16)) with
  | Ok (s, r') => Ok (AStatus (mkStatusOperand StInterface 34 (StatusInterface s)), r')
  | Err e => Err e
  | Panic => Panic
  end.
Proof.
  intros Hr Hs. rewrite (read_action_at r p _ _ Hr Hs). change (0x62 mod 64) with 34.
  assert (Ha : assoc 34 action_readers = Some (v <- read_status_operand ;; ret (AStatus v))).
  { unfold action_readers. destruct is_wizzilab; reflexivity. }
  rewrite Ha. assert (Hp : (p <= length (data r))%nat) by apply Hr.
  pose proof (At_start (data r) p (bread r + 8) Hp) as (RW & _ & _ & Hv). cbn [data] in Hv. rewrite Hs in Hv.
  cbn [bits_of_bytes] in Hv.
  set (r1 := mkRd (data r) p [] (bread r + 8)) in *.
  assert (L : (8 <= length (view r1))%nat) by (rewrite Hv, app_length, bits_of_length; lia).
  unfold read_status_operand, read_status_type, read_enum, read_opcode, bind at 1 2 3 4.
  assert (V2 : view r1 = [false; true] ++ ([true; false; false; false; true; false] ++ bits_of_bytes t)) by exact Hv.
  destruct (read_uint_view 2 r1 _ _ RW V2 eq_refl) as (-> & V6 & RW2).
  change (N_of_bits [false; true]) with 1. cbn [assoc status_type_tbl N.eqb Pos.eqb ret].
  destruct (read_uint_view 6 _ _ _ RW2 V6 eq_refl) as (-> & _ & _).
  rewrite adv_adv by (assumption || lia). cbn [Nat.add].
  pose proof (adv_aligned r1 1 RW eq_refl L) as Ea. change (8 * 1)%nat with 8%nat in Ea. rewrite Ea.
  change (N_of_bits [true; false; false; false; true; false]) with 34.
  unfold r1. cbn [data pos bread]. replace (p + 1)%nat with (S p) by lia.
  replace (bread r + 8 + 8)%nat with (bread r + 16)%nat by lia.
  cbn [read_status]. unfold bind. destruct (read_itf_status_op _) as [[s r']| |]; reflexivity.
Qed.
Lemma read_u8_cons d p n x t : (p <= length d)%nat -> skipn p d = x :: t -> x < 256 ->
  read_u8 (mkRd d p [] n) = Ok (x, mkRd d (S p) [] (n + 8)).
Proof.
  intros Hp Hs Hx. pose proof (At_start d p n Hp) as (RW & _ & _ & Hv). cbn [data] in Hv. rewrite Hs in Hv.
  destruct (read_uint_view 8 _ _ _ RW Hv (bits_of_length 8 x)) as (E1 & _ & _).
  rewrite (N_of_bits_bits_of_small 8 x Hx) in E1. unfold read_u8 at 1. rewrite E1.
  destruct (read_u8_aligned _ _ _ RW eq_refl E1) as (-> & _). reflexivity.
Qed.
Lemma read_interface_type_cons {E : Env} d p n x t : (p <= length d)%nat -> skipn p d = x :: t -> x < 256 ->
  read_interface_type (mkRd d p [] n) =
  match assoc x interface_type_tbl with
  | Some v => Ok (v, mkRd d (S p) [] (n + 8))
  | None => Ok (ItUnknown, if e_rewind then mkRd d p [] n else mkRd d (S p) [] (n + 8))
  end.
Proof.
  intros Hp Hs Hx. pose proof (At_start d p n Hp) as (RW & _).
  pose proof (read_u8_cons d p n x t Hp Hs Hx) as H.
  unfold read_interface_type, bind at 1. rewrite H. destruct (assoc x interface_type_tbl); [reflexivity|].
  unfold bind. rewrite (id_unit_aligned _ x _ RW eq_refl H). reflexivity.
Qed.

Lemma enc_length_first k : wf_length k -> exists x t, enc_length k = x :: t /\ x < 256 /\
  (assoc x interface_type_tbl = None <-> ~ clashes k).
Proof.
  unfold wf_length, clashes, enc_length. intros H.
  change (2 ^ 30) with 1073741824 in *. change (2 ^ 24) with 16777216. change (2 ^ 22) with 4194304.
  change (2 ^ 14) with 16384. change (2 ^ 6) with 64.
  assert (T : forall x, assoc x interface_type_tbl = None <-> 4 <= x /\ x <> 215).
  { intros x. cbn [assoc interface_type_tbl].
    destruct (N.eqb_spec x 0); [split; [discriminate|lia]|]. destruct (N.eqb_spec x 1); [split; [discriminate|lia]|].
    destruct (N.eqb_spec x 2); [split; [discriminate|lia]|]. destruct (N.eqb_spec x 3); [split; [discriminate|lia]|].
    destruct (N.eqb_spec x 0xD7); [split; [discriminate|lia]|]. split; [lia|reflexivity]. }
  destruct (N.ltb_spec k 64).
  - exists k, []. split; [reflexivity|]. split; [lia|]. rewrite T. lia.
  - destruct (N.ltb_spec k 16384); [|destruct (N.ltb_spec k 4194304)].
    + cbn [be_bytes]. do 2 eexists. split; [reflexivity|]. change (256 ^ N.of_nat 1) with 256.
      split; [apply N.mod_lt; discriminate|]. rewrite T.
      assert (64 <= (1 * 16384 + k) / 256 mod 256 < 128).
      { rewrite N.mod_small by (apply N.div_lt_upper_bound; lia). split; [apply N.div_le_lower_bound; lia|apply N.div_lt_upper_bound; lia]. }
      lia.
    + cbn [be_bytes]. do 2 eexists. split; [reflexivity|]. change (256 ^ N.of_nat 2) with 65536.
      split; [apply N.mod_lt; discriminate|]. rewrite T.
      assert (128 <= (2 * 4194304 + k) / 65536 mod 256 < 192).
      { rewrite N.mod_small by (apply N.div_lt_upper_bound; lia). split; [apply N.div_le_lower_bound; lia|apply N.div_lt_upper_bound; lia]. }
      lia.
    + cbn [be_bytes]. do 2 eexists. split; [reflexivity|]. change (256 ^ N.of_nat 3) with 16777216.
      split; [apply N.mod_lt; discriminate|]. rewrite T.
      assert (Q : (3 * 1073741824 + k) / 16777216 mod 256 = 192 + k / 16777216).
      { replace (3 * 1073741824 + k) with (k + 192 * 16777216) by lia. rewrite N.div_add by lia.
        rewrite N.mod_small; [lia|]. assert (k / 16777216 < 64) by (apply N.div_lt_upper_bound; lia). lia. }
      rewrite Q. pose proof (N.div_mod' k 16777216). pose proof (N.mod_lt k 16777216).
      split; intros; lia.
Qed.
Lemma skipn_pre {A} (a b : list A) : skipn (length a) (a ++ b) = b.
Proof. rewrite skipn_app, Nat.sub_diag, skipn_all. reflexivity. Qed.
Lemma skipn_S_pre {A} (a b : list A) x : skipn (S (length a)) (a ++ x :: b) = b.
Proof.
  replace (a ++ x :: b) with ((a ++ [x]) ++ b) by (rewrite <- app_assoc; reflexivity).
  replace (S (length a)) with (length (a ++ [x])) by (rewrite app_length; cbn; lia). apply skipn_pre.
Qed.

Lemma unknown_parses {E : Env} l : wf_payload l -> e_rewind = true -> ~ clashes (N.of_nat (length l)) ->
  parses_bytes read_action (0x62 :: enc_length (N.of_nat (length l)) ++ l) (unknown_status l).
Proof.
  intros (Hb & Hl) He Hc pre suf n. cbn [app]. rewrite <- app_assoc.
  set (k := N.of_nat (length l)) in *. set (d := pre ++ 0x62 :: enc_length k ++ l ++ suf).
  assert (Hp : (length pre <= length d)%nat) by (unfold d; rewrite app_length; lia).
  assert (Hp1 : (S (length pre) <= length d)%nat) by (unfold d; rewrite app_length; cbn; lia).
  rewrite (read_status_62 _ (length pre) (enc_length k ++ l ++ suf)); [|apply At_start; exact Hp|cbn [data]; apply skipn_pre].
  cbn [data bread]. destruct (enc_length_first k Hl) as (x & t & Ex & Hx & HT).
  assert (Hs1 : skipn (S (length pre)) d = enc_length k ++ l ++ suf) by apply skipn_S_pre.
  unfold read_itf_status_op, bind at 1.
  rewrite (read_interface_type_cons d (S (length pre)) (n + 16) x (t ++ l ++ suf)); [|exact Hp1|rewrite Hs1, Ex; reflexivity|exact Hx].
  rewrite (proj2 HT Hc), He.
  assert (R : RT (write_length_prefixed (write_vec_u8 l))
     (n <- read_length ;; s <- read_interface_status ItUnknown n ;; ret (mkItfStatusOp ItUnknown s))
     (mkItfStatusOp ItUnknown (IsOther l))).
  { apply RT_prefixed with (l := l); [apply W_vec; exact Hb|exact Hl|]. cbn [read_interface_status].
    eapply RT_last; [eapply RT_last; [apply RT_vec_u8; [reflexivity|exact Hb]|reflexivity]|reflexivity]. }
  destruct R as (bs & Hw & R).
  destruct (W_prefixed (write_vec_u8 l) l (W_vec _ Hb) Hl) as (Hw' & _). rewrite Hw' in Hw. injection Hw as <-.
  pose proof (At_start d (S (length pre)) (n + 16) Hp1) as (RW & _ & _ & Hv). cbn [data] in Hv.
  assert (Hpre : prefix (bits_of_bytes (enc_prefixed l)) (view (mkRd d (S (length pre)) [] (n + 16)))).
  { exists (bits_of_bytes suf). rewrite Hv, Hs1, <- bits_of_bytes_app. unfold enc_prefixed. rewrite <- app_assoc. reflexivity. }
  rewrite R by assumption. rewrite bits_of_bytes_length, adv_aligned; [|exact RW|reflexivity|].
  - eexists. cbn [data pos bread]. unfold unknown_status, enc_prefixed. f_equal. f_equal. f_equal.
    cbn [length]. fold k. lia.
  - apply prefix_length in Hpre. rewrite bits_of_bytes_length in Hpre. exact Hpre.
Qed.

(** Conversely, what reading the bytes of an unknown status back needs. *)
Lemma read_length_min r v r' : RWf r -> read_length r = Ok (v, r') ->
  RWf r' /\ data r' = data r /\ (BP r + 8 * length (enc_length v) <= BP r')%nat.
Proof.
  unfold read_length, bind. intros W H.
  destruct (read_uint 2 r) as [[k r1]|e|] eqn:E1; try discriminate.
  apply view_bits_bound in E1 as (L1 & -> & _ & B1); [|exact W].
  apply view_bits_bound in H as (L2 & -> & _ & B2); [|apply RWf_adv; assumption].
  change (2 ^ N.of_nat 2) with 4 in B1. rewrite N2Nat.id in B2.
  split; [apply RWf_adv; [apply RWf_adv; assumption|exact L2]|]. split; [reflexivity|].
  rewrite !BP_adv by (try apply RWf_adv; assumption). rewrite enc_length_size.
  assert (k = 0 \/ k = 1 \/ k = 2 \/ k = 3) as [->|[->|[->| ->]]] by lia.
  - change (2 ^ (6 + 0 * 8)) with (2 ^ 6) in B2. rewrite (proj2 (N.ltb_lt v (2 ^ 6)) B2). lia.
  - change (2 ^ (6 + 1 * 8)) with (2 ^ 14) in B2. rewrite (proj2 (N.ltb_lt v (2 ^ 14)) B2).
    destruct (v <? 2 ^ 6); lia.
  - change (2 ^ (6 + 2 * 8)) with (2 ^ 22) in B2. rewrite (proj2 (N.ltb_lt v (2 ^ 22)) B2).
    destruct (v <? 2 ^ 6); [lia|]. destruct (v <? 2 ^ 14); lia.
  - destruct (v <? 2 ^ 6); [lia|]. destruct (v <? 2 ^ 14); [lia|]. destruct (v <? 2 ^ 22); lia.
Qed.
Lemma unknown_back {E : Env} l r' : wf_payload l ->
  read_action (new_reader (0x62 :: enc_length (N.of_nat (length l)) ++ l)) = Ok (unknown_status l, r') ->
  e_rewind = true /\ ~ clashes (N.of_nat (length l)).
Proof.
  intros (Hb & Hl) H. set (k := N.of_nat (length l)) in *. set (d := 0x62 :: enc_length k ++ l) in *.
  rewrite (read_status_62 _ 0 (enc_length k ++ l) (At_new d) eq_refl) in H.
  cbn [new_reader data bread Nat.add] in H. destruct (enc_length_first k Hl) as (x & t & Ex & Hx & HT).
  assert (Hp1 : (1 <= length d)%nat) by (unfold d; cbn; lia).
  unfold read_itf_status_op, bind at 1 in H.
  rewrite (read_interface_type_cons d 1 16 x (t ++ l)) in H; [|exact Hp1|unfold d; cbn [skipn]; rewrite Ex; reflexivity|exact Hx].
  destruct (assoc x interface_type_tbl) as [ty|] eqn:Ha.
  - exfalso. assert (ty = ItUnknown).
    { unfold bind in H. destruct (read_length _) as [[n r2]| |]; try discriminate.
      destruct (read_interface_status _ _ _) as [[s r3]| |]; try discriminate.
      injection H as H _. unfold unknown_status in H. congruence. }
    subst ty. cbn [assoc interface_type_tbl] in Ha.
    repeat (destruct (N.eqb _ _); [discriminate|]). discriminate.
  - split; [|apply HT; reflexivity]. destruct e_rewind; [reflexivity|]. exfalso.
    unfold bind in H.
    assert (RW : RWf (mkRd d 2 [] 24)).
    { unfold RWf, d. cbn [data pos left length]. rewrite app_length, Ex. cbn [length]. lia. }
    change (16 + 8)%nat with 24%nat in H.
    destruct (read_length (mkRd d 2 [] 24)) as [[n r2]| |] eqn:E2; try discriminate.
    destruct (read_length_min _ _ _ RW E2) as (RW2 & D2 & B2).
    cbn [read_interface_status] in H. unfold bind, read_vec_u8 in H.
    destruct (N.leb_spec (8 * n) (N.of_nat (length (view r2)))) as [L|L]; [|discriminate].
    destruct (read_list (N.to_nat n) read_u8 r2) as [[v r3]| |] eqn:E3; try discriminate.
    cbn [ret] in H. injection H as H _.
    assert (v = l) by congruence. subst v.
    assert (Hn : length l = N.to_nat n).
    { clear - E3. revert r2 l r3 E3. induction (N.to_nat n) as [|m IH]; intros r2 l r3 H.
      - cbn in H. injection H as <- _. reflexivity.
      - cbn [read_list] in H. unfold bind in H. destruct (read_u8 r2) as [[y r4]| |]; try discriminate.
        destruct (read_list m read_u8 r4) as [[ys r5]| |] eqn:E5; try discriminate.
        cbn [ret] in H. injection H as <- _. cbn [length]. f_equal. eapply IH. exact E5. }
    rewrite view_length in L by exact RW2. rewrite D2 in L. cbn [data] in L.
    assert (n = k) by lia. subst n.
    assert (LD : length d = (1 + length (enc_length k) + length l)%nat) by (unfold d; cbn [length]; rewrite app_length; lia).
    rewrite LD in L. unfold BP in B2. cbn [pos left length] in B2. destruct RW2 as (Q1 & Q2 & Q3). rewrite D2 in Q1. cbn [data] in Q1. lia.
Qed.

(** ** C09 *)
Lemma parses_try_from {E : Env} b l a : parses_bytes read_action (b :: l) a -> action_try_from (b :: l) = Ok a.
Proof.
  intros H. destruct (H [] [] 0%nat) as (n' & E1). rewrite app_nil_r in E1. cbn [app length Nat.add] in E1.
  unfold action_try_from. rewrite u_try_from_eq. unfold new_reader. rewrite E1.
  destruct (read_action_counted _ 0 b l a _ (At_new (b :: l)) eq_refl E1) as (_ & _ & _ & C).
  unfold BP, new_reader in C. cbn [bread pos left length] in C |- *.
  replace n' with (S (S (length l)) * 8)%nat by lia. rewrite Nat.div_mul by lia.
  destruct (Nat.leb_spec (S (length l)) (S (S (length l)))); [reflexivity|lia].
Qed.
Lemma wf_reencodable {E : Env} a : wf_action a -> reencodable a.
Proof.
  destruct a; cbn [wf_action reencodable]; try exact (fun _ => I); try contradiction.
  destruct v as [t o [s|[it is]|f]]; try exact (fun _ => I). destruct it; try exact (fun _ => I).
  destruct is; try exact (fun _ => I). intros (_ & H). cbn in H. destruct t; contradiction.
Qed.
Lemma reencode {E : Env} d p n a r' : (p <= length d)%nat -> read_action (mkRd d p [] n) = Ok (a, r') ->
  exists l, action_to_bytes a = Ok l /\
    (reencodable a -> parses_bytes read_action l a /\ action_try_from l = Ok a) /\
    (~ reencodable a -> action_try_from l <> Ok a /\ forall r'', read_action (new_reader l) <> Ok (a, r'')).
Proof.
  intros Hp H. pose proof (At_start d p n Hp) as HA.
  destruct (skipn p d) as [|b t] eqn:Hs; [rewrite (read_action_nil _ p HA Hs) in H; discriminate|].
  destruct (read_action_parsed _ p b t a r' HA Hs H) as (_ & _ & _ & HP).
  assert (G : forall l, action_to_bytes a = Ok l -> (forall r'', read_action (new_reader l) = Ok (a, r'') -> reencodable a) ->
     ~ reencodable a -> action_try_from l <> Ok a /\ forall r'', read_action (new_reader l) <> Ok (a, r'')).
  { intros l Hl Hn Hr. assert (K : forall r'', read_action (new_reader l) <> Ok (a, r'')).
    { intros r'' Er. exact (Hr (Hn _ Er)). }
    split; [|exact K]. unfold action_try_from. rewrite u_try_from_eq.
    destruct (read_action (new_reader l)) as [[v r2]| |]; try discriminate.
    destruct (Nat.leb _ _); [|discriminate]. intros Hv. injection Hv as ->. exact (K r2 eq_refl). }
  destruct HP as [Hw|[(l & -> & Hw)|(Hf & v & -> & Hw)]].
  - exists (enc_action a). destruct (action_bytes a Hw) as (Hb & _). split; [exact Hb|].
    split; [|intros Hr; contradiction Hr; apply wf_reencodable; exact Hw].
    intros _. split; [apply action_parses; exact Hw|].
    pose proof (action_try_from_suffix a [] Hw) as T. rewrite app_nil_r in T. exact T.
  - exists (0x62 :: enc_length (N.of_nat (length l)) ++ l).
    pose proof (W_to_bytes _ _ (unknown_W l Hw)) as Hb. split; [exact Hb|]. split.
    + intros (He & Hc). pose proof (unknown_parses l Hw He Hc) as P. split; [exact P|]. apply parses_try_from. exact P.
    + apply G; [exact Hb|]. intros r'' Er. exact (unknown_back l r'' Hw Er).
  - destruct (tx_bytes v Hw) as (t' & Hb). exists (0x40 :: t'). split; [exact Hb|]. split; [contradiction|].
    apply G; [exact Hb|]. intros r'' Er. rewrite read_nop_byte in Er. discriminate.
Qed.

(** ** Every TxStatus, in whatever state *)
Lemma tx_first_byte {E : Env} v l : action_to_bytes (ATxStatus v) = Ok l -> exists t, l = 0x40 :: t.
Proof.
  unfold action_to_bytes, to_bytes. cbn [write_action]. unfold write_tx_status_op. intros H.
  unfold wseq at 1 2, write_uint at 1, write_pad in H. cbn [rbind] in H.
  destruct (write_opcode (action_opcode (ATxStatus v)) +++ write_u8 (txo_itf_id v)
            +++ write_length_prefixed (write_interface_tx_status (txo_status v))) as [x| |]; try discriminate.
  cbn [rbind] in H. injection H as <-. exists (bytes_of_bits x). apply (bytes_of_bits_8 0x40). reflexivity.
Qed.
Lemma tx_never {E : Env} v l : action_to_bytes (ATxStatus v) = Ok l ->
  (exists t, l = 0x40 :: t) /\
  (exists r, read_action (new_reader l) = Ok (ANop (mkNop (mkHeader false true) 0), r)) /\
  action_try_from l = (if Nat.leb (length l) 2 then Ok (ANop (mkNop (mkHeader false true) 0)) else Err ETooMuchData).
Proof.
  intros H. destruct (tx_first_byte v l H) as (t & ->). split; [eauto|]. rewrite read_nop_byte. split; [eauto|].
  unfold action_try_from. rewrite u_try_from_eq, read_nop_byte. reflexivity.
Qed.
Lemma reencode_refuted {E : Env} : ~ (forall d a r, read_action (new_reader d) = Ok (a, r) ->
  exists l, action_to_bytes a = Ok l /\ action_try_from l = Ok a).
Proof.
  intros H. assert (P : exists r, read_action (new_reader [0x62; 0x40; 2; 7; 8]) = Ok (unknown_status [7; 8], r)).
  { rewrite (read_status_62 _ 0 [0x40; 2; 7; 8] (At_new _) eq_refl).
    unfold read_itf_status_op, bind at 1. change (bread (new_reader [0x62; 0x40; 2; 7; 8]%N) + 16)%nat with 16%nat.
    rewrite (read_interface_type_cons _ 1 16 0x40 [2; 7; 8]) by (reflexivity || (cbn; lia)).
    cbn [assoc interface_type_tbl N.eqb]. destruct e_rewind; eexists; reflexivity. }
  destruct P as (r & P). destruct (H _ _ _ P) as (l & H1 & H2).
  pose proof (W_to_bytes _ _ (unknown_W [7; 8] ltac:(split; [repeat constructor|reflexivity]))) as H3.
  unfold action_to_bytes in H1. rewrite H3 in H1. injection H1 as <-.
  unfold action_try_from in H2. rewrite u_try_from_eq in H2.
  change (98 :: enc_length (N.of_nat (length [7; 8])) ++ [7; 8]) with [98; 2; 7; 8] in H2.
  destruct (read_action (new_reader [98; 2; 7; 8])) as [[x r']| |] eqn:Er; try discriminate.
  destruct (length [98%N; 2%N; 7%N; 8%N] <=? bread r' / 8)%nat; [|discriminate]. injection H2 as ->.
  destruct (unknown_back [7; 8] r' ltac:(split; [repeat constructor|reflexivity]) Er) as (_ & G).
  apply G. left. reflexivity.
Qed.
