(** Lemmas for C57 where deku does not put the id of an unknown interface back. *)
From Coq Require Import List NArith ZArith Bool Lia ZifyBool ZifyNat ZifyN Arith.
From Verif Require Import Base Deku Utils Types Physical Link Network Session Data Query
  Interface File Operation Action Command WellFormed SpecLayout SpecApi SpecAction SpecDecode SpecFail SpecGrow SpecExact SpecUnknown
  Position LBits LReader LNumbers LDecode LCanon LActionApi LCommandApi LLayout LFail LWrite LSize LDecodeLoop LPosition
  LGrow LExact.
Import ListNotations.
Open Scope N_scope.

Lemma itf_status_more {E : Env} l v rest : e_rewind = false -> bytes l -> dec_itf_status l = Some (v, rest) ->
  iso_type v = ItUnknown ->
  (1 + prefixed_size (itf_status_size (iso_status v)) + length rest <= length l)%nat.
Proof.
  intros R H G T. unfold dec_itf_status in G. cbv beta in G. apply then_inv in G as (i & l1 & Q & G).
  destruct (min_one _ _ _ H Q) as (B1 & L1). cbv beta in L1. unfold prefixed_size.
  repeat match type of G with (if ?c then _ else _) _ = _ => destruct c end.
  - repeat (apply then_inv in G as (? & ? & _ & G)). injection G as <- _. discriminate T.
  - repeat (apply then_inv in G as (? & ? & _ & G)). injection G as <- _. discriminate T.
  - repeat (apply then_inv in G as (? & ? & _ & G)). injection G as <- _. discriminate T.
  - discriminate G.
  - rewrite R in G. apply then_inv in G as (n & m1 & K1 & K). apply then_inv in K as (p & m2 & K2 & K). injection K as <- <-.
    destruct (take_length _ _ _ B1 K1) as (C1 & C2 & C3). apply take_some in K2 as (D1 & D2 & D3 & D4); [|exact C1].
    cbn [iso_type iso_status itf_type_size itf_status_size]. rewrite (size_same _ n D3 C3). lia.
Qed.

Ltac opened G := repeat first
  [ progress (apply then_inv in G as (? & ? & _ & G))
  | match type of G with (if ?c then _ else _) _ = _ => destruct c end
  | match type of G with (match ?c with _ => _ end) _ = _ => destruct c end ].
Lemma operand_more {E : Env} op l a rest : e_rewind = false -> bytes l -> dec_operand op l = Some (a, rest) ->
  of_unknown a = true -> (size_of a + 1 + length rest <= length l)%nat.
Proof.
  intros R H G U. unfold dec_operand in G.
  repeat match type of G with (match ?x with _ => _ end) _ = _ => is_var x; destruct x end; try discriminate G.
  all: unfold dec_nop, dec_file_id_op, dec_file_properties, dec_action_query, dec_file_data in G.
  all: try solve [exfalso; opened G; try discriminate G; injection G as <- _; discriminate U].
  apply then_inv in G as (x & l1 & Q & G). apply min_one in Q as (Q1 & Q2); [|exact H]. cbv beta in Q2.
  apply then_inv in G as (t & l2 & Q & G). apply min_named in Q as (Q3 & Q4); [|exact Q1]. cbv beta in Q4.
  apply then_inv in G as (s & l3 & Q & G). injection G as <- <-. unfold dec_status in Q.
  cbn [of_unknown so_status] in U. destruct s as [?|i|?]; try discriminate U.
  repeat match type of Q with (if ?c then _ else _) _ = _ => destruct c end.
  - repeat (apply then_inv in Q as (? & ? & _ & Q)). discriminate Q.
  - apply then_inv in Q as (j & l4 & Q5 & Q). injection Q as <- <-.
    assert (T : iso_type j = ItUnknown) by (destruct (iso_type j); congruence).
    pose proof (itf_status_more _ _ _ R Q3 Q5 T). unfold size_of. cbn [so_status]. rewrite T. cbn [itf_type_size]. lia.
  - destruct e_feat; try discriminate Q; repeat (apply then_inv in Q as (? & ? & _ & Q)); discriminate Q.
  - discriminate Q.
Qed.
