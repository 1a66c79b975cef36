(** C72: how a VarInt is rounded. *)
From Coq Require Import List NArith Bool.
From Verif Require Import Base Deku Types SpecLayout SpecApi SpecRounding LRounding.
Import ListNotations.
Open Scope N_scope.

(** In range, exactly one number arrives. *)
Theorem C72_one_arrives : forall v up, v <= 507904 ->
  exists r, arrives v up r /\ exact_value r /\ forall r', arrives v up r' -> r' = r.
Proof. exact one_arrives. Qed.
Print Assumptions C72_one_arrives.

(** Rounding up gives the least number that can be sent and is not below, and keeps the order. *)
Theorem C72_up_best : forall v r, arrives v true r -> v <= r /\ forall x, exact_value x -> v <= x -> r <= x.
Proof. exact up_best. Qed.
Print Assumptions C72_up_best.
Theorem C72_up_monotone : forall v w r s, arrives v true r -> arrives w true s -> v <= w -> r <= s.
Proof. exact up_monotone. Qed.
Print Assumptions C72_up_monotone.

(** Rounding down never gives more, *)
Theorem C72_down_below : forall v r, arrives v false r -> r <= v.
Proof. exact down_below. Qed.
Print Assumptions C72_down_below.

(** but not always the greatest number that can be sent, *)
Theorem C72_down_best_refuted : ~ (forall v r x, arrives v false r -> exact_value x -> x <= v -> x <= r).
Proof. exact down_refuted. Qed.
Print Assumptions C72_down_best_refuted.

(** namely not in the gaps between 31 and 32 times a power of four, where 28 times that power
    arrives; *)
Theorem C72_down_exact : forall v r, arrives v false r ->
  ((forall x, exact_value x -> x <= v -> x <= r) <-> forall k, ~ in_gap k v) /\
  (forall k, in_gap k v -> r = 28 * 4 ^ k).
Proof. exact down_exact. Qed.
Print Assumptions C72_down_exact.

(** and a greater number may arrive as a smaller one: *)
Theorem C72_down_monotone_refuted :
  ~ (forall v w r s, arrives v false r -> arrives w false s -> v <= w -> r <= s).
Proof. exact down_monotone_refuted. Qed.
Print Assumptions C72_down_monotone_refuted.

(** exactly if it is in a gap and the smaller one between 29 and 31 times the same power. *)
Theorem C72_down_order : forall v w r s, arrives v false r -> arrives w false s -> v <= w ->
  (s < r <-> exists k, in_gap k w /\ 29 * 4 ^ k <= v <= 31 * 4 ^ k).
Proof. exact down_order. Qed.
Print Assumptions C72_down_order.

(** 125 and 127 arrive as 112 although 124 could be sent, and 124 does arrive as 124. *)
Example C72_example :
  arrives 124 false 124 /\ arrives 125 false 112 /\ arrives 127 false 112 /\ arrives 128 false 128 /\
  arrives 125 true 128 /\ arrives 507904 false 507904 /\ in_gap 1 125 /\ exact_value 124 /\ ~ in_gap 1 128.
Proof.
  repeat split; try (eexists; split; [reflexivity|vm_compute; reflexivity]); try discriminate.
  - exists 1, 31. repeat split; discriminate.
  - intros [_ [_ H]]. vm_compute in H. discriminate.
Qed.
