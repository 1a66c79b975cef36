(** Proofs about the accessors of a command. *)
From Coq Require Import List NArith ZArith Bool Lia String.
From Verif Require Import Base Deku Utils Types Physical Link Network Session Data Query
  Interface File Operation Action Command Display SpecAccess.
Import ListNotations.
Open Scope list_scope.

Lemma first_iff {B} (sel : action -> option B) (f : command -> option B) :
  f [] = None -> (forall a c, f (a :: c) = match sel a with Some b => Some b | None => f c end) ->
  forall c x, f c = x <-> first_is sel c x.
Proof.
  intros H0 H1. assert (G : forall c, first_is sel c (f c)).
  { induction c as [|a c IH]; [rewrite H0; intros a []|]. rewrite H1. destruct (sel a) as [b|] eqn:Hs.
    - exists [], a, c. split; [reflexivity|]. split; [exact Hs|]. intros a' [].
    - destruct (f c) as [b|] eqn:Hf.
      + destruct IH as (pre & a1 & post & -> & Ha & Hp). exists (a :: pre), a1, post.
        split; [reflexivity|]. split; [exact Ha|]. intros a' [<-|Hi]; [exact Hs|apply Hp, Hi].
      + intros a' [<-|Hi]; [exact Hs|apply IH, Hi]. }
  assert (U : forall c x y, first_is sel c x -> first_is sel c y -> x = y).
  { assert (K : forall c b1 b2, first_is sel c (Some b1) -> first_is sel c (Some b2) -> b1 = b2).
    { induction c as [|a c IH]; intros b1 b2 (p1 & a1 & q1 & E1 & S1 & P1) (p2 & a2 & q2 & E2 & S2 & P2).
      - destruct p1; discriminate.
      - destruct p1 as [|z1 p1], p2 as [|z2 p2]; cbn [app] in E1, E2.
        + congruence.
        + assert (Ez : z2 = a1) by congruence. rewrite (P2 a1 (or_introl Ez)) in S1. discriminate.
        + assert (Ez : z1 = a2) by congruence. rewrite (P1 a2 (or_introl Ez)) in S2. discriminate.
        + apply IH.
          * exists p1, a1, q1. split; [congruence|]. split; [exact S1|]. intros a' Hi. apply P1. right. exact Hi.
          * exists p2, a2, q2. split; [congruence|]. split; [exact S2|]. intros a' Hi. apply P2. right. exact Hi. }
    intros c [b1|] [b2|] X Y.
    - f_equal. eapply K; eassumption.
    - destruct X as (p & a & q & -> & S & _). rewrite (Y a) in S by (apply in_elt). discriminate.
    - destruct Y as (p & a & q & -> & S & _). rewrite (X a) in S by (apply in_elt). discriminate.
    - reflexivity. }
  intros c x. split; [intros <-; apply G|]. intros H. eapply U; [apply G|exact H].
Qed.

Lemma request_first c x : request_tag_of c = x <-> first_is request_of c x.
Proof. apply first_iff; [reflexivity|]. intros [] ?; reflexivity. Qed.
Lemma response_first c x : response_tag_of c = x <-> first_is response_of c x.
Proof. apply first_iff; [reflexivity|]. intros [] ?; reflexivity. Qed.
Lemma status_first c x : interface_status_of c = x <-> first_is status_of c x.
Proof.
  apply first_iff; [reflexivity|]. intros [] ?; try reflexivity. destruct v as [t o [s|[it is]|s]]; reflexivity.
Qed.
Lemma last_response c : is_last_response c = match response_tag_of c with Some t => rt_eop t | None => false end.
Proof. induction c as [|[] c IH]; try exact IH; reflexivity. Qed.

Lemma tags c q p : first_is request_of c q -> first_is response_of c p ->
  request_tag_of c = q /\ response_tag_of c = p /\
  request_id c = option_map rq_id q /\ response_id c = option_map rt_id p /\
  tag_id c = match q, p with Some t, _ => Some (rq_id t) | None, Some t => Some (rt_id t) | None, None => None end /\
  is_last_response c = match p with Some t => rt_eop t | None => false end.
Proof.
  intros Hq Hp. apply request_first in Hq. apply response_first in Hp.
  rewrite last_response. unfold tag_id, request_id, response_id. rewrite Hq, Hp.
  repeat split; destruct q, p; reflexivity.
Qed.
Lemma tags_exist c : exists q p, first_is request_of c q /\ first_is response_of c p.
Proof. exists (request_tag_of c), (response_tag_of c). split; [apply request_first|apply response_first]; reflexivity. Qed.
Lemma without_status c : actions_without_interface_status c
  = filter (fun a => match status_of a with None => true | Some _ => false end) c.
Proof.
  induction c as [|a c IH]; [reflexivity|]. cbn [actions_without_interface_status filter].
  destruct a; cbn [status_of]; rewrite IH; try reflexivity. destruct v as [t o [s|[it is]|s]]; reflexivity.
Qed.

Lemma str_app_nil (s : string) : (s ++ "" = s)%string.
Proof. induction s as [|a s IH]; [reflexivity|]. cbn. rewrite IH. reflexivity. Qed.
Lemma str_app_assoc (s t u : string) : ((s ++ t) ++ u = s ++ (t ++ u))%string.
Proof. induction s as [|a s IH]; [reflexivity|]. cbn. rewrite IH. reflexivity. Qed.
Lemma concat_lines g l : String.concat "" (map (fun a => (tab ++ tab ++ dbg_action g a ++ nl)%string) l) = action_lines g l.
Proof.
  induction l as [|a l IH]; [reflexivity|]. destruct l as [|b l].
  - cbn [map String.concat action_lines]. unfold action_line. rewrite str_app_nil. reflexivity.
  - change (String.concat "" (map (fun a => (tab ++ tab ++ dbg_action g a ++ nl)%string) (a :: b :: l)))
      with ((tab ++ tab ++ dbg_action g a ++ nl) ++ "" ++
        String.concat "" (map (fun a => (tab ++ tab ++ dbg_action g a ++ nl)%string) (b :: l)))%string.
    rewrite IH. reflexivity.
Qed.
Lemma show g c q p s : first_is request_of c q -> first_is response_of c p -> first_is status_of c s ->
  show_command g c = printed g (match q, p with Some t, _ => Some (rq_id t) | None, Some t => Some (rt_id t) | None, None => None end)
    p (filter (fun a => match status_of a with None => true | Some _ => false end) c) s.
Proof.
  intros Hq Hp Hs. destruct (tags c q p Hq Hp) as (_ & Hr & _ & _ & Ht & _). apply status_first in Hs.
  unfold show_command, printed, command_status. rewrite Ht, Hr, Hs, without_status, concat_lines.
  set (l := filter _ c).
  assert (C : match p with
    | Some t => if rt_eop t then if rt_error t then "completed, with error"%string else "completed, without error"%string
                else "executing"%string
    | None => "executing"%string end = completion p).
  { destruct p as [t|]; [|reflexivity]. unfold completion. destruct (rt_eop t), (rt_error t); reflexivity. }
  rewrite C. destruct l as [|a l]; [destruct s; reflexivity|].
  cbn [List.length Nat.ltb Nat.leb]. destruct s; rewrite ?str_app_nil, ?str_app_assoc; reflexivity.
Qed.
