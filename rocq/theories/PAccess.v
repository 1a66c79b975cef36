(** C17, C18, C47: accessors and printing of a command. *)
From Coq Require Import List NArith ZArith Bool String.
From Verif Require Import Base Deku Utils Types Physical Link Network Session Data Query Interface File
  Operation Action Command Display SpecAccess Samples LAccess.
Import ListNotations.
Open Scope list_scope.

(** C17. *)
Theorem C17_tags : forall c q p, first_is request_of c q -> first_is response_of c p ->
  request_tag_of c = q /\ response_tag_of c = p /\
  request_id c = option_map rq_id q /\ response_id c = option_map rt_id p /\
  tag_id c = match q, p with Some t, _ => Some (rq_id t) | None, Some t => Some (rt_id t) | None, None => None end /\
  is_last_response c = match p with Some t => rt_eop t | None => false end.
Proof. exact tags. Qed.
Print Assumptions C17_tags.

Theorem C17_tags_exist : forall c, exists q p, first_is request_of c q /\ first_is response_of c p.
Proof. exact tags_exist. Qed.
Print Assumptions C17_tags_exist.

(** The second response tag is not looked at. *)
Example C17_example :
  let c := [sample_nop; AResponseTag (mkResponseTag false true 35 5); AResponseTag (mkResponseTag true true 35 6)] in
  first_is request_of c None /\ first_is response_of c (Some (mkResponseTag false true 35 5)) /\
  tag_id c = Some 5%N /\ is_last_response c = false.
Proof.
  split; [intros a [<-|[<-|[<-|[]]]]; reflexivity|]. split; [|split; reflexivity].
  exists [sample_nop], (AResponseTag (mkResponseTag false true 35 5)), [AResponseTag (mkResponseTag true true 35 6)].
  split; [reflexivity|]. split; [reflexivity|]. intros a [<-|[]]. reflexivity.
Qed.

(** C18. *)
Theorem C18_first_status : forall c x, interface_status_of c = x <-> first_is status_of c x.
Proof. exact status_first. Qed.
Print Assumptions C18_first_status.

Theorem C18_other_actions : forall c, actions_without_interface_status c
  = filter (fun a => match status_of a with None => true | Some _ => false end) c.
Proof. exact without_status. Qed.
Print Assumptions C18_other_actions.

Example C18_example :
  interface_status_of [sample_tag; sample_unknown [7]; sample_nop; sample_unknown [8]] = Some (IsOther [7%N]) /\
  actions_without_interface_status [sample_tag; sample_unknown [7]; sample_nop; sample_unknown [8]] = [sample_tag; sample_nop].
Proof. split; reflexivity. Qed.

(** C47. *)
Theorem C47_display : forall g c q p s,
  first_is request_of c q -> first_is response_of c p -> first_is status_of c s ->
  show_command g c = printed g
    (match q, p with Some t, _ => Some (rq_id t) | None, Some t => Some (rt_id t) | None, None => None end)
    p (filter (fun a => match status_of a with None => true | Some _ => false end) c) s.
Proof. exact show. Qed.
Print Assumptions C47_display.

Example C47_example : forall g,
  show_command g [sample_tag; AResponseTag (mkResponseTag true false 35 5)] =
  ("Command with tag 7 (completed, without error)" ++ nl ++ tab ++ "actions:" ++ nl
   ++ action_line g sample_tag ++ action_line g (AResponseTag (mkResponseTag true false 35 5)))%string.
Proof.
  intros g. rewrite (show g _ (Some (mkRequestTag true 52 7)) (Some (mkResponseTag true false 35 5)) None);
    [|apply request_first; reflexivity|apply response_first; reflexivity|apply status_first; reflexivity].
  unfold printed. cbn [filter status_of sample_tag action_lines]. rewrite str_app_nil. reflexivity.
Qed.
