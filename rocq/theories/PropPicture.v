(** * Property C147: what callbacks that send commands are told of the house *)
From Coq Require Import String List NArith ZArith Bool Lia PeanoNat.
From Verif Require Import PyStr Tags Messages SpecMsg SpecTag SpecProto MessageThms3 Protocol IO Client SpecItem Items Lighting SpecLight ItemThms LightThms2
  SpecHouse HouseThms HouseThms2 PropHouse Dispatch SpecDispatch DispatchThms DispatchThms2 DispatchThms3 SpecNotice NoticeThms PropNotice SpecMirror MirrorThms
  Reflex SpecReflex ReflexThms ReflexThms2 ReflexThms3 ReflexThms4 ReflexThms5 PropReflex Failing SpecFailing FailingThms PropFailing Unlocked SpecUnlocked UnlockedThms
  SpecRules RulesThms RulesThms2 RulesThms3 PropRules SpecPicture PictureThms.
Import ListNotations.
Open Scope nat_scope.
Open Scope list_scope.

(** At any moment, what a callback was told last about a point is the state the
    point had after some of the calls; when nothing is left to be done, it is the
    state of the point.  Whatever the callbacks do. *)
Theorem C147_lock : forall gw v r body h ls w, gateway_ok gw -> house_ok h -> distinct h -> (v < 13)%N -> wruns gw v r body (quiet_house h) ls w ->
  past_picture gw (listener v r (w_acts w)) r h (map snd (w_by w)) /\ (at_rest v r w -> right_picture (listener v r (w_acts w)) r h (w_house w)).
Proof. exact picture. Qed.
Print Assumptions C147_lock.

(** The same when callbacks stop at the first command that fails. *)
Theorem C147_failing : forall gw v r body h ls w es, gateway_ok gw -> house_ok h -> distinct h -> (v < 13)%N -> fruns gw v r body (quiet_house h, []) ls (w, es) ->
  past_picture gw (listener v r (w_acts w)) r h (map snd (w_by w)) /\ (at_rest v r w -> right_picture (listener v r (w_acts w)) r h (w_house w)).
Proof. exact failing_picture. Qed.
Print Assumptions C147_failing.

(** The same without a lock: the commands may overtake each other, what is told of
    them does not. *)
Theorem C147_unlocked : forall gw v r body h ls u, gateway_ok gw -> house_ok h -> distinct h -> (v < 13)%N -> uruns gw v r body (calm_house h) ls u ->
  past_picture gw (listener v r (u_acts u)) r h (map snd (u_by u)) /\ (all_done v r u -> right_picture (listener v r (u_acts u)) r h (u_house u)).
Proof. exact unlocked_picture. Qed.
Print Assumptions C147_unlocked.

(** With weights that get less along every chain, whatever the schedule one comes
    to a state in which the callbacks were told the truth about every point. *)
Theorem C147_surely : forall gw v r body h ls w wt wc, gateway_ok gw -> house_ok h -> distinct h -> (v < 13)%N -> wruns gw v r body (quiet_house h) ls w ->
  weighs_calls gw h wt wc -> weighs_events r body wt wc -> (forall f k args, Forall call_ok (body f k args)) ->
  surely gw v r body (fun w' => at_rest v r w' /\ right_picture (listener v r (w_acts w')) r h (w_house w')) w.
Proof.
  intros gw v r body h ls w wt wc G H D Hv R Wc We Ok. eapply surely_run; [|exact R|eapply comes_to_rest; eassumption].
  intros ls' w' R' Re. split; [exact Re|]. apply (picture gw v r body h ls' w' G H D Hv R'), Re.
Qed.
Print Assumptions C147_surely.

Theorem C147_failing_surely : forall gw v r body h ls w es wt wc, gateway_ok gw -> house_ok h -> distinct h -> (v < 13)%N -> fruns gw v r body (quiet_house h, []) ls (w, es) ->
  weighs_calls gw h wt wc -> weighs_events r body wt wc -> (forall f k args, Forall call_ok (body f k args)) ->
  fsurely gw v r body (fun y => at_rest v r (fst y) /\ right_picture (listener v r (w_acts (fst y))) r h (w_house (fst y))) w es.
Proof.
  intros gw v r body h ls w es wt wc G H D Hv R Wc We Ok. eapply fsurely_run; [|exact R|eapply failing_rests; eassumption].
  intros ls' w' es' R' Re. split; [exact Re|]. apply (failing_picture gw v r body h ls' w' es' G H D Hv R'), Re.
Qed.
Print Assumptions C147_failing_surely.

Theorem C147_unlocked_surely : forall gw v r body h ls u wt wc, gateway_ok gw -> house_ok h -> distinct h -> (v < 13)%N -> uruns gw v r body (calm_house h) ls u ->
  weighs_calls gw h wt wc -> weighs_events r body wt wc -> (forall f k args, Forall call_ok (body f k args)) ->
  usurely gw v r body (fun u' => all_done v r u' /\ right_picture (listener v r (u_acts u')) r h (u_house u')) u.
Proof.
  intros gw v r body h ls u wt wc G H D Hv R Wc We Ok. eapply usurely_run; [|exact R|eapply u_rests; eassumption].
  intros ls' u' R' Re. split; [exact Re|]. apply (unlocked_picture gw v r body h ls' u' G H D Hv R'), Re.
Qed.
Print Assumptions C147_unlocked_surely.

(** Lamp 12 follows lamp 11 and lamp 13 follows lamp 12; lamp 11 is switched on.
    In the end the callback was told of all three that they are on. *)
Example C147_ex : (exists wt wc, weighs_calls gw0 house3 wt wc /\ weighs_events reg1 (by_rules chain3) wt wc /\ (forall f k args, Forall call_ok (by_rules chain3 f k args))) /\
  exists ls w, wruns gw0 12 reg1 (by_rules chain3) (quiet_house house3) ls w /\ at_rest 12 reg1 w /\
    let st := listener 12 reg1 (w_acts w) in
    st_items st = map place house3 /\ map (fun i => last_told 1 i (st_started st)) [0; 1; 2] = [Some [VBool true]; Some [VBool true]; Some [VBool true]] /\
    Forall (fun p => announces p (K_light STATUS_CHANGE) [VBool true]) (w_house w).
Proof.
  split.
  { eexists _, _. split; [apply cost_calls; exact gw0_ok|]. split; [exact (rules_events gw0 reg1 house3 chain3 rank3 chain3_ranked)|].
    apply rules_ok. intros a it on [E|[E|[]]]; injection E as <- <-; [apply switch12_ok|apply switch13_ok]. }
  eexists (Pressed on11 :: repeat Act 17). eexists. split.
  { cbn [repeat]. press_ (order1 "1" "11"). packet_ (lit "*1*1*11##") (@nil (list N)). wake_. run_. serve_ (order1 "1" "12"). finish_. run_.
    packet_ (lit "*1*1*12##") (@nil (list N)). wake_. run_. serve_ (order1 "1" "13"). finish_. run_.
    packet_ (lit "*1*1*13##") (@nil (list N)). wake_. run_. finish_. run_. apply WR_nil. }
  split; [repeat split; vm_compute; reflexivity|]. split; [vm_compute; reflexivity|]. split; [vm_compute; reflexivity|].
  repeat (apply Forall_cons; [constructor; reflexivity|]). apply Forall_nil.
Qed.
