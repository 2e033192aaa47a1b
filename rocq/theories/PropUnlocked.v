(** * Property C145: callbacks that send commands without a lock *)
From Coq Require Import String List NArith ZArith Bool Lia PeanoNat Sorted.
From Verif Require Import PyStr Tags Messages SpecMsg SpecTag SpecProto MessageThms3 Protocol IO Client SpecItem Items Lighting SpecLight ItemThms LightThms2
  SpecHouse HouseThms HouseThms2 PropHouse Dispatch SpecDispatch DispatchThms DispatchThms2 DispatchThms3 SpecNotice NoticeThms PropNotice SpecMirror MirrorThms
  Reflex SpecReflex ReflexThms ReflexThms2 ReflexThms3 ReflexThms4 ReflexThms5 PropReflex Unlocked SpecUnlocked UnlockedThms.
Import ListNotations.
Open Scope nat_scope.
Open Scope list_scope.

(** At any moment: the calls make one history of the house; the loop has read a
    beginning of its events and started the callbacks of each; each callback has
    made a beginning of its own answer, in its order.  When nothing is left to be
    done, every event was read and every answer given. *)
Theorem C145_each : forall gw v r body h ls u, gateway_ok gw -> house_ok h -> (v < 13)%N -> uruns gw v r body (calm_house h) ls u ->
  exists log pre post tss, let st := listener v r (u_acts u) in
    story gw h (map snd (u_by u)) log (u_evs u) (u_house u) /\ of_others (u_by u) = pressed ls /\
    u_evs u = pre ++ post /\ st_started st = concat tss /\ Forall2 (noticed (st_items st) r) pre tss /\
    (forall n, length (st_started st) <= n -> calls_of n (u_by u) = []) /\
    (forall n t, nth_error (st_started st) n = Some t -> exists rest, answer body (st_items st) t = calls_of n (u_by u) ++ rest /\ (all_done v r u -> rest = [])) /\
    (all_done v r u -> post = []).
Proof. exact each. Qed.
Print Assumptions C145_each.

(** With weights that get less along every chain, the calls are bounded and one
    comes to a state in which nothing is left to be done. *)
Theorem C145_rest : forall gw v r body h ls u wt wc, gateway_ok gw -> house_ok h -> (v < 13)%N -> uruns gw v r body (calm_house h) ls u ->
  weighs_calls gw h wt wc -> weighs_events r body wt wc -> (forall f k args, Forall call_ok (body f k args)) ->
  length (u_by u) <= sum wc (pressed ls) /\ usurely gw v r body (fun u' => all_done v r u') u.
Proof. intros. split; [eapply u_bounded; eassumption|eapply u_rests; eassumption]. Qed.
Print Assumptions C145_rest.

Example C145_rest_ex : exists wt wc, weighs_calls gw0 house0 wt wc /\ weighs_events reg1 (follow (lit "11") item12) wt wc /\
  (forall f k args, Forall call_ok (follow (lit "11") item12 f k args)).
Proof.
  eexists _, _. split; [exact (follow_calls gw0 house0 (lit "11") item12 (length (reg1 (K_light STATUS_CHANGE))) gw0_ok eq_refl)|].
  split; [apply follow_events|]. apply follow_ok. exact switch12_ok.
Qed.

(** A lamp that follows another one (C143_follows) may end up on while that one is
    off: the callback of the first event makes its call after the callback of the
    second one. *)
Ltac utidy := match goal with |- uruns _ _ _ _ ?w _ _ => let w' := eval vm_compute in w in change w with w' end.
Ltac upress o := eapply uruns_cons; [eapply U_press; does_tac o|]; utidy.
Ltac upacket f fs := eapply uruns_cons; [eapply (U_packet _ _ _ _ _ f fs); vm_compute; reflexivity|]; utidy.
Ltac uwake := eapply uruns_cons; [eapply U_wake; vm_compute; reflexivity|]; utidy.
Ltac userve n o := eapply uruns_cons; [eapply (U_serve _ _ _ _ _ n); [vm_compute; reflexivity|does_tac o]|]; utidy.

Theorem C145_follows_refuted : exists gw r h a it f ls u pa pb, gateway_ok gw /\ house_ok h /\ distinct h /\
  uruns gw 12 r (follow a it) (calm_house h) ls u /\ all_done 12 r u /\
  In f (r (K_light STATUS_CHANGE)) /\ (forall g, In g (r (K_light STATUS_CHANGE)) -> cb_takes g 2 = true) /\
  (forall st, SpecHouse.react gw LIGHTING [49%N] st = [49%N]) /\ (forall st, SpecHouse.react gw LIGHTING [48%N] st = [48%N]) /\
  In pa (u_house u) /\ place pa = (LIGHTING, a) /\ In pb (u_house u) /\ aimed gw LIGHTING (it_where it) pb = true /\
  Forall (fun c => forall o, stands_for c o -> at_whom gw o pb = true -> sets o = false) (pressed ls) /\
  p_state pa = [48%N] /\ p_state pb = [49%N] /\
  (forall pb0, In pb0 h -> place pb0 = place pb -> p_state pb0 <> p_state pb).
Proof.
  eexists gw0, reg1, house0, (lit "11"), item12, (hears 1), [Pressed on11; Pressed off11; Act; Act; Act; Act; Act; Act], _, _, _.
  split; [exact gw0_ok|]. split; [exact house0_ok|].
  split. { unfold distinct, house0. cbn. repeat constructor; cbn; intuition discriminate. }
  split. { upress (order1 "1" "11"). upress (order1 "0" "11"). upacket (lit "*1*1*11##") [lit "*1*0*11##"]. uwake.
    userve 1 (order1 "0" "12"). userve 0 (order1 "1" "12"). upacket (lit "*1*0*12##") [lit "*1*1*12##"]. uwake. apply UR_nil. }
  split. { split; [vm_compute; reflexivity|]. split; [vm_compute; reflexivity|]. repeat (apply Forall_cons; [vm_compute; reflexivity|]). apply Forall_nil. }
  split; [left; reflexivity|]. split; [intros g [<-|[]]; reflexivity|]. split; [intros st; reflexivity|]. split; [intros st; reflexivity|].
  split; [left; reflexivity|]. split; [reflexivity|]. split; [right; left; reflexivity|]. split; [reflexivity|].
  split. { assert (X : forall on o, stands_for (switch item11 on) o -> forall p, place p = (LIGHTING, lit "12") -> at_whom gw0 o p = true -> sets o = false).
    { intros on o S p P A. apply switch_order in S as ->. exfalso. cbn [at_whom] in A. rewrite (aimed_place gw0 _ _ p lamp12 P) in A. discriminate. }
    apply Forall_cons; [intros o S; apply (X true o S); reflexivity|]. apply Forall_cons; [intros o S; apply (X false o S); reflexivity|]. apply Forall_nil. }
  split; [reflexivity|]. split; [reflexivity|].
  intros p [<-|[<-|[<-|[]]]]; intros P; try discriminate P; discriminate.
Qed.
Print Assumptions C145_follows_refuted.

(** If the callbacks happened to make their calls in the order in which they were
    started, the follower is as the lamp it follows (what C143_follows says
    without this condition, for callbacks that use the lock). *)
Theorem C145_follows_partial : forall gw v r h ls u a it f pa pb, gateway_ok gw -> house_ok h -> distinct h -> (v < 13)%N ->
  uruns gw v r (follow a it) (calm_house h) ls u -> all_done v r u -> in_order (u_by u) ->
  In f (r (K_light STATUS_CHANGE)) -> (forall g, In g (r (K_light STATUS_CHANGE)) -> cb_takes g 2 = true) ->
  (forall st, SpecHouse.react gw LIGHTING [49%N] st = [49%N]) -> (forall st, SpecHouse.react gw LIGHTING [48%N] st = [48%N]) ->
  In pa (u_house u) -> place pa = (LIGHTING, a) -> In pb (u_house u) -> aimed gw LIGHTING (it_where it) pb = true ->
  Forall (fun c => forall o, stands_for c o -> at_whom gw o pb = true -> sets o = false) (pressed ls) ->
  p_state pb = (if str_eqb (p_state pa) [49%N] then [49%N] else [48%N]) \/
  (exists pa0 pb0, In pa0 h /\ place pa0 = place pa /\ p_state pa0 = p_state pa /\ In pb0 h /\ place pb0 = place pb /\ p_state pb0 = p_state pb).
Proof. exact u_follows. Qed.
Print Assumptions C145_follows_partial.

Example C145_ex : exists ls u, uruns gw0 12 reg1 (follow (lit "11") item12) (calm_house house0) ls u /\ pressed ls = [on11; off11] /\
  all_done 12 reg1 u /\ in_order (u_by u) /\ map fst (u_by u) = [None; Some 0; None; Some 2] /\ map p_state (u_house u) = [lit "0"; lit "0"; lit "0"].
Proof.
  eexists [Pressed on11; Act; Act; Act; Pressed off11; Act; Act; Act; Act; Act], _.
  split. { upress (order1 "1" "11"). upacket (lit "*1*1*11##") (@nil (list N)). uwake. userve 0 (order1 "1" "12"). upress (order1 "0" "11").
    upacket (lit "*1*1*12##") [lit "*1*0*11##"]. uwake. userve 2 (order1 "0" "12"). upacket (lit "*1*0*12##") (@nil (list N)). uwake. apply UR_nil. }
  split; [reflexivity|].
  split. { split; [vm_compute; reflexivity|]. split; [vm_compute; reflexivity|]. repeat (apply Forall_cons; [vm_compute; reflexivity|]). apply Forall_nil. }
  split. { unfold in_order. cbn. repeat constructor. }
  split; reflexivity.
Qed.
