(** * Property C146: rules between lamps *)
From Coq Require Import String List NArith ZArith Bool Lia PeanoNat.
From Verif Require Import PyStr Tags Messages SpecMsg SpecTag SpecProto MessageThms3 Protocol IO Client SpecItem Items Lighting SpecLight ItemThms LightThms2
  SpecHouse HouseThms HouseThms2 PropHouse Dispatch SpecDispatch DispatchThms DispatchThms2 DispatchThms3 SpecNotice NoticeThms PropNotice SpecMirror MirrorThms
  Reflex SpecReflex ReflexThms ReflexThms2 ReflexThms3 ReflexThms4 ReflexThms5 PropReflex Failing SpecFailing FailingThms PropFailing Unlocked SpecUnlocked UnlockedThms
  SpecRules RulesThms RulesThms2 RulesThms3.
Import ListNotations.
Open Scope nat_scope.
Open Scope list_scope.

(** Rules that never lead from a lamp back to itself: the number of commands is
    bounded by what other people did, and whatever the schedule one comes to a
    state in which nothing is left to be done. *)
Theorem C146_rest : forall gw v r rules rank h k ls w, gateway_ok gw -> house_ok h -> (v < 13)%N -> ranked gw rules rank ->
  (forall p, In p h -> rank (p_where p) <= k) ->
  (forall a it on, In (a, it) rules -> call_ok (switch it on)) -> wruns gw v r (by_rules rules) (quiet_house h) ls w ->
  length (w_by w) <= length (pressed ls) * (1 + length h * heavy (length (r (K_light STATUS_CHANGE)) * length rules) (length h) k) /\
  surely gw v r (by_rules rules) (fun w' => at_rest v r w') w.
Proof.
  intros gw v r rules rank h k ls w G H Hv Rk M Ok R. set (n := length (r (K_light STATUS_CHANGE)) * length rules).
  pose proof (cost_calls gw h (weight n (length h) rank) G) as Wc. pose proof (rules_events gw r h rules rank Rk) as We. cbv zeta in We.
  split; [|eapply comes_to_rest; try eassumption; apply rules_ok, Ok].
  etransitivity; [eapply bounded; eassumption|]. apply sum_most. intros c. apply cost_most, M.
Qed.
Print Assumptions C146_rest.

(** The same when callbacks stop at the first command that fails. *)
Theorem C146_failing : forall gw v r rules rank h k ls w es, gateway_ok gw -> house_ok h -> (v < 13)%N -> ranked gw rules rank ->
  (forall p, In p h -> rank (p_where p) <= k) ->
  (forall a it on, In (a, it) rules -> call_ok (switch it on)) -> fruns gw v r (by_rules rules) (quiet_house h, []) ls (w, es) ->
  length (w_by w) <= length (pressed ls) * (1 + length h * heavy (length (r (K_light STATUS_CHANGE)) * length rules) (length h) k) /\
  fsurely gw v r (by_rules rules) (fun y => at_rest v r (fst y)) w es.
Proof.
  intros gw v r rules rank h k ls w es G H Hv Rk M Ok R. set (n := length (r (K_light STATUS_CHANGE)) * length rules).
  pose proof (cost_calls gw h (weight n (length h) rank) G) as Wc. pose proof (rules_events gw r h rules rank Rk) as We. cbv zeta in We.
  split; [|eapply failing_rests; try eassumption; apply rules_ok, Ok].
  etransitivity; [eapply failing_bounded; eassumption|]. apply sum_most. intros c. apply cost_most, M.
Qed.
Print Assumptions C146_failing.

(** The same when callbacks use no lock. *)
Theorem C146_unlocked : forall gw v r rules rank h k ls u, gateway_ok gw -> house_ok h -> (v < 13)%N -> ranked gw rules rank ->
  (forall p, In p h -> rank (p_where p) <= k) ->
  (forall a it on, In (a, it) rules -> call_ok (switch it on)) -> uruns gw v r (by_rules rules) (calm_house h) ls u ->
  length (u_by u) <= length (pressed ls) * (1 + length h * heavy (length (r (K_light STATUS_CHANGE)) * length rules) (length h) k) /\
  usurely gw v r (by_rules rules) (fun u' => all_done v r u') u.
Proof.
  intros gw v r rules rank h k ls u G H Hv Rk M Ok R. set (n := length (r (K_light STATUS_CHANGE)) * length rules).
  pose proof (cost_calls gw h (weight n (length h) rank) G) as Wc. pose proof (rules_events gw r h rules rank Rk) as We. cbv zeta in We.
  split; [|eapply u_rests; try eassumption; apply rules_ok, Ok].
  etransitivity; [eapply u_bounded; eassumption|]. apply sum_most. intros c. apply cost_most, M.
Qed.
Print Assumptions C146_unlocked.

(** When nothing is left to be done, a lamp that follows one other lamp only, and
    that nobody else switches, is on or off as that one is, or nothing has
    happened to either: whatever the other rules do, cycles or not. *)
Theorem C146_follows : forall gw v r h ls w rules a it f pa pb, gateway_ok gw -> house_ok h -> distinct h -> (v < 13)%N ->
  wruns gw v r (by_rules rules) (quiet_house h) ls w -> at_rest v r w -> In (a, it) rules ->
  In f (r (K_light STATUS_CHANGE)) -> (forall g, In g (r (K_light STATUS_CHANGE)) -> cb_takes g 2 = true) ->
  (forall st, SpecHouse.react gw LIGHTING [49%N] st = [49%N]) -> (forall st, SpecHouse.react gw LIGHTING [48%N] st = [48%N]) ->
  In pa (w_house w) -> place pa = (LIGHTING, a) -> In pb (w_house w) -> aimed gw LIGHTING (it_where it) pb = true ->
  (forall a' it', In (a', it') rules -> aimed gw LIGHTING (it_where it') pb = true -> a' = a) ->
  Forall (fun c => forall o, stands_for c o -> at_whom gw o pb = true -> sets o = false) (pressed ls) ->
  p_state pb = (if str_eqb (p_state pa) [49%N] then [49%N] else [48%N]) \/
  (exists pa0 pb0, In pa0 h /\ place pa0 = place pa /\ p_state pa0 = p_state pa /\ In pb0 h /\ place pb0 = place pb /\ p_state pb0 = p_state pb).
Proof. exact rules_follow. Qed.
Print Assumptions C146_follows.

(** Lamp 12 follows lamp 11, and lamp 13 follows lamp 12. *)
Definition item13 : item := h_item LIGHTING "13".
Definition lamp13 : point := {| p_who := LIGHTING; p_where := lit "13"; p_state := lit "0"; p_dims := no_dims |}.
Definition house3 : house := [lamp11; lamp12; lamp13].
Definition chain3 : list (str * item) := [(lit "11", item12); (lit "12", item13)].
Definition rank3 (a : str) : nat := if str_eqb a (lit "11") then 2 else if str_eqb a (lit "12") then 1 else 0.

Lemma house3_ok : house_ok house3.
Proof.
  pose proof house0_ok as H. unfold house_ok in *. unfold house3. inversion H as [|? ? A H1]; subst. inversion H1 as [|? ? B H2]; subst.
  apply Forall_cons; [exact A|]. apply Forall_cons; [exact B|]. apply Forall_cons; [|apply Forall_nil].
  assert (N : ~ SpecProto.ends_hash (lit "13")).
  { intros (u & X). apply (f_equal (fun l => last l 0%N)) in X. cbv beta in X. rewrite last_last in X. discriminate X. }
  split; [apply (wiretagb_spec (lit "13")); reflexivity|]. split; [exact N|]. destruct A as (_ & _ & A). exact A.
Qed.
Lemma chain3_ranked : ranked gw0 chain3 rank3.
Proof. intros a it b [E|[E|[]]] C; injection E as <- <-; cbn [covers gw0] in C; apply orb_true_iff in C as [C|C]; try discriminate C; apply str_eqb_spec in C; subst b; vm_compute; lia. Qed.
Lemma switch13_ok (on : bool) : call_ok (switch item13 on).
Proof.
  split; [split; [discriminate|reflexivity]|]. split; [tag_ok|]. split; [reflexivity|].
  destruct on; [exists (order1 "1" "13"); exact (F_light item13 (LBase turn_on) 1%N eq_refl)|exists (order1 "0" "13"); exact (F_light item13 (LBase turn_off) 0%N eq_refl)].
Qed.

Example C146_ex : house_ok house3 /\ distinct house3 /\ ranked gw0 chain3 rank3 /\ (forall p, In p house3 -> rank3 (p_where p) <= 2) /\
  (forall a it on, In (a, it) chain3 -> call_ok (switch it on)) /\
  (forall a' it', In (a', it') chain3 -> aimed gw0 LIGHTING (it_where it') lamp13 = true -> a' = lit "12") /\
  exists ls w, wruns gw0 12 reg1 (by_rules chain3) (quiet_house house3) ls w /\ pressed ls = [on11] /\ at_rest 12 reg1 w /\
    map p_state (w_house w) = [lit "1"; lit "1"; lit "1"] /\ map fst (w_by w) = [None; Some 0; Some 1].
Proof.
  split; [exact house3_ok|]. split; [unfold distinct, house3; cbn; repeat constructor; cbn; intuition discriminate|]. split; [exact chain3_ranked|].
  split; [intros p [<-|[<-|[<-|[]]]]; vm_compute; lia|].
  split; [intros a it on [E|[E|[]]]; injection E as <- <-; [apply switch12_ok|apply switch13_ok]|].
  split; [intros a' it' [E|[E|[]]] A; injection E as <- <-; [discriminate A|reflexivity]|].
  eexists (Pressed on11 :: repeat Act 17). eexists. split.
  { cbn [repeat]. press_ (order1 "1" "11"). packet_ (lit "*1*1*11##") (@nil (list N)). wake_. run_. serve_ (order1 "1" "12"). finish_. run_.
    packet_ (lit "*1*1*12##") (@nil (list N)). wake_. run_. serve_ (order1 "1" "13"). finish_. run_.
    packet_ (lit "*1*1*13##") (@nil (list N)). wake_. run_. finish_. run_. apply WR_nil. }
  split; [reflexivity|]. split; [repeat split; vm_compute; reflexivity|]. split; vm_compute; reflexivity.
Qed.

(** Along a chain of lamps each of which follows the one before and nothing else:
    if anybody has given the first one a command, then in the end all of them are
    on or off as the first one is. *)
Theorem C146_chain : forall gw v r h ls w rules f pa pb c, gateway_ok gw -> house_ok h -> distinct h -> (v < 13)%N ->
  wruns gw v r (by_rules rules) (quiet_house h) ls w -> at_rest v r w ->
  In f (r (K_light STATUS_CHANGE)) -> (forall g, In g (r (K_light STATUS_CHANGE)) -> cb_takes g 2 = true) ->
  (forall st, SpecHouse.react gw LIGHTING [49%N] st = [49%N]) -> (forall st, SpecHouse.react gw LIGHTING [48%N] st = [48%N]) ->
  In pa (w_house w) -> In c (pressed ls) -> reaches gw [pa] c -> downstream gw rules (pressed ls) (w_house w) pa pb ->
  p_state pb = (if str_eqb (p_state pa) [49%N] then [49%N] else [48%N]).
Proof. exact rules_chain. Qed.
Print Assumptions C146_chain.

(** Lamp 13 is downstream of lamp 11. *)
Example C146_chain_ex : reaches gw0 [lamp11] on11 /\ downstream gw0 chain3 [on11] house3 lamp11 lamp13.
Proof.
  split; [intros o S; apply (switch_order item11 true) in S; subst o; eexists _, _, _; split; reflexivity|].
  assert (X : forall p, aimed gw0 LIGHTING (lit "11") p = false -> Forall (fun c => forall o, stands_for c o -> at_whom gw0 o p = true -> sets o = false) [on11]).
  { intros p A. apply Forall_cons; [|apply Forall_nil]. intros o S B. apply (switch_order item11 true) in S. subst o. cbn [at_whom] in B. change (it_where item11) with (lit "11") in B. congruence. }
  apply (D_more _ _ _ _ _ lamp12); [apply D_one|].
  - split; [right; left; reflexivity|]. split; [reflexivity|]. split; [exists item12; split; [left; reflexivity|reflexivity]|].
    split; [intros a it [E|[E|[]]] A; injection E as <- <-; [reflexivity|discriminate A]|]. apply X. reflexivity.
  - split; [right; right; left; reflexivity|]. split; [reflexivity|]. split; [exists item13; split; [right; left; reflexivity|reflexivity]|].
    split; [intros a it [E|[E|[]]] A; injection E as <- <-; [discriminate A|reflexivity]|]. apply X. reflexivity.
Qed.

(** With callbacks that stop at an error, one rule for a lamp that does not exist
    keeps another lamp from following. *)
Definition broken : list (str * item) := [(lit "11", item99); (lit "11", item12)].

Theorem C146_failing_follows_refuted : exists gw r h rules a it f ls w es pa pb, gateway_ok gw /\ house_ok h /\ distinct h /\
  fruns gw 12 r (by_rules rules) (quiet_house h, []) ls (w, es) /\ at_rest 12 r w /\ In (a, it) rules /\
  In f (r (K_light STATUS_CHANGE)) /\ (forall g, In g (r (K_light STATUS_CHANGE)) -> cb_takes g 2 = true) /\
  (forall st, SpecHouse.react gw LIGHTING [49%N] st = [49%N]) /\ (forall st, SpecHouse.react gw LIGHTING [48%N] st = [48%N]) /\
  In pa (w_house w) /\ place pa = (LIGHTING, a) /\ In pb (w_house w) /\ aimed gw LIGHTING (it_where it) pb = true /\
  (forall a' it', In (a', it') rules -> aimed gw LIGHTING (it_where it') pb = true -> a' = a) /\
  Forall (fun c => forall o, stands_for c o -> at_whom gw o pb = true -> sets o = false) (pressed ls) /\
  p_state pa = [49%N] /\ p_state pb <> [49%N] /\ (forall pa0, In pa0 h -> place pa0 = place pa -> p_state pa0 <> p_state pa).
Proof.
  eexists gw0, reg1, house0, broken, (lit "11"), item12, (hears 1), (Pressed on11 :: repeat Act 6), _, _, _, _.
  split; [exact gw0_ok|]. split; [exact house0_ok|].
  split. { unfold distinct, house0. cbn. repeat constructor; cbn; intuition discriminate. }
  split. { cbn [repeat]. fpress (order1 "1" "11"). fpacket (lit "*1*1*11##") (@nil (list N)). fwake. frun. ffail (order1 "1" "99"). ffinish. frun. apply FR_nil. }
  split; [repeat split; vm_compute; reflexivity|]. split; [right; left; reflexivity|].
  split; [left; reflexivity|]. split; [intros g [<-|[]]; reflexivity|]. split; [intros st; reflexivity|]. split; [intros st; reflexivity|].
  split; [left; reflexivity|]. split; [reflexivity|]. split; [right; left; reflexivity|]. split; [reflexivity|].
  split; [intros a' it' [E|[E|[]]] _; injection E as <- <-; reflexivity|].
  split. { apply Forall_cons; [|apply Forall_nil]. intros o S A. apply (switch_order item11 true) in S. subst o. discriminate A. }
  split; [reflexivity|]. split; [discriminate|].
  intros p [<-|[<-|[<-|[]]]]; intros P; try discriminate P; discriminate.
Qed.
Print Assumptions C146_failing_follows_refuted.

(** It follows if no rule is for a lamp that does not exist. *)
Theorem C146_failing_follows_partial : forall gw v r h ls w es rules a it f pa pb, gateway_ok gw -> house_ok h -> distinct h -> (v < 13)%N ->
  fruns gw v r (by_rules rules) (quiet_house h, []) ls (w, es) -> at_rest v r w -> In (a, it) rules ->
  (forall a' it', In (a', it') rules -> existsb (aimed gw LIGHTING (it_where it')) h = true) ->
  In f (r (K_light STATUS_CHANGE)) -> (forall g, In g (r (K_light STATUS_CHANGE)) -> cb_takes g 2 = true) ->
  (forall st, SpecHouse.react gw LIGHTING [49%N] st = [49%N]) -> (forall st, SpecHouse.react gw LIGHTING [48%N] st = [48%N]) ->
  In pa (w_house w) -> place pa = (LIGHTING, a) -> In pb (w_house w) -> aimed gw LIGHTING (it_where it) pb = true ->
  (forall a' it', In (a', it') rules -> aimed gw LIGHTING (it_where it') pb = true -> a' = a) ->
  Forall (fun c => forall o, stands_for c o -> at_whom gw o pb = true -> sets o = false) (pressed ls) ->
  p_state pb = (if str_eqb (p_state pa) [49%N] then [49%N] else [48%N]) \/
  (exists pa0 pb0, In pa0 h /\ place pa0 = place pa /\ p_state pa0 = p_state pa /\ In pb0 h /\ place pb0 = place pb /\ p_state pb0 = p_state pb).
Proof. exact failing_follow. Qed.
Print Assumptions C146_failing_follows_partial.

Example C146_failing_ex : (forall a' it', In (a', it') chain3 -> existsb (aimed gw0 LIGHTING (it_where it')) house3 = true) /\
  exists ls w, fruns gw0 12 reg1 (by_rules chain3) (quiet_house house3, []) ls (w, []) /\ pressed ls = [on11] /\ at_rest 12 reg1 w /\
    map p_state (w_house w) = [lit "1"; lit "1"; lit "1"].
Proof.
  split; [intros a' it' [E|[E|[]]]; injection E as <- <-; reflexivity|].
  eexists (Pressed on11 :: repeat Act 17). eexists. split.
  { cbn [repeat]. fpress (order1 "1" "11"). fpacket (lit "*1*1*11##") (@nil (list N)). fwake. frun. fserve (order1 "1" "12"). ffinish. frun.
    fpacket (lit "*1*1*12##") (@nil (list N)). fwake. frun. fserve (order1 "1" "13"). ffinish. frun.
    fpacket (lit "*1*1*13##") (@nil (list N)). fwake. frun. ffinish. frun. apply FR_nil. }
  split; [reflexivity|]. split; [repeat split; vm_compute; reflexivity|]. vm_compute; reflexivity.
Qed.
