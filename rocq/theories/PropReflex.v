(** * Property C143: callbacks that send commands *)
From Coq Require Import String List NArith ZArith Bool Lia PeanoNat.
From Verif Require Import PyStr Tags Messages SpecMsg SpecTag SpecProto MessageThms3 Protocol IO Client SpecItem Items Lighting SpecLight ItemThms LightThms2
  SpecHouse HouseThms HouseThms2 PropHouse Dispatch SpecDispatch DispatchThms DispatchThms2 DispatchThms3 SpecNotice NoticeThms PropNotice SpecMirror MirrorThms
  Reflex SpecReflex ReflexThms ReflexThms2 ReflexThms3 ReflexThms4 ReflexThms5.
Import ListNotations.
Open Scope nat_scope.
Open Scope list_scope.

(** At any moment: the calls of the callbacks and of other people make one
    history of the house; the loop has read a beginning of its events and started
    the callbacks of each, in order; the calls of the callbacks are a beginning of
    their answers to these events, in the order of the events.  When nothing is
    left to be done, every event was read and all the answers were given. *)
Theorem C143_order : forall gw v r body h ls w, gateway_ok gw -> house_ok h -> (v < 13)%N -> wruns gw v r body (quiet_house h) ls w ->
  exists log pre post tss m, let st := listener v r (w_acts w) in
    story gw h (map snd (w_by w)) log (w_evs w) (w_house w) /\ of_others (w_by w) = pressed ls /\
    w_evs w = pre ++ post /\ st_started st = concat tss /\ Forall2 (noticed (st_items st) r) pre tss /\
    of_callbacks (w_by w) = firstn m (concat (map (answer body (st_items st)) (st_started st))) /\
    (at_rest v r w -> post = [] /\ of_callbacks (w_by w) = concat (map (answer body (st_items st)) (st_started st))).
Proof. exact ordered. Qed.
Print Assumptions C143_order.

(** With weights that get less from event to answer to event, the number of calls
    is bounded by what other people did. *)
Theorem C143_bounded : forall gw v r body h ls w wt wc, gateway_ok gw -> house_ok h -> (v < 13)%N -> wruns gw v r body (quiet_house h) ls w ->
  weighs_calls gw h wt wc -> weighs_events r body wt wc -> length (w_by w) <= sum wc (pressed ls).
Proof. exact bounded. Qed.
Print Assumptions C143_bounded.

(** Then whatever the schedule, one comes to a state in which nothing is left to
    be done, if nobody else does anything meanwhile: the lock is never stuck and
    the answers come to an end. *)
Theorem C143_rest : forall gw v r body h ls w wt wc, gateway_ok gw -> house_ok h -> (v < 13)%N -> wruns gw v r body (quiet_house h) ls w ->
  weighs_calls gw h wt wc -> weighs_events r body wt wc -> (forall f k args, Forall call_ok (body f k args)) ->
  surely gw v r body (fun w' => at_rest v r w') w.
Proof. intros. eapply comes_to_rest; eassumption. Qed.
Print Assumptions C143_rest.

(** A lamp that is made to follow another one: when nothing is left to be done,
    it is on or off as the other one is, or nothing has happened to either. *)
Theorem C143_follows : forall gw v r h ls w a it f pa pb, gateway_ok gw -> house_ok h -> distinct h -> (v < 13)%N ->
  wruns gw v r (follow a it) (quiet_house h) ls w -> at_rest v r w ->
  In f (r (K_light STATUS_CHANGE)) -> (forall g, In g (r (K_light STATUS_CHANGE)) -> cb_takes g 2 = true) ->
  (forall st, SpecHouse.react gw LIGHTING [49%N] st = [49%N]) -> (forall st, SpecHouse.react gw LIGHTING [48%N] st = [48%N]) ->
  In pa (w_house w) -> place pa = (LIGHTING, a) -> In pb (w_house w) -> aimed gw LIGHTING (it_where it) pb = true ->
  Forall (fun c => forall o, stands_for c o -> at_whom gw o pb = true -> sets o = false) (pressed ls) ->
  p_state pb = (if str_eqb (p_state pa) [49%N] then [49%N] else [48%N]) \/
  (exists pa0 pb0, In pa0 h /\ place pa0 = place pa /\ p_state pa0 = p_state pa /\ In pb0 h /\ place pb0 = place pb /\ p_state pb0 = p_state pb).
Proof. exact follows. Qed.
Print Assumptions C143_follows.

(** It always gets there, if its address does not stand for the lamp it follows. *)
Theorem C143_follower_rests : forall gw v r h ls w a it, gateway_ok gw -> house_ok h -> (v < 13)%N -> covers gw (it_where it) a = false ->
  (forall on : bool, call_ok (CLight it (LBase (if on then turn_on else turn_off)))) -> wruns gw v r (follow a it) (quiet_house h) ls w ->
  length (w_by w) <= length (pressed ls) * (1 + length h * length (r (K_light STATUS_CHANGE))) /\
  surely gw v r (follow a it) (fun w' => at_rest v r w') w.
Proof.
  intros gw v r h ls w a it G H Hv Cv Ok R. split; [eapply follow_bounded; eassumption|].
  eapply comes_to_rest; try eassumption; [exact (follow_calls gw h a it (length (r (K_light STATUS_CHANGE))) G Cv)|apply follow_events|apply follow_ok, Ok].
Qed.
Print Assumptions C143_follower_rests.

(** If every event is answered with a call that causes an event, nobody comes to
    rest again after the first call; and the calls pass any number, whatever the
    schedule. *)
Theorem C143_restless : forall gw v r body h ls w, gateway_ok gw -> house_ok h -> (v < 13)%N -> wruns gw v r body (quiet_house h) ls w ->
  (forall its p ts, point_ok p -> In (place p) (map place h) -> noticed its r (frame_state p) ts -> concat (map (answer body its) ts) <> []) ->
  (forall f k args, Forall (reaches gw h) (body f k args)) -> (forall f k args, Forall call_ok (body f k args)) ->
  Forall (reaches gw h) (pressed ls) -> pressed ls <> [] ->
  ~ at_rest v r w /\ forall n, surely gw v r body (fun w' => n <= length (w_by w')) w.
Proof. intros. split; [eapply restless; eassumption|eapply endless; eassumption]. Qed.
Print Assumptions C143_restless.

(** ** Lamp 12 follows lamp 11 *)

Definition reg1 : registry := fun k => match k with K_light STATUS_CHANGE => [hears 1] | _ => [] end.
Definition item12 : item := h_item LIGHTING "12".
Definition item11 : item := h_item LIGHTING "11".
Definition on11 : SpecHouse.call := CLight item11 (LBase turn_on).
Definition off11 : SpecHouse.call := CLight item11 (LBase turn_off).

Ltac tidy := match goal with |- wruns _ _ _ _ ?w _ _ => let w' := eval vm_compute in w in change w with w' end.
Ltac does_tac o := eapply (Do_command _ _ _ o); [first [exact (F_light _ (LBase turn_on) 1%N eq_refl)|exact (F_light _ (LBase turn_off) 0%N eq_refl)]|reflexivity|vm_compute; reflexivity|apply Ob_command; vm_compute; reflexivity].
Ltac press_ o := eapply wruns_cons; [eapply W_press; does_tac o|]; tidy.
Ltac packet_ f fs := eapply wruns_cons; [eapply (W_packet _ _ _ _ _ f fs); vm_compute; reflexivity|]; tidy.
Ltac wake_ := eapply wruns_cons; [eapply W_wake; vm_compute; reflexivity|]; tidy.
Ltac run_ := eapply wruns_cons; [eapply W_run; vm_compute; reflexivity|]; tidy.
Ltac serve_ o := eapply wruns_cons; [eapply W_serve; [vm_compute; reflexivity|does_tac o]|]; tidy.
Ltac finish_ := eapply wruns_cons; [eapply W_finish; vm_compute; reflexivity|]; tidy.

(** Somebody switches lamp 11 on and off again before the callbacks get to run:
    the second callback waits for the lock, and lamp 12 goes on, then off. *)
Definition order1 (what a : string) : order := SpecHouse.Command LIGHTING (lit what) (lit a).
Example C143_ex : exists ls w, wruns gw0 12 reg1 (follow (lit "11") item12) (quiet_house house0) ls w /\ pressed ls = [on11; off11] /\
  at_rest 12 reg1 w /\ map p_state (w_house w) = [lit "0"; lit "0"; lit "0"] /\
  map (fun x => match x with (o, CLight it (LBase c)) => Some (o, it_where it, match c with turn_on => true | _ => false end) | _ => None end) (w_by w) =
    [Some (None, lit "11", true); Some (None, lit "11", false); Some (Some 0, lit "12", true); Some (Some 1, lit "12", false)] /\
  distinct house0 /\ (forall st, SpecHouse.react gw0 LIGHTING [49%N] st = [49%N]) /\ (forall st, SpecHouse.react gw0 LIGHTING [48%N] st = [48%N]) /\ covers gw0 (it_where item12) (lit "11") = false /\ (forall on : bool, call_ok (CLight item12 (LBase (if on then turn_on else turn_off)))).
Proof.
  eexists [Pressed on11; Pressed off11; Act; Act; Act; Act; Act; Act; Act; Act; Act; Act; Act; Act; Act; Act; Act; Act; Act; Act; Act; Act].
  eexists. split.
  { press_ (order1 "1" "11"). press_ (order1 "0" "11"). packet_ (lit "*1*1*11##") [lit "*1*0*11##"]. wake_.
    run_. run_. serve_ (order1 "1" "12"). finish_. run_. run_. serve_ (order1 "0" "12"). finish_. run_.
    packet_ (lit "*1*1*12##") [lit "*1*0*12##"]. wake_. run_. run_. finish_. run_. run_. finish_. run_. apply WR_nil. }
  split; [reflexivity|]. split; [repeat split; vm_compute; reflexivity|]. split; [vm_compute; reflexivity|]. split; [vm_compute; reflexivity|].
  split. { unfold distinct, house0. cbn. repeat constructor; cbn; intuition discriminate. }
  split; [intros st; reflexivity|]. split; [intros st; reflexivity|]. split; [reflexivity|]. intros on. split; [split; [discriminate|reflexivity]|]. split; [tag_ok|]. split; [reflexivity|].
  destruct on; [exists (order1 "1" "12"); exact (F_light item12 (LBase turn_on) 1%N eq_refl)|exists (order1 "0" "12"); exact (F_light item12 (LBase turn_off) 0%N eq_refl)].
Qed.

(** ** Two lamps that follow each other *)

Definition pair_house : house := firstn 2 house0.
Definition each_other : reflex := fun f k args => follow (lit "11") item12 f k args ++ follow (lit "12") item11 f k args.

Lemma pair_house_ok : house_ok pair_house.
Proof. pose proof house0_ok as H. unfold house_ok in *. unfold pair_house. inversion H as [|? ? A H1]; subst. inversion H1 as [|? ? B H2]; subst. apply Forall_cons; [exact A|]. apply Forall_cons; [exact B|]. apply Forall_nil. Qed.

Lemma each_answer its t : answer each_other its t = answer (follow (lit "11") item12) its t ++ answer (follow (lit "12") item11) its t.
Proof. destruct t as (f & args). cbn [answer]. destruct args as [|[] args]; try reflexivity. match goal with |- context[nth_error its ?i] => destruct (nth_error its i) end; reflexivity. Qed.

Lemma reaches_switch (it : item) (on : bool) : existsb (aimed gw0 LIGHTING (it_where it)) pair_house = true -> reaches gw0 pair_house (switch it on).
Proof. intros E o S. apply switch_order in S as ->. eauto. Qed.

Lemma follow_reaches (a : str) (it : item) f k args : existsb (aimed gw0 LIGHTING (it_where it)) pair_house = true -> Forall (reaches gw0 pair_house) (follow a it f k args).
Proof.
  intros E. destruct k as (k & s). unfold follow. destruct k; try constructor. destruct (str_eqb a s); [|constructor].
  destruct args as [|[] [|]]; try apply Forall_nil; destruct b; try apply Forall_nil; (apply Forall_cons; [|apply Forall_nil]); [apply (reaches_switch it true E)|apply (reaches_switch it false E)].
Qed.

Lemma app_all_nil {A B} (f g h : A -> list B) ts : (forall t, f t = g t ++ h t) -> concat (map f ts) = [] -> concat (map g ts) = [] /\ concat (map h ts) = [].
Proof.
  intros E. induction ts as [|t ts IH]; cbn; [auto|]. rewrite E, <- app_assoc. intros X. apply app_eq_nil in X as (-> & X). apply app_eq_nil in X as (-> & X). auto.
Qed.

Lemma each_answered its p ts : point_ok p -> In (place p) (map place pair_house) -> noticed its reg1 (frame_state p) ts -> concat (map (answer each_other its) ts) <> [].
Proof.
  intros P I N X. apply (app_all_nil _ _ _ _ (each_answer its)) in X as (X & Y).
  assert (T : forall g, In g (reg1 (K_light STATUS_CHANGE)) -> cb_takes g 2 = true) by (intros g [<-|[]]; reflexivity).
  destruct I as [I|[I|[]]]; symmetry in I.
  - destruct (follow_answers (lit "11") item12 its reg1 p ts (hears 1) N P I (or_introl eq_refl) T) as (n & E). rewrite E in X. discriminate.
  - destruct (follow_answers (lit "12") item11 its reg1 p ts (hears 1) N P I (or_introl eq_refl) T) as (n & E). rewrite E in Y. discriminate.
Qed.

Lemma switch11_ok (on : bool) : call_ok (switch item11 on).
Proof.
  split; [split; [discriminate|reflexivity]|]. split; [tag_ok|]. split; [reflexivity|].
  destruct on; [exists (order1 "1" "11"); exact (F_light item11 (LBase turn_on) 1%N eq_refl)|exists (order1 "0" "11"); exact (F_light item11 (LBase turn_off) 0%N eq_refl)].
Qed.
Lemma switch12_ok (on : bool) : call_ok (switch item12 on).
Proof.
  split; [split; [discriminate|reflexivity]|]. split; [tag_ok|]. split; [reflexivity|].
  destruct on; [exists (order1 "1" "12"); exact (F_light item12 (LBase turn_on) 1%N eq_refl)|exists (order1 "0" "12"); exact (F_light item12 (LBase turn_off) 0%N eq_refl)].
Qed.

(** Each of two lamps follows the other one, and one of them is switched on once:
    there is never again nothing left to be done, and no bound on the number of
    commands that the house gets. *)
Theorem C143_rest_refuted : exists gw r body h c, gateway_ok gw /\ house_ok h /\ distinct h /\
  (exists w, wruns gw 12 r body (quiet_house h) [Pressed c] w) /\
  forall ls w, wruns gw 12 r body (quiet_house h) ls w -> pressed ls = [c] -> ~ at_rest 12 r w /\ forall n, surely gw 12 r body (fun w' => n <= length (w_by w')) w.
Proof.
  exists gw0, reg1, each_other, pair_house, on11. split; [exact gw0_ok|]. split; [exact pair_house_ok|].
  split. { unfold distinct, pair_house, house0. cbn. repeat constructor; cbn; intuition discriminate. }
  split. { eexists. press_ (order1 "1" "11"). apply WR_nil. }
  intros ls w R Ps. eapply (C143_restless gw0 12%N reg1 each_other pair_house ls w gw0_ok pair_house_ok ltac:(lia) R).
  - exact each_answered.
  - intros f k args. apply Forall_app. split; apply follow_reaches; reflexivity.
  - intros f k args. apply Forall_app. split; apply follow_ok; [exact switch12_ok|exact switch11_ok].
  - rewrite Ps. constructor; [|constructor]. apply (reaches_switch item11 true). reflexivity.
  - rewrite Ps. discriminate.
Qed.
Print Assumptions C143_rest_refuted.
