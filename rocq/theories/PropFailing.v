(** * Property C144: callbacks that stop at the first command that fails *)
From Coq Require Import String List NArith ZArith Bool Lia PeanoNat.
From Verif Require Import PyStr Tags Messages SpecMsg SpecTag SpecProto MessageThms3 Protocol IO Client SpecItem Items Lighting SpecLight ItemThms LightThms2
  SpecHouse HouseThms HouseThms2 PropHouse Dispatch SpecDispatch DispatchThms DispatchThms2 DispatchThms3 SpecNotice NoticeThms PropNotice SpecMirror MirrorThms
  Reflex SpecReflex ReflexThms ReflexThms2 ReflexThms3 ReflexThms4 ReflexThms5 PropReflex Failing SpecFailing FailingThms.
Import ListNotations.
Open Scope nat_scope.
Open Scope list_scope.

(** At any moment: the calls of the callbacks are a beginning of their answers,
    each answer up to the first call that nobody hears; there is one error for
    each such call, in their order.  When nothing is left to be done, every
    callback has done its calls up to there, and the errors are as many as the
    callbacks that came to such a call: no callback suffers from another one's. *)
Theorem C144_order : forall gw v r body h ls w es, gateway_ok gw -> house_ok h -> (v < 13)%N -> fruns gw v r body (quiet_house h, []) ls (w, es) ->
  exists log pre post tss m, let st := listener v r (w_acts w) in let answers := map (fun t => until_unheard gw h (answer body (st_items st) t)) (st_started st) in
    story gw h (map snd (w_by w)) log (w_evs w) (w_house w) /\ of_others (w_by w) = pressed ls /\
    w_evs w = pre ++ post /\ st_started st = concat tss /\ Forall2 (noticed (st_items st) r) pre tss /\
    of_callbacks (w_by w) = firstn m (concat answers) /\ es = unheard_of gw h (w_by w) /\
    (at_rest v r w -> post = [] /\ of_callbacks (w_by w) = concat answers /\
       length es = length (filter (fun t => fails gw h (answer body (st_items st) t)) (st_started st))).
Proof. exact failing_order. Qed.
Print Assumptions C144_order.

(** With weights that get less along every chain, the calls are bounded and one
    comes to a state in which nothing is left to be done: an error leaves the
    lock free. *)
Theorem C144_rest : forall gw v r body h ls w es wt wc, gateway_ok gw -> house_ok h -> (v < 13)%N -> fruns gw v r body (quiet_house h, []) ls (w, es) ->
  weighs_calls gw h wt wc -> weighs_events r body wt wc -> (forall f k args, Forall call_ok (body f k args)) ->
  length (w_by w) <= sum wc (pressed ls) /\ fsurely gw v r body (fun y => at_rest v r (fst y)) w es.
Proof. intros. split; [eapply failing_bounded; eassumption|eapply failing_rests; eassumption]. Qed.
Print Assumptions C144_rest.

(** Everything that C143 says holds of these callbacks too: what they do is what
    callbacks do that stop of themselves. *)
Theorem C144_same : forall gw v r body h ls w es, fruns gw v r body (quiet_house h, []) ls (w, es) ->
  exists w', wruns gw v r (cut_short gw h body) (quiet_house h) ls w' /\ w_house w' = w_house w /\ w_by w' = w_by w /\ w_evs w' = w_evs w /\
    w_acts w' = w_acts w /\ w_wire w' = w_wire w /\ (at_rest v r w' <-> at_rest v r w).
Proof.
  intros gw v r body h ls w es R. exists (tamed gw h w). split; [apply (tamed_runs _ _ _ _ _ _ _ _ R)|]. repeat (split; [reflexivity|]). apply tamed_rest.
Qed.
Print Assumptions C144_same.

(** Two callbacks for lamp 11: one switches lamp 99 on, which does not exist, and
    would then switch lamp 12 on; the other one switches lamp 12 off. *)
Definition reg2 : registry := fun k => match k with K_light STATUS_CHANGE => [hears 1; hears 2] | _ => [] end.
Definition item99 : item := h_item LIGHTING "99".
Definition clumsy : reflex := fun f k _ =>
  if key_eqb k (LIGHTING, lit "11") then (if N.eqb f 1 then [CLight item99 (LBase turn_on); CLight item12 (LBase turn_on)] else [CLight item12 (LBase turn_off)]) else [].

Ltac ftidy := match goal with |- fruns _ _ _ _ (?w, ?es) _ _ => let w' := eval vm_compute in w in change w with w' end.
Ltac fpress o := eapply fruns_cons; [eapply F_press; does_tac o|]; ftidy.
Ltac fpacket f fs := eapply fruns_cons; [eapply (F_packet _ _ _ _ _ _ f fs); vm_compute; reflexivity|]; ftidy.
Ltac fwake := eapply fruns_cons; [eapply F_wake; vm_compute; reflexivity|]; ftidy.
Ltac frun := eapply fruns_cons; [eapply F_run; vm_compute; reflexivity|]; ftidy.
Ltac fserve o := eapply fruns_cons; [eapply F_served; [vm_compute; reflexivity|does_tac o]|]; ftidy.
Ltac ffail o := eapply fruns_cons; [eapply F_failed; [vm_compute; reflexivity|eapply (Do_nobody _ _ _ o); [exact (F_light _ (LBase turn_on) 1%N eq_refl)|vm_compute; reflexivity]]|]; ftidy.
Ltac ffinish := eapply fruns_cons; [eapply F_finish; vm_compute; reflexivity|]; ftidy.

Example C144_ex : exists ls w, fruns gw0 12 reg2 clumsy (quiet_house house0, []) ls (w, [0]) /\ pressed ls = [on11] /\ at_rest 12 reg2 w /\
  map p_state (w_house w) = [lit "1"; lit "0"; lit "0"] /\ map fst (w_by w) = [None; Some 0; Some 1] /\
  length (st_started (listener 12 reg2 (w_acts w))) = 4.
Proof.
  exists [Pressed on11; Act; Act; Act; Act; Act; Act; Act; Act; Act; Act; Act; Act; Act; Act; Act; Act; Act; Act; Act; Act]. eexists. split.
  { fpress (order1 "1" "11"). fpacket (lit "*1*1*11##") (@nil (list N)). fwake. frun. frun. ffail (order1 "1" "99"). ffinish. frun. frun.
    fserve (order1 "0" "12"). ffinish. frun. fpacket (lit "*1*0*12##") (@nil (list N)). fwake. frun. frun. ffinish. frun. frun. ffinish. frun. cbn [app]. apply FR_nil. }
  split; [reflexivity|]. split; [repeat split; vm_compute; reflexivity|]. repeat split; vm_compute; reflexivity.
Qed.

(** The hypotheses of C144_rest, for a lamp that follows another one. *)
Example C144_rest_ex : exists wt wc, weighs_calls gw0 house0 wt wc /\ weighs_events reg1 (follow (lit "11") item12) wt wc /\
  (forall f k args, Forall call_ok (follow (lit "11") item12 f k args)).
Proof.
  eexists _, _. split; [exact (follow_calls gw0 house0 (lit "11") item12 (length (reg1 (K_light STATUS_CHANGE))) gw0_ok eq_refl)|].
  split; [apply follow_events|]. apply follow_ok. exact switch12_ok.
Qed.
