(** * Property C148: several applications in one house *)
From Coq Require Import String List NArith ZArith Bool Lia PeanoNat.
From Verif Require Import PyStr Tags Messages SpecMsg SpecTag SpecProto MessageThms3 Protocol IO Client SpecItem Items Lighting SpecLight ItemThms LightThms2
  SpecHouse HouseThms HouseThms2 PropHouse Dispatch SpecDispatch DispatchThms DispatchThms2 DispatchThms3 SpecNotice NoticeThms PropNotice SpecMirror MirrorThms
  Reflex SpecReflex ReflexThms ReflexThms2 ReflexThms3 ReflexThms4 ReflexThms5 PropReflex Unlocked SpecUnlocked UnlockedThms PropUnlocked
  SpecRules RulesThms RulesThms2 RulesThms3 PropRules SpecPicture PictureThms Apps SpecApps AppsThms AppsThms2 AppsThms3 AppsThms4.
Import ListNotations.
Open Scope nat_scope.
Open Scope list_scope.

(** At any moment the calls of all applications and of other people make one
    history of the house; each application has read a beginning of its events and
    started its own callbacks for each; each callback has made a beginning of its
    own answer.  When nothing is left to be done, every application has read every
    event and given every answer. *)
Theorem C148_each : forall gw apps N h ls s, gateway_ok gw -> house_ok h -> (forall i, i < N -> (a_ver (apps i) < 13)%N) -> mruns gw apps N (still_house h) ls s -> 0 < N ->
  exists log, story gw h (map snd (m_by s)) log (m_evs s) (m_house s) /\ no_app (m_by s) = pressed ls /\
  forall i, i < N -> exists pre post tss, let st := hears_of apps s i in
    m_evs s = pre ++ post /\ st_started st = concat tss /\ Forall2 (noticed (st_items st) (a_reg (apps i))) pre tss /\
    (forall n, length (st_started st) <= n -> app_calls i n (m_by s) = []) /\
    (forall n t, nth_error (st_started st) n = Some t -> exists rest, answer (a_body (apps i)) (st_items st) t = app_calls i n (m_by s) ++ rest /\ (all_still apps N s -> rest = [])) /\
    (all_still apps N s -> post = []).
Proof. exact apps_each. Qed.
Print Assumptions C148_each.

(** Every application's picture of the house is one of the past, and a right one
    when nothing is left to be done. *)
Theorem C148_picture : forall gw apps N h ls s i, gateway_ok gw -> house_ok h -> distinct h -> i < N -> (a_ver (apps i) < 13)%N -> mruns gw apps N (still_house h) ls s ->
  past_picture gw (hears_of apps s i) (a_reg (apps i)) h (map snd (m_by s)) /\ (all_still apps N s -> right_picture (hears_of apps s i) (a_reg (apps i)) h (m_house s)).
Proof. exact apps_picture. Qed.
Print Assumptions C148_picture.

(** With weights of events that are enough for all applications' answers together,
    the calls are bounded, and every schedule comes to a state in which nothing is
    left to be done. *)
Theorem C148_rest : forall gw apps N h ls s wt wts wc, gateway_ok gw -> house_ok h -> 0 < N -> (forall i, i < N -> (a_ver (apps i) < 13)%N) -> mruns gw apps N (still_house h) ls s ->
  weighs_calls gw h wt wc -> (forall i, i < N -> weighs_events (a_reg (apps i)) (a_body (apps i)) (wts i) wc) -> (forall k, list_sum (map (fun i => wts i k) (seq 0 N)) <= wt k) ->
  (forall i f k args, i < N -> Forall call_ok (a_body (apps i) f k args)) ->
  length (m_by s) <= sum wc (pressed ls) /\ msurely gw apps N (fun s' => all_still apps N s') s.
Proof. intros. split; [eapply apps_bounded; eassumption|eapply apps_rest; eassumption]. Qed.
Print Assumptions C148_rest.

(** Then every schedule comes to a state in which all applications have the right
    picture of the house. *)
Theorem C148_surely : forall gw apps N h ls s wt wts wc, gateway_ok gw -> house_ok h -> distinct h -> 0 < N -> (forall i, i < N -> (a_ver (apps i) < 13)%N) -> mruns gw apps N (still_house h) ls s ->
  weighs_calls gw h wt wc -> (forall i, i < N -> weighs_events (a_reg (apps i)) (a_body (apps i)) (wts i) wc) -> (forall k, list_sum (map (fun i => wts i k) (seq 0 N)) <= wt k) ->
  (forall i f k args, i < N -> Forall call_ok (a_body (apps i) f k args)) ->
  msurely gw apps N (fun s' => all_still apps N s' /\ forall i, i < N -> right_picture (hears_of apps s' i) (a_reg (apps i)) h (m_house s')) s.
Proof.
  intros gw apps N h ls s wt wts wc G H D Pos Hv R Wc We Wt Ok. eapply msurely_run; [|exact R|eapply apps_rest; eassumption].
  intros ls' s' R' Re. split; [exact Re|]. intros i Li. apply (apps_picture gw apps N h ls' s' i G H D Li (Hv i Li) R'), Re.
Qed.
Print Assumptions C148_surely.

(** Applications that know nothing of each other, each with its own rules between
    lamps: they come to rest if the rules of all of them together do not run in
    circles. *)
Theorem C148_rules : forall gw apps N h ls s rules rank, gateway_ok gw -> house_ok h -> 0 < N -> (forall i, i < N -> (a_ver (apps i) < 13)%N) -> mruns gw apps N (still_house h) ls s ->
  (forall i, i < N -> a_body (apps i) = by_rules (rules i)) -> (forall i, i < N -> ranked gw (rules i) rank) ->
  (forall i a it on, i < N -> In (a, it) (rules i) -> call_ok (switch it on)) ->
  msurely gw apps N (fun s' => all_still apps N s') s.
Proof.
  intros gw apps N h ls s rules rank G H Pos Hv R Eb Rk Ok. set (n := total (fun i => length (a_reg (apps i) (K_light STATUS_CHANGE)) * length (rules i)) N).
  eapply (apps_rest gw apps N h (weight n (length h) rank) (fun i => share n (length h) rank (a_reg (apps i)) (rules i)) (cost gw h (weight n (length h) rank))); try eassumption.
  - apply cost_calls, G.
  - intros i Li. rewrite (Eb i Li). apply share_events, Rk, Li.
  - intros k. apply (shares (fun i => a_reg (apps i)) rules rank (length h) N k).
  - intros i f k args Li. rewrite (Eb i Li). apply rules_ok. intros a it on I. exact (Ok i a it on Li I).
Qed.
Print Assumptions C148_rules.

(** One application makes lamp 12 follow lamp 11, another one makes lamp 13 follow
    lamp 12.  Lamp 11 is switched on; the second application is slow and reads all
    of the events at once. *)
Definition two_apps (i : nat) : app := {| a_ver := 12%N; a_reg := reg1; a_body := by_rules (match i with O => [(lit "11", item12)] | _ => [(lit "12", item13)] end) |}.

Ltac mtidy := match goal with |- mruns _ _ _ ?s _ _ => let s' := eval vm_compute in s in change s with s' end.
Example C148_ex : (forall i, i < 2 -> ranked gw0 (match i with O => [(lit "11", item12)] | _ => [(lit "12", item13)] end) rank3) /\
  exists ls s, mruns gw0 two_apps 2 (still_house house3) ls s /\ pressed ls = [on11] /\ all_still two_apps 2 s /\
    map p_state (m_house s) = [lit "1"; lit "1"; lit "1"] /\ map fst (m_by s) = [None; Some (0, 0); Some (1, 1)].
Proof.
  split.
  { intros i _ a it b I. apply chain3_ranked. destruct i; destruct I as [<-|[]]; [left|right; left]; reflexivity. }
  eexists (Pressed on11 :: repeat Act 10), _. split.
  { cbn [repeat].
    eapply mruns_cons; [eapply M_press; does_tac (order1 "1" "11")|].
    eapply mruns_cons; [eapply (M_packet _ _ _ _ 0 (lit "*1*1*11##") []); [lia|vm_compute; reflexivity]|]. mtidy.
    eapply mruns_cons; [eapply (M_wake _ _ _ _ 0); [lia|vm_compute; reflexivity]|]. mtidy.
    eapply mruns_cons; [eapply (M_serve _ _ _ _ 0 0); [lia|vm_compute; reflexivity|does_tac (order1 "1" "12")]|]. mtidy.
    eapply mruns_cons; [eapply (M_packet _ _ _ _ 1 (lit "*1*1*11##") [lit "*1*1*12##"]); [lia|vm_compute; reflexivity]|]. mtidy.
    eapply mruns_cons; [eapply (M_wake _ _ _ _ 1); [lia|vm_compute; reflexivity]|]. mtidy.
    eapply mruns_cons; [eapply (M_serve _ _ _ _ 1 1); [lia|vm_compute; reflexivity|does_tac (order1 "1" "13")]|]. mtidy.
    eapply mruns_cons; [eapply (M_packet _ _ _ _ 0 (lit "*1*1*12##") [lit "*1*1*13##"]); [lia|vm_compute; reflexivity]|]. mtidy.
    eapply mruns_cons; [eapply (M_wake _ _ _ _ 0); [lia|vm_compute; reflexivity]|]. mtidy.
    eapply mruns_cons; [eapply (M_packet _ _ _ _ 1 (lit "*1*1*13##") []); [lia|vm_compute; reflexivity]|]. mtidy.
    eapply mruns_cons; [eapply (M_wake _ _ _ _ 1); [lia|vm_compute; reflexivity]|]. mtidy.
    apply MR_nil. }
  split; [reflexivity|]. split.
  { intros i Li. destruct i as [|[|i]]; [| |lia]; (split; [vm_compute; reflexivity|]); (split; [vm_compute; reflexivity|]); match goal with |- Forall _ ?l => let l' := eval vm_compute in l in change l with l' end; repeat (apply Forall_cons; [reflexivity|]); apply Forall_nil. }
  split; vm_compute; reflexivity.
Qed.

(** If every event is answered by one of the applications with a call that causes
    an event, they never come to rest after the first call, and the calls pass any
    number, whatever the schedule. *)
Theorem C148_restless : forall gw apps N h ls s who_of, gateway_ok gw -> house_ok h -> 0 < N -> (forall i, i < N -> (a_ver (apps i) < 13)%N) -> mruns gw apps N (still_house h) ls s ->
  (forall p, point_ok p -> In (place p) (map place h) -> who_of (place p) < N /\
    forall its ts, noticed its (a_reg (apps (who_of (place p)))) (frame_state p) ts -> concat (map (answer (a_body (apps (who_of (place p)))) its) ts) <> []) ->
  (forall i f k args, i < N -> Forall (reaches gw h) (a_body (apps i) f k args)) -> (forall i f k args, i < N -> Forall call_ok (a_body (apps i) f k args)) ->
  Forall (reaches gw h) (pressed ls) -> pressed ls <> [] ->
  ~ all_still apps N s /\ forall n, msurely gw apps N (fun s' => n <= length (m_by s')) s.
Proof.
  intros gw apps N h ls s who_of G H Pos Hv R A B Ok P Ne. split; [eapply apps_restless; eassumption|]. intros n.
  apply (apps_endless gw apps N h n G H Hv Ok (pressed ls)) with (ls := ls); [|exact R|reflexivity]. intros ls' s' R' E. eapply apps_restless; try eassumption; rewrite E; assumption.
Qed.
Print Assumptions C148_restless.

(** One application makes lamp 12 follow lamp 11, another one makes lamp 11 follow
    lamp 12; neither of them alone would go on forever (C143_follower_rests). *)
Definition two_foes (i : nat) : app := {| a_ver := 12%N; a_reg := reg1; a_body := match i with O => follow (lit "11") item12 | _ => follow (lit "12") item11 end |}.

Theorem C148_rest_refuted : exists gw apps h c, gateway_ok gw /\ house_ok h /\ distinct h /\
  (exists s, mruns gw apps 2 (still_house h) [Pressed c] s) /\
  (forall i, i < 2 -> exists a it, a_body (apps i) = follow a it /\ covers gw (it_where it) a = false) /\
  forall ls s, mruns gw apps 2 (still_house h) ls s -> pressed ls = [c] -> ~ all_still apps 2 s /\ forall n, msurely gw apps 2 (fun s' => n <= length (m_by s')) s.
Proof.
  exists gw0, two_foes, pair_house, on11. split; [exact gw0_ok|]. split; [exact pair_house_ok|].
  split. { unfold distinct, pair_house, house0. cbn. repeat constructor; cbn; intuition discriminate. }
  split. { eexists. eapply mruns_cons; [eapply M_press; does_tac (order1 "1" "11")|]. apply MR_nil. }
  split. { intros [|i] _; eexists _, _; (split; [reflexivity|reflexivity]). }
  intros ls s R Ps.
  apply (C148_restless gw0 two_foes 2 pair_house ls s (fun k => if str_eqb (snd k) (lit "11") then 0 else 1) gw0_ok pair_house_ok ltac:(lia) (fun i _ => ltac:(reflexivity)) R).
  - intros p P I. assert (T : forall g, In g (reg1 (K_light STATUS_CHANGE)) -> cb_takes g 2 = true) by (intros g [<-|[]]; reflexivity).
    destruct I as [I|[I|[]]]; rewrite <- I; cbn [place snd p_who p_where lamp11 lamp12]; (split; [vm_compute; lia|]); intros its ts Nt; symmetry in I.
    + change (noticed its reg1 (frame_state p) ts) in Nt. destruct (follow_answers (lit "11") item12 its reg1 p ts (hears 1) Nt P I (or_introl eq_refl) T) as (n & E).
      change (concat (map (answer (follow (lit "11") item12) its) ts) <> []). rewrite E. discriminate.
    + change (noticed its reg1 (frame_state p) ts) in Nt. destruct (follow_answers (lit "12") item11 its reg1 p ts (hears 1) Nt P I (or_introl eq_refl) T) as (n & E).
      change (concat (map (answer (follow (lit "12") item11) its) ts) <> []). rewrite E. discriminate.
  - intros [|i] f k args _; apply follow_reaches; reflexivity.
  - intros [|i] f k args _; apply follow_ok; [exact switch12_ok|exact switch11_ok].
  - rewrite Ps. constructor; [|constructor]. apply (reaches_switch item11 true). reflexivity.
  - rewrite Ps. discriminate.
Qed.
Print Assumptions C148_rest_refuted.
