(** * An event example beside another program *)
From Coq Require Import String List NArith ZArith Bool Lia.
From Verif Require Import PyStr PyDate PyFloat Tags Messages SpecMsg SpecTag MessageThms3 Protocol SpecProto AuthHmac IO Client SpecClient HmacThms SpecItem Items
  Lighting SpecLight HandshakeThms ItemThms LightThms LightThms2 Gateway SpecGateway Energy Dispatch SpecDispatch DispatchThms2
  SpecHouse HouseThms HouseThms2 SpecNotice NoticeThms SpecMeter MeterThms SpecVisit VisitThms.
From Verif Require Log.
From Verif Require Import Examples SpecExamples ExampleThms ExampleThms2 Watchers SpecWatchers WatcherThms.
Import ListNotations.
Open Scope N_scope.
Open Scope list_scope.

(** Any calls of another client; login included. *)
Theorem watch_house x v C l gw pw rnd s es s1 r c st0 h h1 out1 evs1 cs sc log evs h' out' acts : sane C -> lock_ok l -> v < 13 -> gateway_ok gw -> house_ok h ->
  start C (new_client Event) pw rnd true s = (c, (es, s1, r)) -> visit l gw Waiting h [SpecHouse.frame_ack] es st0 h1 out1 evs1 ->
  (r = Err TimeoutError -> out1 = []) -> unread s1 = [] ->
  Forall HouseThms.call_ok cs -> session_with gw h [] cs sc log evs h' out' -> carries acts evs ->
  (opens l pw /\ exists st ps, watch x v C pw rnd true s (acts ++ [Wake]) = (es, Ok st) /\ st_loop st = Dispatch.Waiting /\
     evs = map frame_state ps /\ Forall point_ok ps /\ narrated x st = concat (map (point_lines x) ps)) \/
  (~ opens l pw /\ watch x v C pw rnd true s (acts ++ [Wake]) = (es, Err InvalidAuthentication)) \/
  (l <> NoLock /\ py_int pw = Err ValueError /\ watch x v C pw rnd true s (acts ++ [Wake]) = (es, Err ValueError)).
Proof.
  intros HC L Hv G Hh E V T U F S D.
  destruct (login_visit _ _ _ _ _ _ _ _ _ _ _ _ _ _ _ _ HC L E V T) as (_ & _ & _ & _ & [(-> & O & _)|[(-> & O & _)|(-> & P & _ & q & n & ->)]]).
  - left. split; [exact O|]. destruct (session_story gw h [] cs sc log evs h' out' S G Hh F eq_refl) as (St & _ & _).
    destruct (story_events gw h cs log evs h' St G Hh) as (ps & Fp & ->).
    destruct (watch_points x v C pw rnd s es s1 acts ps c Hv E U Fp D) as (st & W & Lp & _ & Nr). exists st, ps. split; [exact W|]. split; [exact Lp|]. split; [reflexivity|].
    split; [|exact Nr]. eapply Forall_impl; [|exact Fp]. intros p H. apply H.
  - right. left. split; [exact O|]. unfold watch. rewrite E. reflexivity.
  - right. right. split; [discriminate|]. split; [exact P|]. unfold watch. rewrite E. reflexivity.
Qed.

(** ** Beside the command examples *)

Lemma performs_ok gw h plan lines r evs h' : ggateway_ok gw -> ghouse_ok h -> Forall (fun a => wiretag (it_where (gitem (a_call a)))) plan -> performs gw h plan lines r evs h' -> ghouse_ok h'.
Proof.
  intros G Hh F P. revert Hh F. induction P as [h|h a plan h1 obs x evs ls lines r evs' h' D A P IH|h a plan h1 obs e evs D]; intros Hh F; [exact Hh| |]; inversion F; subst.
  - apply IH; [|assumption]. eapply gdoes_ok; eassumption.
  - eapply gdoes_ok; eassumption.
Qed.

(** light_02 while light_01 runs. *)
Theorem light_beside v C pw rnd s es s1 c gw h c0 lines evs h' acts : v < 13 -> ggateway_ok gw -> ghouse_ok h ->
  start C (new_client Event) pw rnd true s = (c, (es, s1, Ok tt)) -> unread s1 = [] ->
  performs gw h (light_plan c0) lines (Ok tt) evs h' -> carries acts evs ->
  let told := map (fun p => lamp_is (p_where p) (if str_eqb (p_state p) (lit "1") then "on" else "off")) (filter (aimed gw LIGHTING (lit "32")) h') in
  exists st, watch Light_02 v C pw rnd true s (acts ++ [Wake]) = (es, Ok st) /\ st_loop st = Dispatch.Waiting /\
    narrated Light_02 st = told ++ (if echoes gw then told else []).
Proof.
  intros Hv G Hh E U P D. cbv zeta.
  assert (H' : house_ok h').
  { apply ghouse_house. eapply performs_ok; [exact G|exact Hh| |exact P]. unfold light_plan. repeat (apply Forall_cons; [apply (wiretagb_spec (lit "32")); reflexivity|]). apply Forall_nil. }
  destruct (light_story _ _ _ _ _ _ _ P) as [(_ & _ & X & _)|(_ & _ & _ & _ & ->)]; [discriminate X|].
  set (ps := filter (aimed gw LIGHTING (lit "32")) h') in *.
  assert (F : Forall spoken ps) by (apply aimed_spoken; auto).
  assert (Er : reports gw LIGHTING (lit "32") h' ++ (if echoes gw then reports gw LIGHTING (lit "32") h' else []) = map frame_state (ps ++ if echoes gw then ps else [])).
  { rewrite map_app. unfold reports. fold ps. destruct (echoes gw); reflexivity. }
  rewrite Er in D.
  assert (F2 : Forall spoken (ps ++ if echoes gw then ps else [])) by (apply Forall_app; split; [exact F|destruct (echoes gw); [exact F|constructor]]).
  destruct (watch_points Light_02 v C pw rnd s es s1 acts _ c Hv E U F2 D) as (st & W & Lp & _ & Nr). exists st. split; [exact W|]. split; [exact Lp|]. rewrite Nr, map_app, concat_app.
  assert (K : concat (map (point_lines Light_02) ps) = map (fun p => lamp_is (p_where p) (if str_eqb (p_state p) (lit "1") then "on" else "off")) ps).
  { assert (Fa : Forall (fun p => p_who p = LIGHTING) ps).
    { apply Forall_forall. intros p I. apply filter_In in I as (_ & A). unfold aimed in A. apply andb_true_iff in A as (A & _). apply who_eqb_true. exact A. }
    clear - Fa. induction Fa as [|p ps A Fa IH]; [reflexivity|]. cbn [map concat]. rewrite IH. unfold point_lines at 1. rewrite A. reflexivity. }
  rewrite K. destruct (echoes gw); [rewrite K|]; reflexivity.
Qed.

(** automation_02 while automation_01 runs: four lines for every shutter that
    takes a command for its new state. *)
Theorem automation_beside v C pw rnd s es s1 c gw h c0 lines evs h' acts : v < 13 -> ggateway_ok gw -> ghouse_ok h ->
  (forall what st, react gw AUTOMATION what st = what) ->
  start C (new_client Event) pw rnd true s = (c, (es, s1, Ok tt)) -> unread s1 = [] ->
  performs gw h (automation_plan c0) lines (Ok tt) evs h' -> carries acts evs ->
  let all what := map (fun p => shutter_is (p_where p) what) (filter (aimed gw AUTOMATION (lit "15")) h) in
  exists st, watch Automation_02 v C pw rnd true s (acts ++ [Wake]) = (es, Ok st) /\ st_loop st = Dispatch.Waiting /\
    narrated Automation_02 st = all "up"%string ++ all "stopped"%string ++ all "down"%string ++ all "stopped"%string.
Proof.
  intros Hv G Hh R E U P D. cbv zeta. pose proof (ghouse_house _ Hh) as Hh0. destruct G as (G & _).
  destruct (automation_story _ _ _ _ _ _ _ P) as (_ & [(_ & X & _)|(_ & _ & _ & ->)]); [discriminate X|].
  set (f := fun (what : string) (p : point) => {| p_who := p_who p; p_where := p_where p; p_state := lit what; p_dims := p_dims p |}).
  assert (Q : forall what h, filter (aimed gw AUTOMATION (lit "15")) (done_to gw AUTOMATION (lit "15") (moved gw (lit what)) h) = map (f what) (filter (aimed gw AUTOMATION (lit "15")) h)).
  { clear - R. intros what h. induction h as [|p h IH]; [reflexivity|]. unfold done_to in *. cbn [map filter]. destruct (aimed gw AUTOMATION (lit "15") p) eqn:A.
    - assert (A' : aimed gw AUTOMATION (lit "15") (moved gw (lit what) p) = true) by exact A. rewrite A', IH. cbn [map]. f_equal.
      unfold moved, f. f_equal. apply andb_true_iff in A as (A & _). apply who_eqb_true in A. rewrite A. apply R.
    - rewrite A. exact IH. }
  set (ps := filter (aimed gw AUTOMATION (lit "15")) h) in *.
  assert (Wp : Forall (fun p => p_who p = AUTOMATION) ps).
  { apply Forall_forall. intros p I. apply filter_In in I as (_ & A). unfold aimed in A. apply andb_true_iff in A as (A & _). apply who_eqb_true. exact A. }
  assert (Fs : forall (c : auto_cmd) qs, Forall (fun p => p_who p = AUTOMATION) qs -> Forall point_ok qs -> forall what, lit what = dec (doc_automation c) -> Forall spoken (map (f what) qs)).
  { intros k qs Wq Pq what Ew. apply Forall_map. apply Forall_forall. intros p I. rewrite Forall_forall in Wq, Pq. destruct (Pq p I) as (A & B & _). split; [|right; exact (Wq p I)].
    split; [exact A|]. split; [exact B|]. cbn [f p_state p_who]. rewrite Ew. split; [apply dec_wire|]. split; [intros X; rewrite (Wq p I) in X; discriminate X|]. intros _. exists k. reflexivity. }
  assert (Fm : forall a b qs, map (f a) (map (f b) qs) = map (f a) qs) by (intros a b qs; rewrite map_map; reflexivity).
  assert (Ee : concat (map (fun whats => reports gw AUTOMATION (lit "15") (commanded gw AUTOMATION (lit "15") whats h)) [["1"]; ["1"; "0"]; ["1"; "0"; "2"]; ["1"; "0"; "2"; "0"]]%string) =
    map frame_state (map (f "1"%string) ps ++ map (f "0"%string) ps ++ map (f "2"%string) ps ++ map (f "0"%string) ps)).
  { cbn [map concat]. unfold reports, commanded. cbn [fold_left]. rewrite !Q, !Fm, app_nil_r, !map_app. reflexivity. }
  rewrite Ee in D.
  assert (Pp : Forall point_ok ps) by (apply Forall_forall; intros p I; apply filter_In in I as (I & _); unfold house_ok in Hh0; rewrite Forall_forall in Hh0; apply Hh0, I).
  assert (F : Forall spoken (map (f "1"%string) ps ++ map (f "0"%string) ps ++ map (f "2"%string) ps ++ map (f "0"%string) ps)).
  { repeat (apply Forall_app; split); [apply (Fs up)|apply (Fs stop)|apply (Fs down)|apply (Fs stop)]; auto. }
  destruct (watch_points Automation_02 v C pw rnd s es s1 acts _ c Hv E U F D) as (st & W & Lp & _ & Nr). exists st. split; [exact W|]. split; [exact Lp|].
  rewrite Nr, !map_app, !concat_app.
  assert (K : forall what line, (forall p, p_who p = AUTOMATION -> point_lines Automation_02 (f what p) = [shutter_is (p_where p) line]) ->
    concat (map (point_lines Automation_02) (map (f what) ps)) = map (fun p => shutter_is (p_where p) line) ps).
  { clear - Wp. intros what line H. induction Wp as [|p ps A Wp IH]; [reflexivity|]. cbn [map concat]. rewrite IH, (H p A). reflexivity. }
  rewrite (K "1"%string "up"%string), (K "0"%string "stopped"%string), (K "2"%string "down"%string); [reflexivity|..]; intros p A; unfold point_lines; cbn [f p_who p_state p_where]; rewrite A; reflexivity.
Qed.
