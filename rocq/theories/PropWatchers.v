(** * Property C114: the event examples of the repository *)
From Coq Require Import String List NArith ZArith Bool Lia.
From Verif Require Import PyStr PyDate PyFloat Tags Messages MessageThms MessageThms3 SpecMsg SpecTag TagThms Protocol AuthOpen SpecOpen AuthHmac IO Client SpecClient HmacThms HandshakeThms HandshakeThms2 SpecItem Items Lighting SpecLight ItemThms
  Gateway SpecGateway Energy SpecEnergy Dispatch SpecDispatch DispatchThms2 SpecHouse HouseThms HouseThms2 PropHouse PropClient SpecMeter MeterThms PropMeter SpecVisit VisitThms PropVisit.
From Verif Require Log.
From Verif Require Import Examples SpecExamples ExampleThms ExampleThms2 PropExamples Watchers SpecWatchers WatcherThms WatcherThms2.
Import ListNotations.
Open Scope N_scope.
Open Scope list_scope.

(** Up to Python 3.12, for every history of packets after the login: the lines
    are those of the events that the loop got to, in order; it waits for more, or
    was ended by an energy event from no energy address. *)
Theorem C114_lines : forall x v C pw rnd s es s1 q acts ms c, v < 13 -> start C (new_client Event) pw rnd true s = (c, (es, s1, Ok tt)) ->
  leaves s1 q -> Forall built q -> arrives acts ms ->
  exists st pre lss, watch x v C pw rnd true s acts = (es, Ok st) /\ narrated x st = concat lss /\ Forall2 (tells x) pre lss /\ Forall (fun m => ~ stray m) pre /\
    ((st_loop st = Dispatch.Waiting /\ q ++ ms = pre ++ st_queue st) \/
     (exists m post, q ++ ms = pre ++ m :: post /\ stray m /\ (st_loop st = Failed IndexError \/ st_loop st = Failed InvalidTag))).
Proof.
  intros x v C pw rnd s es s1 q acts ms c Hv E L B A. assert (U : unread s1 = q) by (clear - L; induction L; cbn; congruence). subst q. eapply watch_lines; eassumption.
Qed.
Print Assumptions C114_lines.

(** When the loop has run, nothing is left to tell. *)
Theorem C114_woken : forall x v C pw rnd s es s1 acts st c, start C (new_client Event) pw rnd true s = (c, (es, s1, Ok tt)) ->
  watch x v C pw rnd true s (acts ++ [Wake]) = (es, Ok st) -> st_loop st = Dispatch.Waiting -> st_queue st = [].
Proof. exact watch_woken. Qed.
Print Assumptions C114_woken.

(** There is one line to tell of an event, at most. *)
Theorem C114_one_line : forall x m ls ls', built m -> tells x m ls -> tells x m ls' -> ls = ls'.
Proof.
  intros x m ls ls' B [(l & S & ->)|(N & ->)] [(l' & S' & ->)|(N' & ->)]; [|destruct (N' _ S)|destruct (N _ S')|reflexivity].
  rewrite (speaks_unique x m l l' B S S'). reflexivity.
Qed.
Print Assumptions C114_one_line.

(** While another client makes any calls in a house: with the right password, one
    line for every lamp (every shutter) whose state the gateway reports; else the
    program ends with the refusal. *)
Theorem C114_house : forall x v C l gw pw rnd s es s1 r c st0 h h1 out1 evs1 cs sc log evs h' out' acts, sane C -> lock_ok l -> v < 13 -> gateway_ok gw -> house_ok h ->
  start C (new_client Event) pw rnd true s = (c, (es, s1, r)) -> visit l gw Waiting h [SpecHouse.frame_ack] es st0 h1 out1 evs1 ->
  (r = Err TimeoutError -> out1 = []) -> unread s1 = [] ->
  Forall HouseThms.call_ok cs -> session_with gw h [] cs sc log evs h' out' -> carries acts evs ->
  (opens l pw /\ exists st ps, watch x v C pw rnd true s (acts ++ [Wake]) = (es, Ok st) /\ st_loop st = Dispatch.Waiting /\
     evs = map frame_state ps /\ Forall point_ok ps /\ narrated x st = concat (map (point_lines x) ps)) \/
  (~ opens l pw /\ watch x v C pw rnd true s (acts ++ [Wake]) = (es, Err InvalidAuthentication)) \/
  (l <> NoLock /\ py_int pw = Err ValueError /\ watch x v C pw rnd true s (acts ++ [Wake]) = (es, Err ValueError)).
Proof. exact watch_house. Qed.
Print Assumptions C114_house.

(** light_02 beside light_01. *)
Theorem C114_light : forall v C pw rnd s es s1 c gw h c0 lines evs h' acts, v < 13 -> ggateway_ok gw -> ghouse_ok h ->
  start C (new_client Event) pw rnd true s = (c, (es, s1, Ok tt)) -> unread s1 = [] ->
  performs gw h (light_plan c0) lines (Ok tt) evs h' -> carries acts evs ->
  let told := map (fun p => lamp_is (p_where p) (if str_eqb (p_state p) (lit "1") then "on" else "off")) (filter (aimed gw LIGHTING (lit "32")) h') in
  exists st, watch Light_02 v C pw rnd true s (acts ++ [Wake]) = (es, Ok st) /\ st_loop st = Dispatch.Waiting /\
    narrated Light_02 st = told ++ (if echoes gw then told else []).
Proof. exact light_beside. Qed.
Print Assumptions C114_light.

(** automation_02 beside automation_01. *)
Theorem C114_automation : forall v C pw rnd s es s1 c gw h c0 lines evs h' acts, v < 13 -> ggateway_ok gw -> ghouse_ok h ->
  (forall what st, react gw AUTOMATION what st = what) ->
  start C (new_client Event) pw rnd true s = (c, (es, s1, Ok tt)) -> unread s1 = [] ->
  performs gw h (automation_plan c0) lines (Ok tt) evs h' -> carries acts evs ->
  let all what := map (fun p => shutter_is (p_where p) what) (filter (aimed gw AUTOMATION (lit "15")) h) in
  exists st, watch Automation_02 v C pw rnd true s (acts ++ [Wake]) = (es, Ok st) /\ st_loop st = Dispatch.Waiting /\
    narrated Automation_02 st = all "up"%string ++ all "stopped"%string ++ all "down"%string ++ all "stopped"%string.
Proof. exact automation_beside. Qed.
Print Assumptions C114_automation.

(** A gateway that reports the timed command as it was given (state 11): light_01
    has switched the lamps on, but shows no line, and light_02 says of every one
    of them that it is off. *)
Theorem C114_minute_refuted : forall v C pw rnd s es s1 c gw h c0 lines evs h' acts, v < 13 -> ggateway_ok gw -> ghouse_ok h ->
  (forall st, react gw LIGHTING (lit "11") st = lit "11") ->
  start C (new_client Event) pw rnd true s = (c, (es, s1, Ok tt)) -> unread s1 = [] ->
  performs gw h (light_plan c0) lines (Ok tt) evs h' -> carries acts evs ->
  let told := map (fun p => lamp_is (p_where p) "off") (filter (aimed gw LIGHTING (lit "32")) h) in
  told <> [] /\ lines = [] /\
  exists st, watch Light_02 v C pw rnd true s (acts ++ [Wake]) = (es, Ok st) /\ narrated Light_02 st = told ++ (if echoes gw then told else []).
Proof.
  intros v C pw rnd s es s1 c gw h c0 lines evs h' acts Hv G Hh R E U P D. cbv zeta.
  destruct (C114_light v C pw rnd s es s1 c gw h c0 lines evs h' acts Hv G Hh E U P D) as (st & W & _ & Nr). cbv zeta in Nr.
  destruct (light_story _ _ _ _ _ _ _ P) as [(_ & _ & X & _)|(X & _ & Eh & Ll & _)]; [discriminate X|].
  assert (Q : filter (aimed gw LIGHTING (lit "32")) h' = map (fun p => {| p_who := p_who p; p_where := p_where p; p_state := lit "11"; p_dims := p_dims p |}) (filter (aimed gw LIGHTING (lit "32")) h)).
  { subst h'. unfold commanded. cbn [fold_left]. clear - R. induction h as [|p h IH]; [reflexivity|]. unfold done_to in *. cbn [map filter]. destruct (aimed gw LIGHTING (lit "32") p) eqn:A.
    - assert (A' : aimed gw LIGHTING (lit "32") (moved gw (lit "11") p) = true) by exact A. rewrite A', IH. cbn [map]. f_equal.
      unfold moved. f_equal. apply andb_true_iff in A as (A & _). apply who_eqb_true in A. rewrite A. apply R.
    - rewrite A. exact IH. }
  split; [|split].
  - apply existsb_exists in X as (p & I & A). assert (I' : In p (filter (aimed gw LIGHTING (lit "32")) h)) by (apply filter_In; auto).
    destruct (filter _ h); [contradiction|discriminate].
  - rewrite Ll, Q, map_map. clear. induction (filter _ h) as [|p l IH]; [reflexivity|exact IH].
  - exists st. split; [exact W|]. rewrite Nr, Q, map_map. reflexivity.
Qed.
Print Assumptions C114_minute_refuted.

(** From Python 3.13 on none of them tells anything. *)
Theorem C114_silent_refuted : forall x v C pw rnd up s acts es st, 13 <= v -> watch x v C pw rnd up s acts = (es, Ok st) -> narrated x st = [].
Proof. exact watch_silent. Qed.
Print Assumptions C114_silent_refuted.

(** ** The house of C113 *)

Example C114_ex_lines : exists es st, watch Light_02 12 toy (lit "12345") [1; 2] true (door0 ++ [Some (MNormal LIGHTING (lit "1") (lit "12"))])
    [Packet (lit "*1*5*11##*2*1*11##"); Wake; Packet (lit "*1*0*12##")] = (es, Ok st) /\
  narrated Light_02 st = [lamp_is (lit "12") "on"; lamp_is (lit "11") "off"] /\ st_queue st = [MNormal LIGHTING (lit "0") (lit "12")].
Proof. eexists. eexists. split; [vm_compute; reflexivity|]. split; vm_compute; reflexivity. Qed.
Example C114_ex_arrives : arrives [Packet (lit "*1*5*11##*2*1*11##"); Wake; Packet (lit "*1*0*12##")]
  [MNormal LIGHTING (lit "5") (lit "11"); MNormal AUTOMATION (lit "1") (lit "11"); MNormal LIGHTING (lit "0") (lit "12")].
Proof.
  apply (Ar_packet [Packet (lit "*1*5*11##*2*1*11##"); Wake] [MNormal LIGHTING (lit "5") (lit "11"); MNormal AUTOMATION (lit "1") (lit "11")] _ [MNormal LIGHTING (lit "0") (lit "12")]); [|vm_compute; reflexivity].
  apply (Ar_wake [Packet (lit "*1*5*11##*2*1*11##")]). apply (Ar_packet [] [] _ _ Ar_start). vm_compute. reflexivity.
Qed.

(** The power and the clock; a stray event ends the program. *)
Example C114_ex_values : exists es st es' st' es2 st2,
  watch Energy_02 12 toy (lit "12345") [1; 2] true door0 [Packet (lit "*#18*51*113*2500##"); Wake] = (es, Ok st) /\
  narrated Energy_02 st = [Tell None (lit "Power consumption changed to ") (Some (VFloat (float_of_N 2500))) (lit " W for 51")] /\
  watch Gateway_02 12 toy (lit "12345") [1; 2] true door0 [Packet (lit "*#13**0*12*30*15*001##"); Wake] = (es', Ok st') /\
  narrated Gateway_02 st' = [Tell None (lit "Time of the gateway is now ") (Some (VTime {| t_hour := 12; t_minute := 30; t_second := 15; t_offset := 3600 |})) []] /\
  watch Light_02 12 toy (lit "12345") [1; 2] true door0 [Packet (lit "*#18*0*113*5##*1*1*12##"); Wake] = (es2, Ok st2) /\
  narrated Light_02 st2 = [] /\ st_loop st2 = Failed InvalidTag.
Proof. do 6 eexists. split; [vm_compute; reflexivity|]. split; [vm_compute; reflexivity|]. split; [vm_compute; reflexivity|]. split; [vm_compute; reflexivity|]. repeat split; vm_compute; reflexivity. Qed.

(** The shutter of C113_ex_automation, heard in one packet. *)
Example C114_ex_automation : exists lines evs h' st, performs gw2 house2 (automation_plan (joined Client.Command)) lines (Ok tt) evs h' /\ carries [Packet (concat evs)] evs /\
  watch Automation_02 12 toy (lit "12345") [1; 2] true door0 [Packet (concat evs); Wake] = (fst (watch Automation_02 12 toy (lit "12345") [1; 2] true door0 []), Ok st) /\
  narrated Automation_02 st = map (shutter_is (lit "15")) ["up"; "stopped"; "down"; "stopped"]%string.
Proof.
  destruct (run2 ExAutomation) as (s & es & s1 & r0 & st & h' & evs & E & V & P).
  destruct (C113_automation _ _ _ _ _ _ _ P) as (L & [(X & _)|(_ & -> & _ & Ev)]); [vm_compute in X; discriminate X|].
  assert (Ev' : evs = map (fun x => lit "*2*" ++ x ++ lit "*15##") [lit "1"; lit "0"; lit "2"; lit "0"]) by (rewrite Ev; vm_compute; reflexivity).
  exists (yields es), evs, h'. eexists. split; [exact P|]. split; [exact (Cy_packet [] [] evs Cy_start)|]. clear - Ev'. subst evs. split; vm_compute; reflexivity.
Qed.

(** The lamp of C113_ex_light behind a gateway that reports commands as given. *)
Example C114_ex_minute : exists lines evs h' es st, performs gw0 house2 (light_plan (joined Client.Command)) lines (Ok tt) evs h' /\
  watch Light_02 12 toy (lit "12345") [1; 2] true door0 [Packet (concat evs); Wake] = (es, Ok st) /\ lines = [] /\
  narrated Light_02 st = [lamp_is (lit "32") "off"; lamp_is (lit "32") "off"].
Proof.
  destruct (C113_possible ExLight toy lock0 gw0 (lit "12345") [1; 2] house2 toy_sane lock0_ok gw0_gok house2_ok) as (s & es & s1 & r & st & h' & evs & E & V & T).
  destruct (C113_house _ _ _ _ _ _ _ _ _ _ _ _ _ _ _ toy_sane lock0_ok gw0_gok house2_ok E V ltac:(congruence)) as (_ & [(_ & r0 & P & ->)|[(X & _)|(_ & X & _)]]);
    [|destruct (X lock0_opens)|vm_compute in X; discriminate X].
  destruct (light_story _ _ _ _ _ _ _ P) as [(X & _)|(_ & -> & _)]; [vm_compute in X; discriminate X|].
  destruct (C114_minute_refuted 12 toy (lit "12345") [1; 2] door0 (fst (watch Light_02 12 toy (lit "12345") [1; 2] true door0 [])) [] {| cl_session := Event; cl_proto := true |} gw0 house2 _ _ evs h' [Packet (concat evs)]
    ltac:(reflexivity) gw0_gok house2_ok ltac:(reflexivity) ltac:(vm_compute; reflexivity) eq_refl P (Cy_packet [] [] evs Cy_start)) as (_ & Ll & st' & W & Nr).
  exists (yields es), evs, h'. eexists. exists st'. split; [exact P|]. split; [exact W|]. split; [exact Ll|]. rewrite Nr. vm_compute. reflexivity.
Qed.
