(** * Property C113: the example programs of the repository *)
From Coq Require Import String List NArith ZArith Bool Lia.
From Verif Require Import PyStr PyDate PyFloat Tags Messages MessageThms MessageThms3 SpecMsg SpecTag TagThms AuthOpen SpecOpen AuthHmac IO Client SpecClient HmacThms HandshakeThms HandshakeThms2 SpecItem Items Lighting SpecLight ItemThms
  Gateway SpecGateway Energy Dispatch SpecHouse HouseThms HouseThms2 PropHouse PropClient SpecMeter MeterThms PropMeter SpecVisit VisitThms PropVisit.
From Verif Require Log.
From Verif Require Import Examples SpecExamples ExampleThms ExampleThms2.
Import ListNotations.
Open Scope N_scope.
Open Scope list_scope.

(** light_01, automation_01, energy_management_01 and gateway_01, run against a
    gateway with a house: with the right password the calls of the plan are made
    one after the other, each does to the house what it stands for, and the lines
    are those of the plan; the first call that fails ends the program.  Otherwise
    nothing is shown and nothing happens to the house. *)
Theorem C113_house : forall x C l gw pw rnd s es s1 r h st h' out' evs, sane C -> lock_ok l -> ggateway_ok gw -> ghouse_ok h ->
  example (program_of x) C pw rnd true s = (es, s1, r) -> visit l gw Waiting h [SpecHouse.frame_ack] es st h' out' evs ->
  (r = Err TimeoutError -> out' = []) ->
  out' = [] /\
  ((opens l pw /\ exists r0, performs gw h (plan_of x (joined Client.Command)) (yields es) r0 evs h' /\ r = ended Client.Command r0) \/
   (~ opens l pw /\ r = Err InvalidAuthentication /\ yields es = [] /\ evs = [] /\ h' = h) \/
   (l <> NoLock /\ py_int pw = Err ValueError /\ r = Err ValueError /\ yields es = [] /\ evs = [] /\ h' = h)).
Proof. exact example_house. Qed.
Print Assumptions C113_house.

(** Such a run is possible with every lock, password and house, and none waits in
    vain. *)
Theorem C113_possible : forall x C l gw pw rnd h, sane C -> lock_ok l -> ggateway_ok gw -> ghouse_ok h ->
  exists s es s1 r st h' evs, example (program_of x) C pw rnd true s = (es, s1, r) /\
    visit l gw Waiting h [SpecHouse.frame_ack] es st h' [] evs /\ r <> Err TimeoutError.
Proof. exact example_possible. Qed.
Print Assumptions C113_possible.

(** The light example: WHAT 11 to everything at 32, then one line for each lamp
    there whose state is then on or off. *)
Theorem C113_light : forall gw h c lines r evs h', performs gw h (light_plan c) lines r evs h' ->
  let a := lit "32" in
  (existsb (aimed gw LIGHTING a) h = false /\ lines = [] /\ r = Err ResponseError /\ evs = [] /\ h' = h) \/
  (existsb (aimed gw LIGHTING a) h = true /\ r = Ok tt /\ h' = commanded gw LIGHTING a ["11"%string] h /\
   lines = concat (map lamp_lines (filter (aimed gw LIGHTING a) h')) /\
   evs = reports gw LIGHTING a h' ++ (if echoes gw then reports gw LIGHTING a h' else [])).
Proof. exact light_story. Qed.
Print Assumptions C113_light.

(** The automation example: up, stop, down, stop. *)
Theorem C113_automation : forall gw h c lines r evs h', performs gw h (automation_plan c) lines r evs h' ->
  let a := lit "15" in let after whats := commanded gw AUTOMATION a whats h in
  lines = [] /\
  ((existsb (aimed gw AUTOMATION a) h = false /\ r = Err ResponseError /\ evs = [] /\ h' = h) \/
   (existsb (aimed gw AUTOMATION a) h = true /\ r = Ok tt /\ h' = after ["1"; "0"; "2"; "0"]%string /\
    evs = concat (map (fun whats => reports gw AUTOMATION a (after whats)) [["1"]; ["1"; "0"]; ["1"; "0"; "2"]; ["1"; "0"; "2"; "0"]]%string))).
Proof. exact automation_story. Qed.
Print Assumptions C113_automation.

(** The energy example: the power that the first meter to answer reports. *)
Theorem C113_energy : forall gw h c lines r evs h', performs gw h (energy_plan c) lines r evs h' ->
  evs = [] /\ h' = h /\
  ((no_answer gw h ENERGY_MANAGEMENT (lit "51") QPower /\ lines = [] /\ r = Err ResponseError) \/
   (exists f, first_answer gw h ENERGY_MANAGEMENT (lit "51") QPower (AFloat f) /\ r = Ok tt /\
      lines = [Logged Log.INFO (lit "Active power: ") (Some (VFloat f))])).
Proof. exact energy_story. Qed.
Print Assumptions C113_energy.

(** The gateway example: address, name of the model, clock and kernel version, up
    to the first of them that is not answered. *)
Theorem C113_gateway : forall gw h c lines r evs h', performs gw h (gateway_plan c) lines r evs h' ->
  evs = [] /\ h' = h /\
  ((exists ip model name d t k, r = Ok tt /\ first_answer gw h GATEWAY [] QIp (AIp ip) /\
      first_answer gw h GATEWAY [] QModel (AText (lit model)) /\ In (model, name) models /\
      first_answer gw h GATEWAY [] QDatetime (ADatetime d t) /\ first_answer gw h GATEWAY [] QKernel (AText k) /\
      lines = [Printed [] (Some (VAddr ip)); Printed (lit name) None; Printed [] (Some (VDateTime (d, t))); Printed k None]) \/
   (exists before q after, r = Err ResponseError /\ [QIp; QModel; QDatetime; QKernel] = before ++ q :: after /\
      no_answer gw h GATEWAY [] q /\ (forall q', In q' before -> exists x, first_answer gw h GATEWAY [] q' x) /\ length lines = length before)).
Proof. exact gateway_story. Qed.
Print Assumptions C113_gateway.

(** The camera example, whatever the gateway says: after start(), lines and
    frames in turn, up to the first frame that is not acknowledged. *)
Theorem C113_camera : forall host C pw rnd s es s2 r, sane C -> example (camera_01 host) C pw rnd true s = (es, s2, r) ->
  exists c es0 s1 r0 es2, @start Empty_set C (new_client Client.Command) pw rnd true s = (c, (es0, s1, r0)) /\ es = retag void es0 ++ es2 /\
    ((exists e, r0 = Err e /\ es2 = [] /\ s2 = s1 /\ r = Err e) \/
     (exists r2, r0 = Ok tt /\ carried (camera_plan host) s1 (es2, s2, r2) /\ r = ended Client.Command r2)).
Proof.
  intros host C pw rnd s es s2 r HC E. refine (example_talk (camera_01 host) (carried (camera_plan host)) C pw rnd s es s2 r HC _ E).
  intros c s0 H1 H2. exact (camera_talk host c s0 H1 H2).
Qed.
Print Assumptions C113_camera.

(** custom_message_01, whatever the gateway says: one request, at most two
    messages read, and what is shown for them. *)
Theorem C113_ip : forall C pw rnd s es s2 r, sane C -> example custom_message_01 C pw rnd true s = (es, s2, r) ->
  exists c es0 s1 r0 es2, @start Empty_set C (new_client Client.Command) pw rnd true s = (c, (es0, s1, r0)) /\ es = retag void es0 ++ es2 /\
    ((exists e, r0 = Err e /\ es2 = [] /\ s2 = s1 /\ r = Err e) \/
     (exists r2, r0 = Ok tt /\ (sents es2 = [lit "*#13**10##"] /\ ip_asked s1 (gots es2) (yields es2) s2 r2) /\ r = ended Client.Command r2)).
Proof.
  intros C pw rnd s es s2 r HC E.
  refine (example_talk custom_message_01 (fun s1 x => match x with (es2, s2, r2) => sents es2 = [lit "*#13**10##"] /\ ip_asked s1 (gots es2) (yields es2) s2 r2 end) C pw rnd s es s2 r HC _ E).
  intros c s0 H1 H2. destruct (ip_talk c s0 H1 H2) as (e2 & s3 & r3 & -> & X). exact X.
Qed.
Print Assumptions C113_ip.

(** custom_message_02: one request, then every message up to an ACK. *)
Theorem C113_day : forall C pw rnd s es s2 r, sane C -> example custom_message_02 C pw rnd true s = (es, s2, r) ->
  exists c es0 s1 r0 es2, @start Empty_set C (new_client Client.Command) pw rnd true s = (c, (es0, s1, r0)) /\ es = retag void es0 ++ es2 /\
    ((exists e, r0 = Err e /\ es2 = [] /\ s2 = s1 /\ r = Err e) \/
     (exists r2, r0 = Ok tt /\ (sents es2 = [lit "*#18*52*511#10#7##"] /\ readings s1 (gots es2) (yields es2) s2 r2) /\ r = ended Client.Command r2)).
Proof.
  intros C pw rnd s es s2 r HC E.
  refine (example_talk custom_message_02 (fun s1 x => match x with (es2, s2, r2) => sents es2 = [lit "*#18*52*511#10#7##"] /\ readings s1 (gots es2) (yields es2) s2 r2 end) C pw rnd s es s2 r HC _ E).
  intros c s0 H1 H2. destruct (day_talk c s0 H1 H2) as (e2 & s3 & r3 & -> & X). exact X.
Qed.
Print Assumptions C113_day.

(** ** A house: a lamp at 32, a shutter at 15, a meter at 51, the gateway's own
    data; "on for a minute" leaves a lamp on *)

Definition gw2 : SpecHouse.gateway :=
  {| covers := covers gw0; react := fun _ what _ => if str_eqb what (lit "11") then lit "1" else what; echoes := false |}.
Definition lamp32 : point := {| p_who := LIGHTING; p_where := lit "32"; p_state := lit "0"; p_dims := no_dims |}.
Definition blind15 : point := {| p_who := AUTOMATION; p_where := lit "15"; p_state := lit "0"; p_dims := no_dims |}.
Definition house2 : house := lamp32 :: blind15 :: house1.

Lemma gw2_ok : ggateway_ok gw2.
Proof.
  destruct gw0_ok as (A & B). split; [split|].
  - intros n st k D W T. cbn [react gw2]. destruct (str_eqb (dec n) (lit "11")); [|exact (A n st k D W T)].
    exact (A 1 st k ltac:(discriminate) W T).
  - intros c c'. exists c. destruct c; reflexivity.
  - intros what st W _. cbn [react gw2]. destruct (str_eqb what (lit "11")); [apply (wiretagb_spec (lit "1")); reflexivity|exact W].
Qed.
Lemma house2_ok : ghouse_ok house2.
Proof.
  assert (N : forall d, d = lit "32" \/ d = lit "15" -> ~ SpecProto.ends_hash d).
  { intros d E (u & X). apply (f_equal (fun l => last l 0)) in X. cbv beta in X. rewrite last_last in X. destruct E as [->| ->]; discriminate X. }
  unfold house2. apply Forall_cons; [|apply Forall_cons; [|exact house1_ok]].
  - split; [|intros q vs _ E; discriminate E]. split; [apply (wiretagb_spec (lit "32")); reflexivity|]. split; [apply N; auto|]. split; [apply (wiretagb_spec (lit "0")); reflexivity|].
    split; [intros _|discriminate]. split; [|discriminate].
    exists 0, (lit "0"), []. split; [reflexivity|]. split; [constructor|]. split; [apply (MessageThms.digits_all (lit "0")); reflexivity|]. split; [discriminate|]. split; [reflexivity|]. vm_compute. discriminate.
  - split; [|intros q vs _ E; discriminate E]. split; [apply (wiretagb_spec (lit "15")); reflexivity|]. split; [apply N; auto|]. split; [apply (wiretagb_spec (lit "0")); reflexivity|].
    split; [discriminate|]. intros _. exists stop. reflexivity.
Qed.

Lemma lock0_ok : lock_ok lock0. Proof. exact (proj1 C107_ex). Qed.
Lemma lock0_opens : opens lock0 (lit "12345"). Proof. exact (proj1 (proj2 C107_ex)). Qed.

Lemma run2 x : exists s es s1 r0 st h' evs, example (program_of x) toy (lit "12345") [1; 2] true s = (es, s1, ended Client.Command r0) /\
  visit lock0 gw2 Waiting house2 [SpecHouse.frame_ack] es st h' [] evs /\
  performs gw2 house2 (plan_of x (joined Client.Command)) (yields es) r0 evs h'.
Proof.
  destruct (C113_possible x toy lock0 gw2 (lit "12345") [1; 2] house2 toy_sane lock0_ok gw2_ok house2_ok) as (s & es & s1 & r & st & h' & evs & E & V & T).
  destruct (C113_house _ _ _ _ _ _ _ _ _ _ _ _ _ _ _ toy_sane lock0_ok gw2_ok house2_ok E V ltac:(congruence)) as (_ & [(_ & r0 & P & ->)|[(X & _)|(_ & X & _)]]).
  - exists s, es, s1, r0, st, h', evs. auto.
  - destruct (X lock0_opens).
  - vm_compute in X. discriminate X.
Qed.

(** The light example shows that the lamp is on, and the lamp is on. *)
Example C113_ex_light : exists s es s1 st h' evs, example light_01 toy (lit "12345") [1; 2] true s = (es, s1, ended Client.Command (Ok tt)) /\
  visit lock0 gw2 Waiting house2 [SpecHouse.frame_ack] es st h' [] evs /\
  yields es = [Printed (lit "Light 32 status: ON") None] /\ map p_state h' = map p_state ({| p_who := LIGHTING; p_where := lit "32"; p_state := lit "1"; p_dims := no_dims |} :: blind15 :: house1).
Proof.
  destruct (run2 ExLight) as (s & es & s1 & r0 & st & h' & evs & E & V & P).
  destruct (C113_light _ _ _ _ _ _ _ P) as [(X & _)|(_ & -> & Eh & L & _)]; [vm_compute in X; discriminate X|].
  exists s, es, s1, st, h', evs. split; [exact E|]. split; [exact V|]. subst h'. split; [rewrite L|]; vm_compute; reflexivity.
Qed.

(** The shutter example leaves the shutter where it was stopped, after four
    reports. *)
Example C113_ex_automation : exists s es s1 st h' evs, example automation_01 toy (lit "12345") [1; 2] true s = (es, s1, ended Client.Command (Ok tt)) /\
  visit lock0 gw2 Waiting house2 [SpecHouse.frame_ack] es st h' [] evs /\
  yields es = [] /\ evs = map (fun x => lit "*2*" ++ x ++ lit "*15##") [lit "1"; lit "0"; lit "2"; lit "0"].
Proof.
  destruct (run2 ExAutomation) as (s & es & s1 & r0 & st & h' & evs & E & V & P).
  destruct (C113_automation _ _ _ _ _ _ _ P) as (L & [(X & _)|(_ & -> & _ & Ev)]); [vm_compute in X; discriminate X|].
  exists s, es, s1, st, h', evs. split; [exact E|]. split; [exact V|]. split; [exact L|]. rewrite Ev. vm_compute. reflexivity.
Qed.

(** The energy example shows 2500.0. *)
Example C113_ex_energy : exists s es s1 st evs, example energy_management_01 toy (lit "12345") [1; 2] true s = (es, s1, ended Client.Command (Ok tt)) /\
  visit lock0 gw2 Waiting house2 [SpecHouse.frame_ack] es st house2 [] evs /\
  exists f, yields es = [Logged Log.INFO (lit "Active power: ") (Some (VFloat f))] /\ first_answer gw2 house2 ENERGY_MANAGEMENT (lit "51") QPower (AFloat f).
Proof.
  destruct (run2 ExEnergy) as (s & es & s1 & r0 & st & h' & evs & E & V & P).
  destruct (C113_energy _ _ _ _ _ _ _ P) as (_ & -> & [(X & _)|(f & F & -> & L)]).
  - exfalso. specialize (X meter51 ltac:(unfold house2, house1; cbn; tauto) eq_refl). discriminate X.
  - exists s, es, s1, st, evs. split; [exact E|]. split; [exact V|]. exists f. auto.
Qed.

(** This gateway says its address and date but not its model: the gateway example
    shows one line and fails. *)
Example C113_ex_gateway : exists s es s1 st evs, example gateway_01 toy (lit "12345") [1; 2] true s = (es, s1, Err ResponseError) /\
  visit lock0 gw2 Waiting house2 [SpecHouse.frame_ack] es st house2 [] evs /\ length (yields es) = 1%nat.
Proof.
  destruct (run2 ExGateway) as (s & es & s1 & r0 & st & h' & evs & E & V & P).
  destruct (C113_gateway _ _ _ _ _ _ _ P) as (_ & -> & [(ip & m & n & d & t & k & _ & _ & F & _)|(b & q & a & -> & Eq & No & B & L)]).
  - exfalso. destruct F as (h1 & p & h2 & vs & Eh & _ & _ & D & _). assert (I : In p house2) by (rewrite Eh; apply in_elt).
    cbn in I. repeat (destruct I as [<-|I]; [discriminate D|]). contradiction.
  - exists s, es, s1, st, evs. split; [exact E|]. split; [exact V|]. rewrite L.
    destruct b as [|q1 [|q2 b]]; [|reflexivity|].
    + injection Eq as <- _. exfalso. specialize (No own ltac:(unfold house2, house1; cbn; tauto) eq_refl). discriminate No.
    + injection Eq as <- <- _. destruct (B QModel ltac:(cbn; tauto)) as (x & h1 & p & h2 & vs & Eh & _ & _ & D & _). assert (I : In p house2) by (rewrite Eh; apply in_elt).
      cbn in I. repeat (destruct I as [<-|I]; [discriminate D|]). contradiction.
Qed.

(** A wrong password: nothing is shown, nothing happens. *)
Example C113_ex_refused : exists s es s1 st h' evs, example light_01 toy (lit "12346") [1; 2] true s = (es, s1, Err InvalidAuthentication) /\
  visit lock0 gw2 Waiting house2 [SpecHouse.frame_ack] es st h' [] evs /\ yields es = [] /\ h' = house2.
Proof.
  destruct (C113_possible ExLight toy lock0 gw2 (lit "12346") [1; 2] house2 toy_sane lock0_ok gw2_ok house2_ok) as (s & es & s1 & r & st & h' & evs & E & V & T).
  destruct (C113_house _ _ _ _ _ _ _ _ _ _ _ _ _ _ _ toy_sane lock0_ok gw2_ok house2_ok E V ltac:(congruence)) as (_ & [(X & _)|[(_ & -> & Y & _ & Z)|(_ & X & _)]]).
  - destruct (proj1 (proj2 (proj2 C107_ex)) X).
  - exists s, es, s1, st, h', evs. auto.
  - vm_compute in X. discriminate X.
Qed.

(** Camera: a NACK to the zoom ends the program. *)
Example C113_ex_camera : exists es, example (camera_01 (lit "h")) toy (lit "12345") [1; 2] true (door0 ++ map Some [MAck; MNack]) = (es, [], Err ResponseError) /\
  sents es = [lit "*99*9##"; lit "*#25280520##"; lit "*7*0*4000##"; lit "*7*120##"] /\ length (yields es) = 4%nat.
Proof. eexists. split; [vm_compute; reflexivity|]. split; vm_compute; reflexivity. Qed.

(** The address is read from the answer; from an answer that is too short it is
    not. *)
Example C113_ex_ip : exists es es', 
  example custom_message_01 toy (lit "12345") [1; 2] true (door0 ++ map Some [MDimRes GATEWAY [] (lit "10") [lit "192"; lit "168"; lit "1"; lit "35"]; MAck]) = (es, [], Ok (close (joined Client.Command))) /\
  yields es = [info_line (lit "The server acknowledged the message"); Printed (lit "The ip address of the server is 192.168.1.35") None] /\
  example custom_message_01 toy (lit "12345") [1; 2] true (door0 ++ map Some [MAck; MAck]) = (es', [], Err IndexError) /\
  yields es' = [info_line (lit "The server acknowledged the message")].
Proof. eexists. eexists. split; [vm_compute; reflexivity|]. split; [vm_compute; reflexivity|]. split; vm_compute; reflexivity. Qed.

(** One measure of the day, then the end. *)
Example C113_ex_day : exists es, 
  example custom_message_02 toy (lit "12345") [1; 2] true (door0 ++ map Some [MDimRes ENERGY_MANAGEMENT (lit "52") (lit "511#10#7") [lit "3"; lit "120"]; MNack; MAck; MNack]) = (es, [Some MNack], Ok (close (joined Client.Command))) /\
  yields es = [info_line (lit "Received response: *#18*52*511#10#7*3*120##"); Printed (lit "['10', '7']") None;
               info_line (lit "Month: 10, Day: 7, Number of the measure: 3, Value: 120"); error_line "Received NACK"].
Proof. eexists. split; vm_compute; reflexivity. Qed.
