(** * Clock and meters at the end of the line: proofs *)
From Coq Require Import String List NArith ZArith Bool Lia.
From Verif Require Import PyStr PyDate PyFloat Tags Messages MessageFacts SpecMsg SpecTag MessageThms MessageThms2 MessageThms3 TagThms SpecProto ProtoThms Protocol Queue Sender IO Client SpecItem Items
  Lighting SpecLight HandshakeThms ItemThms LightThms LightThms2 FrameThms Gateway SpecGateway CalendarThms GatewayThms GatewayThms2 Energy SpecEnergy
  Conc SpecConc SpecSerial SerialThms SpecHouse HouseThms HouseThms2 SpecTogether SerialThms2 TogetherThms Line SpecLine LineThms LineThms2 LineThms3 SpecMeter MeterThms MeterThms2 SpecServer ServerThms.
Import ListNotations.
Open Scope N_scope.
Open Scope list_scope.

Lemma whole_verdict p ms r : whole_answer p ms r -> r = verdict ms.
Proof.
  intros W. inversion W as [|m N|keep l F|keep l m F N K]; subst; unfold verdict; try rewrite last_last; try reflexivity.
  - cbn [last]. destruct m; try reflexivity. congruence.
  - destruct m; try reflexivity. congruence.
Qed.

Lemma gdoes_plain gw h g h1 obs r evs : plain h -> gdoes gw h g h1 obs r evs -> plain h1.
Proof.
  intros P D. destruct D as [c h' obs r evs D|g o Ho X|g o h' ans evs Nc Ho St X O|it q X N|it q ha p hb vs a Eh N A Ev Sa]; try assumption; [eapply does_plain; eassumption|].
  assert (K : forall w a f, (forall p, (forall d vs, p_dims p d = Some vs -> Forall (fun v => ~ ends_hash v) vs) ->
      (forall d vs, p_dims (f p) d = Some vs -> Forall (fun v => ~ ends_hash v) vs)) -> plain (done_to gw w a f h)).
  { intros w a f F. unfold plain, done_to. apply Forall_forall. intros p Hp. apply in_map_iff in Hp as (q & <- & I).
    unfold plain in P. rewrite Forall_forall in P. destruct (aimed gw w a q); [apply F|]; apply P, I. }
  assert (Fx : forall k s n, fixed k s n -> ~ ends_hash s) by (intros k s n ((Dg & _) & _); apply digits_plain, Dg).
  destruct O; try assumption; apply K.
  - intros p Hp d vs Y. apply (Hp d vs Y).
  - intros p Hp d' vs' Y. cbn in Y. destruct (str_eqb d d'); [|apply (Hp d' vs' Y)]. injection Y as <-.
    inversion Ho as [c o' S|it y m d0 w0 ws ds ms ys C Fo F1 F2 F3 Nm|it h0 m s us hs ms ss zs H1 H2 H3 F1 F2 F3 Z| | ]; subst.
    + destruct (Nc c eq_refl).
    + repeat (apply Forall_cons; [eauto|]); [|apply Forall_nil]. apply digits_plain, Nm.
    + repeat (apply Forall_cons; [eauto|]); [|apply Forall_nil]. inversion Z as [u t Hu ((Dg & _) & _)|u t Hu ((Dg & _) & _)]; subst; apply digits_plain; (constructor; [unfold digitchar; lia|exact Dg]).
Qed.

Lemma dims_streamable gw q a h : ghouse_ok h -> plain h ->
  exists ms, concat (map (frame_dim (q_dim q)) (filter (aimed gw (q_who q) a) h)) = map msg_str ms /\ Forall streamable ms /\ Forall dimres ms.
Proof.
  intros Hh P. assert (G : Forall (fun p => gpoint_ok p /\ (forall d vs, p_dims p d = Some vs -> Forall (fun v => ~ ends_hash v) vs) /\ p_who p = q_who q) (filter (aimed gw (q_who q) a) h)).
  { apply Forall_forall. intros p Hp. apply filter_In in Hp as (I & A). unfold ghouse_ok in Hh. unfold plain in P. rewrite Forall_forall in Hh, P.
    split; [apply Hh, I|]. split; [apply P, I|]. unfold aimed in A. apply andb_true_iff in A as (A & _). apply who_eqb_true in A. exact A. }
  induction G as [|p ps ((Pk & Dk) & Pl & Pw) G (ms & E & S & F)]; [exists []; repeat split; constructor|]. cbn [map concat]. rewrite E.
  unfold frame_dim. destruct (p_dims p (q_dim q)) as [vs|] eqn:X; [|exists ms; auto].
  destruct (Dk q vs Pw X) as (V & b & Sb). assert (N : vs <> []) by (eapply says_not_nil; eassumption).
  exists (MDimRes (p_who p) (p_where p) (q_dim q) vs :: ms). cbn [map app]. split; [|split; constructor; auto].
  - destruct vs as [|v vs]; [congruence|]. rewrite dimres_frame. reflexivity.
  - apply dim_streamable; auto; [apply Pk|apply q_digits|]. apply (Pl _ _ X).
  - unfold dimres. eauto.
Qed.

(** A question on the messages it is answered with. *)
Lemma gask_alone gw h it q h1 ms evs s0 : ghouse_ok h -> gcall_ok (GAsk it q) -> obeys gw h (Dimension (q_who q) (it_where it) (q_dim q)) h1 (map msg_str ms) evs ->
  (exists rs, ms = rs ++ [MAck] /\ Forall dimres rs /\ Forall streamable rs) \/ ms = [MNack] -> s0 = map Some ms ->
  exists es r, gprogram (GAsk it q) s0 = (es, [], r) /\ gdoes gw h (GAsk it q) h1 (yields es) r evs.
Proof.
  intros Hh Hok O Sh ->. pose proof Hok as (Hr & Hw & Hk & _). cbn [gitem gwho] in *.
  set (o := Dimension (q_who q) (it_where it) (q_dim q)) in *.
  assert (Oo : order_ok o) by (split; [exact Hw|apply q_digits]).
  assert (Q : forall s, exists x, streamed dimres as_is s x /\ send_dimension_request it (q_dim q) as_is s = pre [Sent (order_frame o)] x).
  { intros s. cbn [o order_frame]. rewrite <- Hk. apply dimension_streamed; [exact Hr|exact (proj1 Hw)|apply (FrameThms.digits_wire _ (q_digits q))]. }
  destruct (gprogram (GAsk it q) (map Some ms)) as [[es s1] r] eqn:P. exists es, r.
  assert (Fin : forall es0 r0, send_dimension_request it (q_dim q) as_is (map Some ms) = (es0, [], r0) -> serving gw h [] es0 h1 [] evs ->
    (es, s1, r) = (es, [], r) /\ gdoes gw h (GAsk it q) h1 (yields es) r evs).
  { intros es0 r0 E S. assert (X : es = drop_yields es0 /\ s1 = []).
    { pose proof P as P'. cbn [gprogram] in P'. rewrite ask_is in P'. unfold single_dim_req, andthen, collect in P'. rewrite E in P'.
      destruct r0 as [[]|e]; [|injection P' as <- <- <-; auto].
      destruct (yields es0) as [|m l]; [|destruct (is_dimres m)]; unfold raise, ret in P'; rewrite app_nil_r in P'; injection P' as <- <- <-; auto. }
    destruct X as (-> & ->). split; [reflexivity|]. assert (S' : serving gw h [] (drop_yields es0 : list (ev (str * seen))) h1 [] evs) by (apply serving_drop', S).
    destruct (gask_served gw it q _ _ _ _ h h1 [] evs Hh Hok P S' ltac:(reflexivity)) as (_ & D). exact D. }
  assert (Sv : serves gw h (order_frame o) h1 (map msg_str ms) evs) by (exists o; split; [exact Oo|]; split; [reflexivity|exact O]).
  destruct Sh as [(rs & -> & F & Sr)| ->].
  - assert (M : Forall2 (fun f m => parse_message f = Ok m /\ dimres m /\ exists ys, as_is m = Ok ys) (map msg_str rs) rs).
    { clear - F Sr. induction rs as [|m rs IH]; [constructor|]. inversion F; inversion Sr; subst. constructor; [|apply IH; assumption].
      split; [apply print_parse; match goal with H : streamable m |- _ => apply H end|]. split; [assumption|]. eexists. reflexivity. }
    rewrite map_app in Fin. cbn [map] in Fin. destruct (Q (map Some rs ++ [Some MAck])) as (x & Hx & E).
    destruct (stream_exists gw dimres as_is [] h1 dimres_not_ack _ _ M x Hx) as (es0 & -> & S).
    apply (Fin _ _ E). rewrite <- (app_nil_r evs). eapply Sv_sent; [exact Sv|]. rewrite map_app. exact S.
  - destruct (Q [Some MNack]) as (x & Hx & E).
    assert (Ex : x = ([Got MNack], [], Err ResponseError)).
    { inversion Hx; subst; try reflexivity; match goal with W : dimres MNack |- _ => destruct (dimres_not_ack _ W); congruence end. }
    subst x. apply (Fin _ _ E). rewrite <- (app_nil_r evs). eapply Sv_sent; [exact Sv|]. constructor; [apply nack_parse|constructor].
Qed.

Lemma gset_alone gw h g o h1 m evs : ghouse_ok h -> gcall_ok g -> gstands g o -> sets o = true -> (forall c, g <> GCall c) ->
  obeys gw h o h1 [msg_str m] evs -> m = MAck \/ m = MNack ->
  exists es r, gprogram g [Some m] = (es, [], r) /\ gdoes gw h g h1 (yields es) r evs.
Proof.
  intros Hh Hok Ho St Nc O Cm. pose proof Hok as (_ & Hw & _). pose proof (gstands_ok g o Hw Ho) as Oo.
  destruct (set_program g o [Some m] Hok Ho St Nc) as (p & Ep & A).
  destruct (gprogram g [Some m]) as [[es s1] r] eqn:P. exists es, r. pose proof P as P'. rewrite Ep in P'. unfold mapres in P'. destruct (p [Some m]) as [[es0 s0] r0].
  assert (X : es0 = [Sent (order_frame o); Got m] /\ s0 = []) by (inversion A; subst; auto).
  destruct X as (-> & ->). injection P' as <- <- <-. split; [reflexivity|].
  destruct (gone_call gw h g _ _ _ _ h1 [] evs Hh Hok P) as (_ & D); [|reflexivity|exact D].
  rewrite <- (app_nil_r evs). eapply Sv_sent; [exists o; split; [exact Oo|]; split; [reflexivity|exact O]|].
  constructor; [destruct Cm as [-> | ->]; [apply ack_parse|apply nack_parse]|constructor].
Qed.

Lemma ganswer_whole gw h g o p h1 ans evs : ghouse_ok h -> plain h -> gcall_ok g -> gstands g o -> gwaits g p -> obeys gw h o h1 ans evs ->
  exists ms r0, ans = map msg_str ms /\ Forall streamable ms /\ whole_answer p ms r0 /\
    exists es r, gprogram g (map Some ms) = (es, [], r) /\ gdoes gw h g h1 (yields es) r evs.
Proof.
  intros Hh P Hok Ho W O. assert (K : (exists c, g = GCall c) \/ (sets o = true /\ p = PCommand /\ forall c, g <> GCall c) \/ exists it q keep, g = GAsk it q /\ p = PRequest keep /\ forall m, keep m = true <-> dimres m).
  { inversion W; subst; inversion Ho; subst; eauto 8; right; left; (split; [reflexivity|]; split; [reflexivity|]; discriminate). }
  destruct K as [(c & ->)|[(St & -> & Nc)|(it & q & keep & -> & -> & Kp)]].
  - inversion Ho; subst. inversion W; subst. destruct (answer_whole gw h c o p h1 ans evs (ghouse_house h Hh) P (gcall_call c Hok)) as (ms & es & r & A & B & C & Pr & D); eauto.
    exists ms, r. split; [exact A|]. split; [exact B|]. split; [exact C|]. exists es, (as_answer r). split; [|constructor; exact D].
    cbn [gprogram]. unfold mapres. rewrite Pr. destruct r as [[]|]; reflexivity.
  - assert (K : ans = [frame_ack] \/ ans = [frame_nack]) by (destruct O; try discriminate St; auto). destruct K as [-> | ->].
    + exists [MAck], (Ok tt). split; [reflexivity|]. split; [constructor; [apply ack_streamable|constructor]|]. split; [constructor|]. apply (gset_alone gw h g o h1 MAck evs Hh Hok Ho St Nc O). auto.
    + exists [MNack], (Err ResponseError). split; [reflexivity|]. split; [constructor; [apply nack_streamable|constructor]|]. split; [apply W_other; discriminate|]. apply (gset_alone gw h g o h1 MNack evs Hh Hok Ho St Nc O). auto.
  - inversion Ho; subst. destruct (existsb (at_whom gw (Dimension (q_who q) (it_where it) (q_dim q))) h) eqn:X.
    + destruct (obeys_ask gw h (Dimension (q_who q) (it_where it) (q_dim q)) h1 ans evs ltac:(intros []) X O) as (-> & Ea). cbn [frames_of at_whom] in Ea.
      destruct (dims_streamable gw q (it_where it) h Hh P) as (ms & E & S & F).
      assert (Em : ans = map msg_str (ms ++ [MAck])) by (rewrite map_app, <- E; exact Ea). rewrite Em in *. exists (ms ++ [MAck]), (Ok tt).
      split; [reflexivity|]. split; [apply Forall_app; split; [exact S|]; constructor; [apply ack_streamable|constructor]|].
      split; [|apply (gask_alone gw h it q h (ms ++ [MAck]) evs _ Hh Hok O); [left; exists ms; auto|reflexivity]].
      apply W_replies. eapply Forall_impl; [|exact F]. intros m Hm. split; [apply Kp, Hm|]. apply dimres_not_ack, Hm.
    + destruct (obeys_nobody _ _ _ _ _ _ X O) as (-> & -> & ->). exists [MNack], (Err ResponseError). split; [reflexivity|].
      split; [constructor; [apply nack_streamable|constructor]|]. split; [apply (W_refused keep [] MNack); auto; discriminate|]. apply (gask_alone gw h it q h [MNack] [] _ Hh Hok O); [right; reflexivity|reflexivity].
Qed.

(** ** The house as a gateway like any other *)

Definition housed (gw : gateway) (s : house * list (list N)) (b : list N) (s1 : house * list (list N)) (ans : list (list N)) : Prop :=
  exists ev, serves gw (fst s) b (fst s1) ans ev /\ snd s1 = snd s ++ ev.

Lemma watched_attended gw high low : forall l h inn out es l' h' inn' out' evs, watched gw high low l h inn out es l' h' inn' out' evs ->
  forall e0, attended (house * list (list N)) (housed gw) high low l (h, e0) inn out es l' (h', e0 ++ evs) inn' out'.
Proof.
  intros l h inn out es l' h' inn' out' evs W. induction W as [l h inn out|l h b inn out h1 ans ev1 es l' h' inn' out' evs Sv W IH|l h inn out e l1 es l' h' inn' out' evs Np E W IH|l h inn fs out l1 es l' h' inn' out' evs E W IH]; intros e0.
  - rewrite app_nil_r. apply At_nil.
  - rewrite app_assoc. eapply (At_reply _ _ _ _ _ _ _ _ _ (h1, e0 ++ ev1)); [exists ev1; split; [exact Sv|reflexivity]|apply IH].
  - eapply At_step; eauto.
  - eapply At_packet; eauto.
Qed.

Definition ghouse_good (s : house * list (list N)) : Prop := ghouse_ok (fst s) /\ plain (fst s).
Definition gkind (p : pc) (b : list N) : Prop := exists g o, gcall_ok g /\ gstands g o /\ gwaits g p /\ b = order_frame o.

Lemma house_civil gw : ggateway_ok gw -> civil _ (housed gw) ghouse_good gkind.
Proof.
  intros G [h e0] p b [h1 e1] ans (Hh & P) (g & o & Hg & Ho & W & ->) (ev & Sv & _). cbn [fst snd] in *.
  pose proof Hg as (_ & Hw & _). pose proof (serves_order _ _ _ _ _ _ (gstands_ok g o Hw Ho) Sv) as O.
  destruct (ganswer_whole gw h g o p h1 ans ev Hh P Hg Ho W O) as (ms & r0 & A & B & C & es & r & _ & D).
  split; [split; cbn [fst]; [eapply gdoes_ok; eassumption|eapply gdoes_plain; eassumption]|eauto].
Qed.

(** [galone g ms x]: the call made alone, on these messages, ends like this. *)
Definition galone (g : gcall) (ms : list msg) (x : list (str * seen) * res answer) : Prop :=
  exists es, gprogram g (map Some ms) = (es, [], snd x) /\ yields es = fst x.

Lemma msgs_inj ms : forall ms', map msg_str ms = map msg_str ms' -> Forall streamable ms -> Forall streamable ms' -> ms = ms'.
Proof.
  induction ms as [|m ms IH]; intros [|m' ms'] E F F'; try discriminate; [reflexivity|]. injection E as E1 E2. inversion F as [|? ? S S2]; inversion F' as [|? ? S' S2']; subst.
  f_equal; [|apply IH; assumption]. pose proof (print_parse m (proj1 S)) as P. rewrite E1, (print_parse m' (proj1 S')) in P. congruence.
Qed.

Lemma serially_story gw : ggateway_ok gw -> forall s ks log s', serially _ (housed gw) s ks log s' -> forall gs, ghouse_good s -> gmade ks gs -> Forall gcall_ok gs ->
  exists glog evs, gstory gw (fst s) gs glog evs (fst s') /\ snd s' = snd s ++ evs /\ length glog = length log /\
    Forall2 (fun g x => galone g (fst x) (snd x)) gs (combine (map fst log) glog) /\ map snd log = map verdict (map fst log).
Proof.
  intros G s ks log s' S. induction S as [s|s i p b s1 ms r ks log s' Rp Sm Wa S IH]; intros gs Hg M F.
  - inversion M; subst. exists [], []. rewrite app_nil_r. repeat split; constructor.
  - inversion M as [|? g ? gs0 (o & Ho & W & Eb) M0]; subst. inversion F as [|? ? Hc F0]; subst. cbn [fst snd] in W, Eb. subst b.
    destruct (house_civil gw G s p (order_frame o) s1 (map msg_str ms) Hg ltac:(exists g, o; auto) Rp) as (Hg1 & _).
    destruct Hg as (Hh & P). destruct Rp as (ev & Sv & E1). pose proof Hc as (_ & Hw & _). pose proof (serves_order _ _ _ _ _ _ (gstands_ok g o Hw Ho) Sv) as O.
    destruct (ganswer_whole gw (fst s) g o p (fst s1) _ ev Hh P Hc Ho W O) as (ms' & r0 & A & B & C & es & ra & Pr & D).
    pose proof (msgs_inj _ _ A Sm B) as Em. subst ms'.
    destruct (IH gs0 Hg1 M0 F0) as (glog & evs & A1 & A2 & A3 & A4 & A5).
    exists ((yields es, ra) :: glog), (ev ++ evs). split; [econstructor; eassumption|]. split; [rewrite A2, E1, app_assoc; reflexivity|].
    split; [cbn; congruence|]. cbn [map fst snd combine]. split; [constructor; [exists es; auto|exact A4]|]. rewrite A5. f_equal. apply (whole_verdict p), Wa.
Qed.

Theorem meter_line gw high low n es l h h' inn out evs gs : ggateway_ok gw -> ghouse_ok h -> plain h -> Forall gcall_ok gs ->
  locked high low n es -> undisturbed es -> watched gw high low (linit n) h [] [] es l h' inn out evs -> gmade (started es) gs ->
  exists j log heard, gstory gw h (firstn j gs) log evs h' /\ length log = j /\ length heard = j /\
    Forall2 (fun g x => galone g (fst x) (snd x)) (firstn j gs) (combine heard log) /\
    (exists k pend read, (k <= j <= length gs)%nat /\ (length gs <= k + 1)%nat /\
       k_done (l_c l) = firstn k (combine (map fst (started es)) (map verdict heard)) /\
       q_out (k_q (l_c l)) = concat (map heard_by (firstn k (combine (map fst (started es)) heard))) ++ map (pair pend) read /\
       (Forall (eq SIdle) (s_tasks (l_s l)) -> Forall (eq PIdle) (k_pc (l_c l)) -> k = length gs /\ inn = [])) /\
    (inn = [] -> out = [] -> Forall (eq SIdle) (s_tasks (l_s l)) -> (forall i, cstep (l_c l) (KRun i) = None) ->
       j = length gs /\ k_done (l_c l) = combine (map fst (started es)) (map verdict heard) /\
       q_out (k_q (l_c l)) = concat (map heard_by (combine (map fst (started es)) heard)) /\ c_queue (q_conn (k_q (l_c l))) = []).
Proof.
  intros G Hh P F Lk U Wt M. pose proof (watched_attended gw high low _ _ _ _ _ _ _ _ _ _ Wt []) as At. cbn [app] in At.
  assert (Kd : Forall (fun k => gkind (fst (snd k)) (snd (snd k))) (started es)).
  { clear - M F. revert F. induction M as [|k g ks gs (o & Ho & W & E) M IH]; intros F; [constructor|]. inversion F; subst. constructor; [exists g, o; auto|apply IH; assumption]. }
  destruct (any_line (housed gw) ghouse_good gkind high low n es l (h, []) (h', evs) inn out (house_civil gw G) (conj Hh P) Kd Lk U At) as (j & log & Se & _ & Lj & (k & pend & read & K1 & K2 & K3 & K4 & K5) & K6).
  pose proof (SerialThms.forall2_length _ _ _ M) as Lg. rewrite Lg in *.
  assert (M1 : gmade (firstn j (started es)) (firstn j gs)).
  { unfold gmade in *. rewrite <- (firstn_skipn j (started es)) in M. apply Forall2_app_inv_l in M as (c1 & c2 & M1 & M2 & ->).
    pose proof (SerialThms.forall2_length _ _ _ M1) as Lf. rewrite firstn_length in Lf. rewrite firstn_firstn_app by lia. rewrite (firstn_all2 c1) by lia. exact M1. }
  assert (F1 : Forall gcall_ok (firstn j gs)) by (rewrite <- (firstn_skipn j gs) in F; apply Forall_app in F as (F & _); exact F).
  destruct (serially_story gw G (h, []) _ _ (h', evs) Se _ (conj Hh P) M1 F1) as (glog & evs' & A1 & A2 & A3 & A4 & A5). cbn [fst snd app] in A1, A2. subst evs'.
  exists j, glog, (map fst log). split; [exact A1|]. split; [congruence|]. split; [rewrite map_length; exact Lj|]. split; [exact A4|].
  rewrite A5 in K3, K6. split; [exists k, pend, read; auto|exact K6].
Qed.
