(** * Whole sessions with meters and clocks; what was set is read back *)
From Coq Require Import String List NArith ZArith Bool Lia.
From Verif Require Import PyStr PyDate PyFloat Tags Messages MessageFacts SpecMsg SpecTag MessageThms MessageThms2 MessageThms3 TagThms SpecProto ProtoThms IO Client SpecItem Items
  Lighting SpecLight HandshakeThms ItemThms LightThms LightThms2 FrameThms Gateway SpecGateway CalendarThms GatewayThms GatewayThms2 Energy SpecEnergy
  SpecHouse HouseThms HouseThms2 SpecMeter MeterThms.
Import ListNotations.
Open Scope N_scope.
Open Scope list_scope.

Theorem gsession_story gw h out gs s log evs h' out' : gsession gw h out gs s log evs h' out' ->
  ggateway_ok gw -> ghouse_ok h -> Forall gcall_ok gs -> out = [] ->
  gstory gw h gs log evs h' /\ out' = [] /\ ghouse_ok h'.
Proof.
  induction 1 as [h out s|h out g gs s es s1 r h1 out1 evs log evs' h' out' E S T H IH]; intros G Hh Hc ->.
  - split; [constructor|]. auto.
  - inversion Hc as [|? ? Hg Hc']; subst. destruct (gone_call gw h g s es s1 r h1 out1 evs Hh Hg E S T) as (-> & D).
    destruct (IH G (gdoes_ok _ _ _ _ _ _ _ G Hh (proj1 (proj2 Hg)) D) Hc' eq_refl) as (St & -> & Hh').
    split; [econstructor; eassumption|]. auto.
Qed.

(** ** Every sequence can be carried out *)

Lemma gask_exists gw h it q : ghouse_ok h -> gcall_ok (GAsk it q) ->
  exists ms h1 evs, forall rest, exists es r, gprogram (GAsk it q) (map Some ms ++ rest) = (es, rest, r) /\
    serving gw h [] es h1 [] evs /\ r <> Err TimeoutError.
Proof.
  intros Hh Hok. pose proof Hok as (Hr & Hw & Hk & _). cbn [gitem gwho gprogram] in *.
  set (o := Dimension (q_who q) (it_where it) (q_dim q)).
  assert (Oo : order_ok o) by (split; [exact Hw|apply q_digits]).
  assert (Q : forall s, exists x, streamed dimres as_is s x /\ send_dimension_request it (q_dim q) as_is s = pre [Sent (order_frame o)] x).
  { intros s. cbn [o order_frame]. rewrite <- Hk. apply dimension_streamed; [exact Hr|exact (proj1 Hw)|apply (FrameThms.digits_wire _ (q_digits q))]. }
  assert (Nt : forall (es : list (ev (str * seen))) s1 r s h1 evs, ask_program it q s = (es, s1, r) -> serving gw h [] es h1 [] evs ->
    gdoes gw h (GAsk it q) h1 (yields es) r evs -> r <> Err TimeoutError).
  { intros es s1 r s h1 evs _ _ D. inversion D; subst; discriminate. }
  assert (Fin : forall ms h1 evs, (forall rest, exists es0, (exists r0, send_dimension_request it (q_dim q) as_is (map Some ms ++ rest) = (es0, rest, r0)) /\ serving gw h [] es0 h1 [] evs) ->
    exists ms h1 evs, forall rest, exists (es : list (ev (str * seen))) r, ask_program it q (map Some ms ++ rest) = (es, rest, r) /\ serving gw h [] es h1 [] evs /\ r <> Err TimeoutError).
  { intros ms h1 evs K. exists ms, h1, evs. intros rest. destruct (K rest) as (es0 & (r0 & E) & S).
    destruct (ask_program (Y:=str * seen) it q (map Some ms ++ rest)) as [[es s1] r] eqn:P. exists es, r.
    assert (X : es = drop_yields es0 /\ s1 = rest).
    { rewrite ask_is in P. unfold single_dim_req, andthen, collect in P. rewrite E in P.
      destruct r0 as [[]|e]; [|injection P as <- <- <-; auto].
      destruct (yields es0) as [|m l]; [|destruct (is_dimres m)]; unfold raise, ret in P; rewrite app_nil_r in P; injection P as <- <- <-; auto. }
    destruct X as (-> & ->). split; [reflexivity|]. assert (S' : serving gw h [] (drop_yields es0 : list (ev (str * seen))) h1 [] evs) by (apply serving_drop', S).
    split; [exact S'|]. destruct (gask_served gw it q _ _ _ _ h h1 [] evs Hh Hok P S' ltac:(reflexivity)) as (_ & D). eapply Nt; eassumption. }
  destruct (existsb (at_whom gw o) h) eqn:X.
  - destruct (read_all dimres as_is (frame_dim (q_dim q)) _ _ (dims_read gw q (it_where it) h Hh)) as (yss & fyss & _ & _ & G).
    assert (M : exists ms, Forall2 (fun f m => parse_message f = Ok m /\ dimres m /\ exists ys, as_is m = Ok ys) (concat (map (frame_dim (q_dim q)) (filter (aimed gw (q_who q) (it_where it)) h))) ms).
    { clear - G. induction G as [|fr ys fs fyss (m & P & W & B) G (ms & IH)]; [exists []; constructor|]. exists (m :: ms). constructor; eauto. }
    destruct M as (ms & M). apply (Fin (ms ++ [MAck]) h ([] ++ [])). intros rest. rewrite map_app, <- app_assoc. cbn [map app].
    destruct (Q (map Some ms ++ Some MAck :: rest)) as (x & Hx & E).
    destruct (stream_exists gw dimres as_is rest h dimres_not_ack _ _ M x Hx) as (es & -> & S).
    exists (Sent (order_frame o) :: es). rewrite E. split; [eexists; reflexivity|].
    eapply (Sv_sent gw h [] (order_frame o) h _ [] es h [] []); [exists o; split; [exact Oo|]; split; [reflexivity|apply Ob_dimension, X]|exact S].
  - apply (Fin [MNack] h ([] ++ [])). intros rest. cbn [map app]. destruct (Q (Some MNack :: rest)) as (x & Hx & E).
    assert (Ex : x = ([Got MNack], rest, Err ResponseError)).
    { inversion Hx; subst; try reflexivity; match goal with W : dimres MNack |- _ => destruct (dimres_not_ack _ W); congruence end. }
    subst x. exists [Sent (order_frame o); Got MNack]. rewrite E. split; [eexists; reflexivity|].
    apply (Sv_sent gw h [] (order_frame o) h [frame_nack] [] [Got MNack] h [] []); [exists o; split; [exact Oo|]; split; [reflexivity|apply Ob_nobody, X]|].
    constructor; [apply nack_parse|constructor].
Qed.

Lemma gset_exists gw h g o : gcall_ok g -> gstands g o -> sets o = true -> (forall c, g <> GCall c) ->
  exists ms h1 evs, forall rest, exists es r, gprogram g (map Some ms ++ rest) = (es, rest, r) /\
    serving gw h [] es h1 [] evs /\ r <> Err TimeoutError.
Proof.
  intros Hok Ho St Nc. pose proof Hok as (_ & Hw & _). pose proof (gstands_ok g o Hw Ho) as Oo.
  assert (P : exists m fr h1 evs, obeys gw h o h1 [fr] evs /\ parse_message fr = Ok m /\ (m = MAck \/ m = MNack)).
  { destruct (existsb (at_whom gw o) h) eqn:X.
    - assert (O : exists h1 evs, obeys gw h o h1 [frame_ack] evs) by (destruct o; try discriminate St; do 2 eexists; [apply Ob_command|apply Ob_writing]; exact X).
      destruct O as (h1 & evs & O). exists MAck, frame_ack, h1, evs. split; [exact O|]. split; [apply ack_parse|auto].
    - exists MNack, frame_nack, h, []. split; [apply Ob_nobody, X|]. split; [apply nack_parse|auto]. }
  destruct P as (m & fr & h1 & evs & O & Pm & Cm). exists [m], h1, (evs ++ []). intros rest. cbn [map app].
  destruct (set_program g o (Some m :: rest) Hok Ho St Nc) as (p & Ep & A). rewrite Ep. unfold mapres.
  destruct (p (Some m :: rest)) as [[es s1] r].
  assert (X : es = [Sent (order_frame o); Got m] /\ s1 = rest /\ r <> Err TimeoutError).
  { inversion A; subst; (split; [reflexivity|]; split; [reflexivity|discriminate]). }
  destruct X as (-> & -> & Nr). exists [Sent (order_frame o); Got m], (rmap (fun _ => ANothing) r). split; [reflexivity|].
  split; [|destruct r as [[]|e]; [discriminate|cbn; congruence]].
  apply (Sv_sent gw h [] (order_frame o) h1 [fr] evs [Got m] h1 [] []); [exists o; split; [exact Oo|]; split; [reflexivity|exact O]|].
  constructor; [exact Pm|constructor].
Qed.

Lemma gcall_exists gw h g : ghouse_ok h -> gcall_ok g ->
  exists ms h1 evs, forall rest, exists es r, gprogram g (map Some ms ++ rest) = (es, rest, r) /\
    serving gw h [] es h1 [] evs /\ r <> Err TimeoutError.
Proof.
  intros Hh Hok. pose proof Hok as (_ & _ & _ & o & Ho). destruct g as [c|it d|it a b x us|it c|it q].
  - destruct (call_exists gw h c (ghouse_house h Hh) (gcall_call c Hok)) as (ms & h1 & evs & K). exists ms, h1, evs. intros rest.
    destruct (K rest) as (es & r & E & S & T). exists es, (rmap (fun _ => ANothing) r). cbn [gprogram]. unfold mapres. rewrite E.
    split; [reflexivity|]. split; [exact S|]. destruct r as [[]|e]; [discriminate|cbn; congruence].
  - apply (gset_exists gw h _ o Hok Ho); [inversion Ho; reflexivity|discriminate].
  - apply (gset_exists gw h _ o Hok Ho); [inversion Ho; reflexivity|discriminate].
  - apply (gset_exists gw h _ o Hok Ho); [inversion Ho; reflexivity|discriminate].
  - apply gask_exists; assumption.
Qed.

Theorem gsession_exists gw : ggateway_ok gw -> forall gs h, ghouse_ok h -> Forall gcall_ok gs ->
  exists ms log evs h', gsession gw h [] gs (map Some ms) log evs h' [].
Proof.
  intros G gs. induction gs as [|g gs IH]; intros h Hh Hc; [exists [], [], [], h; constructor|].
  inversion Hc as [|? ? Hg Hc']; subst. destruct (gcall_exists gw h g Hh Hg) as (ms & h1 & evs1 & E).
  destruct (E []) as (es0 & r0 & E0 & S0 & T0).
  destruct (gone_call gw h g _ _ _ _ _ _ _ Hh Hg E0 S0 ltac:(congruence)) as (_ & D).
  destruct (IH h1 (gdoes_ok _ _ _ _ _ _ _ G Hh (proj1 (proj2 Hg)) D) Hc') as (ms2 & log & evs & h' & S2).
  exists (ms ++ ms2). rewrite map_app. destruct (E (map Some ms2)) as (es & r & E' & S' & T').
  do 3 eexists. econstructor; [exact E'|exact S'|congruence|exact S2].
Qed.

(** ** What was set is read back *)

Lemma gstory_app gw gs1 : forall gs2 h log evs h', gstory gw h (gs1 ++ gs2) log evs h' ->
  exists h1 l1 l2 e1 e2, gstory gw h gs1 l1 e1 h1 /\ gstory gw h1 gs2 l2 e2 h' /\ log = l1 ++ l2 /\ evs = e1 ++ e2.
Proof.
  induction gs1 as [|g gs1 IH]; intros gs2 h log evs h' S; cbn [app] in S.
  - exists h, [], log, [], evs. split; [constructor|]. auto.
  - inversion S as [|? ? ? hm obs r ev1 lg ev2 ? D S']; subst. destruct (IH _ _ _ _ _ S') as (h1 & l1 & l2 & e1 & e2 & S1 & S2 & -> & ->).
    exists h1, ((obs, r) :: l1), l2, (ev1 ++ e1), e2. split; [econstructor; eassumption|]. split; [exact S2|]. split; [reflexivity|apply app_assoc].
Qed.

Theorem gstory_lives gw h gs log evs h' : gstory gw h gs log evs h' ->
  exists os, Forall2 gstands gs os /\ h' = map (life gw os) h.
Proof.
  induction 1 as [h|h g gs h1 obs r evs log evs' h' D S (os & F & ->)].
  - exists []. split; [constructor|]. symmetry. apply map_id.
  - destruct (gdoes_step _ _ _ _ _ _ _ D) as (o & Ho & ->). exists (o :: os). split; [constructor; assumption|]. rewrite map_map. reflexivity.
Qed.

(** The dimension is not written. *)
Definition leaves (d : str) (o : order) : Prop := forall w a vs, o <> Writing w a d vs.
Lemma life_dim gw d os : forall p, p_who p = GATEWAY -> Forall (fun o => order_who o = GATEWAY -> leaves d o) os -> p_dims (life gw os p) d = p_dims p d.
Proof.
  induction os as [|o os IH]; intros p W F; [reflexivity|]. inversion F as [|? ? Fo F']; subst. cbn [life fold_left]. fold (life gw os (step gw p o)).
  rewrite IH; [|rewrite step_who; exact W|exact F'].
  destruct (who_eqb (p_who p) (order_who o)) eqn:Ew.
  - apply who_eqb_true in Ew. unfold step. destruct (at_whom gw o p); [|reflexivity]. destruct o as [w what a|w a d' vs| | ]; try reflexivity.
    cbn [effect_of written p_dims]. destruct (str_eqb d' d) eqn:Ed; [|reflexivity]. apply str_eqb_spec in Ed. subst d'.
    cbn in Ew. exfalso. apply (Fo ltac:(cbn; congruence) w a vs). reflexivity.
  - rewrite step_other; [reflexivity|]. intros X. rewrite X in Ew. assert (who_eqb (order_who o) (order_who o) = true) by (apply who_eqb_spec; reflexivity). congruence.
Qed.
Lemma who_life gw os : forall p, p_who (life gw os p) = p_who p.
Proof. induction os as [|o os IH]; intros p; [reflexivity|]. cbn [life fold_left]. fold (life gw os (step gw p o)). rewrite IH. apply step_who. Qed.

Lemma gask_last gw h it q log evs h' : gstory gw h [GAsk it q] log evs h' ->
  existsb (aimed gw (q_who q) (it_where it)) h = true ->
  forall vs, (forall p, In p h -> aimed gw (q_who q) (it_where it) p = true -> p_dims p (q_dim q) = Some vs) ->
  exists a, log = [([], Ok a)] /\ says q vs a.
Proof.
  intros S X vs V. inversion S as [|? ? ? h1 obs r ev1 lg ev2 ? D S']; subst. inversion S'; subst.
  inversion D as [|g o Ho Xo|g o hx ans ex Nc Ho St Xo O|it0 q0 Xo N|it0 q0 ha p hb vs0 a Eh N A Ev Sa]; subst.
  - inversion Ho; subst. cbn [at_whom] in Xo. congruence.
  - inversion Ho; subst. discriminate St.
  - apply existsb_exists in X as (p & I & A). specialize (V p I A). rewrite (N p I A) in V. discriminate.
  - exists a. split; [reflexivity|]. rewrite (V p ltac:(apply in_elt) A) in Ev. injection Ev as <-. exact Sa.
Qed.

Theorem gread_back gw h before g between it' q log evs h' a vs :
  gstory gw h (before ++ g :: between ++ [GAsk it' q]) log evs h' ->
  (forall o, gstands g o -> o = Writing GATEWAY a (q_dim q) vs) -> q_who q = GATEWAY ->
  existsb (aimed gw GATEWAY (it_where it')) h = true ->
  (forall p, In p h -> aimed gw GATEWAY (it_where it') p = true -> aimed gw GATEWAY a p = true) ->
  Forall (fun g' => forall o, gstands g' o -> order_who o = GATEWAY -> leaves (q_dim q) o) between ->
  exists x, last log ([], Ok ANothing) = ([], Ok x) /\ says q vs x.
Proof.
  intros S Hg Wq X Cv Fb.
  change (before ++ g :: between ++ [GAsk it' q]) with (before ++ ([g] ++ (between ++ [GAsk it' q]))) in S.
  rewrite !app_assoc in S. destruct (gstory_app gw _ _ _ _ _ _ S) as (h1 & l1 & l2 & e1 & e2 & S1 & S2 & -> & ->).
  destruct (gstory_lives _ _ _ _ _ _ S1) as (os & F & ->).
  apply Forall2_app_inv_l in F as (os1 & os2 & F1 & F2 & ->).
  apply Forall2_app_inv_l in F1 as (os0 & oc & F0 & Fc & ->). inversion Fc as [|x y l l' Hy Fn]; subst. inversion Fn; subst.
  rewrite (Hg _ Hy) in *. set (os := (os0 ++ [Writing GATEWAY a (q_dim q) vs]) ++ os2) in *.
  assert (Al : forall w b p, aimed gw w b (life gw os p) = aimed gw w b p).
  { intros w b p. unfold aimed. rewrite who_life, where_life. reflexivity. }
  destruct (gask_last gw _ it' q l2 e2 h' S2) with (vs := vs) as (r & -> & Sr).
  - rewrite Wq. apply existsb_exists in X as (p & I & A). apply existsb_exists. exists (life gw os p). split; [apply in_map, I|]. rewrite Al. exact A.
  - rewrite Wq. intros p' I' A'. apply in_map_iff in I' as (p & <- & I). rewrite Al in A'. pose proof (Cv p I A') as Aa.
    assert (Wp : p_who p = GATEWAY) by (unfold aimed in Aa; apply andb_true_iff in Aa as (Aa & _); apply who_eqb_true, Aa).
    unfold os. rewrite !life_app. rewrite life_dim; [|rewrite !who_life; exact Wp|].
    + cbn [life fold_left]. unfold step. cbn [at_whom].
      replace (aimed gw GATEWAY a (life gw os0 p)) with true by (symmetry; unfold aimed in *; rewrite who_life, where_life; exact Aa).
      cbn [effect_of written p_dims]. assert (str_eqb (q_dim q) (q_dim q) = true) as -> by (apply str_eqb_spec; reflexivity). reflexivity.
    + apply Forall_forall. intros o2 I2. destruct (Forall2_in' _ _ _ _ F2 I2) as (g2 & Ig2 & Hg2). rewrite Forall_forall in Fb. exact (Fb g2 Ig2 o2 Hg2).
  - exists r. rewrite last_last. auto.
Qed.

Lemma short_fun s n n' : short_field s n -> short_field s n' -> n = n'.
Proof. intros ((_ & _ & _ & A) & _) ((_ & _ & _ & B) & _). congruence. Qed.
Lemma fixed_fun k s n n' : fixed k s n -> fixed k s n' -> n = n'.
Proof. intros ((_ & _ & _ & A) & _) ((_ & _ & _ & B) & _). congruence. Qed.
Lemma zone_fun t z z' : zone t z -> zone t z' -> z = z'.
Proof. intros H H'. inversion H; inversion H'; subst; try congruence; match goal with E : _ :: _ = _ :: _ |- _ => injection E as -> end; f_equal; eapply fixed_fun; eassumption. Qed.

(** Calls other than set_date (set_time, ...). *)
Definition no_set_date (g : gcall) : Prop := forall it d, g <> GSetDate it d.
Definition no_set_time (g : gcall) : Prop := forall it h m s us, g <> GSetTime it h m s us.
Lemma leaves_date g o : no_set_date g -> gstands g o -> order_who o = GATEWAY -> leaves (lit "1") o.
Proof.
  intros Ng H W w a vs E. inversion H as [c o' Sf|it y m d wd ws ds ms ys|it h m x us hs ms ss zs|it c what|it q]; subst; try discriminate.
  - destruct (stands_who c _ Sf); congruence.
  - apply (Ng it (y, m, d)). reflexivity.
Qed.
Lemma leaves_time g o : no_set_time g -> gstands g o -> order_who o = GATEWAY -> leaves (lit "0") o.
Proof.
  intros Ng H W w a vs E. inversion H as [c o' Sf|it y m d wd ws ds ms ys|it h m x us hs ms ss zs|it c what|it q]; subst; try discriminate.
  - destruct (stands_who c _ Sf); congruence.
  - apply (Ng it h m x us). reflexivity.
Qed.

Theorem date_back gw h before it d between it' log evs h' :
  gstory gw h (before ++ GSetDate it d :: between ++ [GAsk it' QDate]) log evs h' ->
  (exists o, gstands (GSetDate it d) o) ->
  existsb (aimed gw GATEWAY (it_where it')) h = true ->
  (forall p, In p h -> aimed gw GATEWAY (it_where it') p = true -> aimed gw GATEWAY (it_where it) p = true) ->
  Forall no_set_date between ->
  last log ([], Ok ANothing) = ([], Ok (ADate d)).
Proof.
  intros S (o & Ho) X Cv Nb. inversion Ho as [|it0 y m dd w ws ds ms ys C Fo F1 F2 F3 Nm| | | ]; subst.
  destruct (gread_back gw h before (GSetDate it (y, m, dd)) between it' QDate log evs h' (it_where it) [ws; ds; ms; ys]) as (x & -> & Sx); try assumption; try reflexivity.
  - intros o Ho'. inversion Ho' as [|it0 y' m' d' w' ws' ds' ms' ys' C' Fo' F1' F2' F3' Nm'| | | ]; subst.
    rewrite (sent_date_is y m dd w' ws' ds' ms' ys'), (sent_date_is y m dd w ws ds ms ys) by assumption. reflexivity.
  - eapply Forall_impl; [|exact Nb]. intros g Ng o2. apply leaves_date, Ng.
  - inversion Sx as [|w0 ds0 ms0 ys0 d0 m0 y0 C0 A1 A2 A3| | | | | | | | | | | ]; subst; [|match goal with I : In QDate _ |- _ => cbn in I; destruct I as [I|[I|[I|[I|[]]]]]; discriminate end].
    pose proof (calendar_bounds _ _ _ C).
    rewrite (short_fun _ _ _ A1 (fixed_short 2 ds dd ltac:(lia) F2)), (short_fun _ _ _ A2 (fixed_short 2 ms m ltac:(lia) F3)), (short_fun _ _ _ A3 (numeral_field y ys ltac:(lia) Nm)). reflexivity.
Qed.

Theorem time_back gw h before it hh m s us between it' log evs h' :
  gstory gw h (before ++ GSetTime it hh m s us :: between ++ [GAsk it' QTime]) log evs h' ->
  (exists o, gstands (GSetTime it hh m s us) o) ->
  existsb (aimed gw GATEWAY (it_where it')) h = true ->
  (forall p, In p h -> aimed gw GATEWAY (it_where it') p = true -> aimed gw GATEWAY (it_where it) p = true) ->
  Forall no_set_time between ->
  last log ([], Ok ANothing) = ([], Ok (ATime (the_time hh m s (zone_back us)))).
Proof.
  intros S (o & Ho) X Cv Nb. inversion Ho as [| |it0 h0 m0 s0 us0 hs ms ss zs H1 H2 H3 F1 F2 F3 Z| | ]; subst.
  destruct (gread_back gw h before (GSetTime it hh m s us) between it' QTime log evs h' (it_where it) [hs; ms; ss; zs]) as (x & -> & Sx); try assumption; try reflexivity.
  - intros o Ho'. inversion Ho' as [| |it0 h0 m0 s0 us0 hs' ms' ss' zs' H1' H2' H3' F1' F2' F3' Z'| | ]; subst.
    rewrite (fixed_inj _ _ _ _ F1 F1'), (fixed_inj _ _ _ _ F2 F2'), (fixed_inj _ _ _ _ F3 F3'), (sent_zone_is _ _ Z), (sent_zone_is _ _ Z'). reflexivity.
  - eapply Forall_impl; [|exact Nb]. intros g Ng o2. apply leaves_time, Ng.
  - inversion Sx as [hs0 ms0 ss0 zs0 h0 m0 s0 z C0 A1 A2 A3 A4| | | | | | | | | | | | ]; subst; [|match goal with I : In QTime _ |- _ => cbn in I; destruct I as [I|[I|[I|[I|[]]]]]; discriminate end].
    rewrite (fixed_fun _ _ _ _ A1 F1), (fixed_fun _ _ _ _ A2 F2), (fixed_fun _ _ _ _ A3 F3), (zone_fun _ _ _ A4 (proj1 (zone_back_read us zs Z))). reflexivity.
Qed.
