(** * The gateway's own data and the energy meters against a house *)
From Coq Require Import String List NArith ZArith Bool Lia.
From Verif Require Import PyStr PyDate PyFloat Tags Messages MessageFacts SpecMsg SpecTag MessageThms MessageThms2 MessageThms3 TagThms SpecProto ProtoThms IO Client SpecItem Items
  Lighting SpecLight HandshakeThms ItemThms LightThms LightThms2 FrameThms Gateway SpecGateway CalendarThms GatewayThms GatewayThms2 Energy SpecEnergy FloatThms EnergyThms EnergyThms2 EnergyThms3
  SpecHouse HouseThms HouseThms2 SpecMeter.
Import ListNotations.
Open Scope N_scope.
Open Scope list_scope.

(** ** Programs *)

Definition rmap {A B} (f : A -> B) (r : res A) : res B := match r with Ok a => Ok (f a) | Err e => Err e end.
Definition mapres {Y A B} (f : A -> B) (g : io Y A) : io Y B := fun s => match g s with (es, s', r) => (es, s', rmap f r) end.

Definition ask_program {Y} (it : item) (q : query) : io Y answer :=
  match q with
  | QTime => mapres ATime (get_time it)
  | QDate => mapres ADate (get_date it)
  | QIp => mapres AIp (get_ip it)
  | QNetmask => mapres AText (get_netmask it)
  | QMac => mapres AText (get_macaddress it)
  | QModel => mapres AText (get_model it)
  | QFirmware => mapres AText (get_firmware it)
  | QUptime => mapres AUptime (get_uptime it)
  | QDatetime => mapres (fun p => ADatetime (fst p) (snd p)) (get_datetime it)
  | QKernel => mapres AText (get_kernel_version it)
  | QDistribution => mapres AText (get_distribution_version it)
  | QPower => mapres AFloat (get_active_power it)
  | QTotal => mapres AFloat (get_energy_unit_totalizer it)
  | QMonth => mapres AFloat (get_partial_totalizer_current_month it)
  | QDay => mapres AFloat (get_partial_totalizer_current_day it)
  | QLevel => mapres (fun z => ANumber (Z.to_N z)) (get_differential_current_level it)
  end.
Definition gprogram (g : gcall) : io (str * seen) answer :=
  match g with
  | GCall c => mapres (fun _ => ANothing) (program c)
  | GSetDate it d => mapres (fun _ => ANothing) (set_date it d)
  | GSetTime it h m s us => mapres (fun _ => ANothing) (set_time it h m s (Offset us))
  | GEnergy it c => mapres (fun _ => ANothing) (run_energy it c)
  | GAsk it q => ask_program it q
  end.

(** Calls one after the other on one connection, as [session_with]. *)
Inductive gsession (gw : gateway) : house -> list (list N) -> list gcall -> script ->
  list (list (str * seen) * res answer) -> list (list N) -> house -> list (list N) -> Prop :=
| Gx_nil h out s : gsession gw h out [] s [] [] h out
| Gx_call h out g gs s es s1 r h1 out1 evs log evs' h' out' :
    gprogram g s = (es, s1, r) -> serving gw h out es h1 out1 evs -> (r = Err TimeoutError -> out1 = []) ->
    gsession gw h1 out1 gs s1 log evs' h' out' ->
    gsession gw h out (g :: gs) s ((yields es, r) :: log) (evs ++ evs') h' out'.

(** A call that can be made. *)
Definition gitem (g : gcall) : item :=
  match g with GCall c => call_item c | GSetDate it _ | GSetTime it _ _ _ _ | GEnergy it _ | GAsk it _ => it end.
Definition gwho (g : gcall) : who :=
  match g with GCall c => call_who c | GSetDate _ _ | GSetTime _ _ _ _ _ => GATEWAY | GEnergy _ _ => ENERGY_MANAGEMENT | GAsk _ q => q_who q end.
Definition gcall_ok (g : gcall) : Prop :=
  ready (gitem g) /\ wiretag (it_where (gitem g)) /\ it_who (gitem g) = gwho g /\ exists o, gstands g o.
Definition ghouse_ok (h : house) : Prop := Forall gpoint_ok h.

(** ** Reading *)

Definition decode (q : query) (vs : list str) : res answer :=
  match q with
  | QTime => rmap ATime (time_of vs)
  | QDate => rmap ADate (date_of vs)
  | QIp => rmap AIp (ip_of vs)
  | QNetmask => rmap AText (dotted_of vs)
  | QMac => rmap AText (mac_of vs)
  | QModel => rmap AText (model_of vs)
  | QFirmware | QKernel | QDistribution => rmap AText (version_of vs)
  | QUptime => rmap AUptime (uptime_of vs)
  | QDatetime => rmap (fun p => ADatetime (fst p) (snd p)) (datetime_of vs)
  | QPower | QTotal | QMonth | QDay => rmap AFloat (float0 vs)
  | QLevel => rmap (fun z => ANumber (Z.to_N z)) (int0 vs)
  end.

Lemma ask_is {Y} it q s :
  (ask_program it q s : list (ev Y) * script * res answer) =
  match single_dim_req it (q_dim q) s with
  | (es, s', Ok m) => (es, s', do vs <- get_values m; decode q vs)
  | (es, s', Err e) => (es, s', Err e)
  end.
Proof.
  assert (G : forall A (f : A -> answer) w (d : list str -> res A),
    (mapres f (ask_gateway it w d) s : list (ev Y) * script * res answer) =
    match single_dim_req it (wg_str w) s with
    | (es, s', Ok m) => (es, s', do vs <- get_values m; rmap f (d vs))
    | (es, s', Err e) => (es, s', Err e)
    end).
  { intros A f w d. unfold mapres, ask_gateway, andthen, lift. destruct (single_dim_req it (wg_str w) s) as [[es s'] [m|e]]; [|reflexivity].
    rewrite app_nil_r. destruct (get_values m) as [vs|e]; reflexivity. }
  assert (E : forall A (f : A -> answer) w (d : list str -> res A),
    (mapres f (ask_energy it (Ok w) d) s : list (ev Y) * script * res answer) =
    match single_dim_req it w s with
    | (es, s', Ok m) => (es, s', do vs <- get_values m; rmap f (d vs))
    | (es, s', Err e) => (es, s', Err e)
    end).
  { intros A f w d. unfold mapres, ask_energy, andthen, lift. destruct (single_dim_req it w s) as [[es s'] [m|e]]; [|reflexivity].
    cbn [app]. rewrite app_nil_r. destruct (get_values m) as [vs|e]; reflexivity. }
  destruct q; first [apply (G _ _ TIME)|apply (G _ _ DATE)|apply (G _ _ IP_ADDRESS)|apply (G _ _ NET_MASK)|apply (G _ _ MAC_ADDRESS)
    |apply (G _ _ DEVICE_TYPE)|apply (G _ _ FIRMWARE_VERSION)|apply (G _ _ UPTIME)|apply (G _ _ DATE_TIME)|apply (G _ _ KERNEL_VERSION)
    |apply (G _ _ DISTRIBUTION_VERSION)|apply (E _ _ (de_str ACTIVE_POWER))|apply (E _ _ (de_str ENERGY_UNIT_TOTALIZER))
    |apply (E _ _ (de_str PARTIAL_TOTALIZER_CURRENT_MONTH))|apply (E _ _ (de_str PARTIAL_TOTALIZER_CURRENT_DAY))|apply (E _ _ (de_str DIFFERENTIAL_CURRENT_LEVEL))].
Qed.

Lemma zone_first t : parse_own_timezone (firstn 3 t) = parse_own_timezone t.
Proof. destruct t as [|a [|b [|c t]]]; reflexivity. Qed.

Lemma time_read' h m s z hs ms ss zs : clock h m s z -> fixed 2 hs h -> fixed 2 ms m -> fixed 2 ss s -> zone (firstn 3 zs) z ->
  time_of [hs; ms; ss; zs] = Ok (the_time h m s z).
Proof.
  intros (A & B & C & D) F1 F2 F3 Z. unfold the_time. rewrite <- (time_read h m s z hs ms ss (firstn 3 zs) A B C D F1 F2 F3 Z).
  unfold time_of. rewrite zone_first. reflexivity.
Qed.

Theorem says_decode q vs a : says q vs a -> (forall f, a <> AFloat f) -> decode q vs = Ok a.
Proof.
  intros H N. destruct H as [hs ms ss zs h m s z C F1 F2 F3 Z|w ds ms ys d m y C (F1 & L1) (F2 & L2) (F3 & L3)|sa sb sc sd a b c d A B C D O|sa sb sc sd a b c d A B C D| |v more n M
    | | | |sd sh sm ss d h m s more A B C D L|hs ms ss zs w ds mos ys h m s z d mo y Cd (A & B & C & D) F1 F2 F3 Z F4 F5 F6|q v more f _ _ _ _|v more n A]; cbn [decode].
  - rewrite (time_read' h m s z) by assumption. reflexivity.
  - rewrite (date_read y m d) by assumption. reflexivity.
  - rewrite (proj1 (ip_read _ _ _ _ _ _ _ _ A B C D) O). reflexivity.
  - rewrite (netmask_read _ _ _ _ _ _ _ _ A B C D). cbn. reflexivity.
  - rewrite mac_read. cbn. reflexivity.
  - destruct M as [v K|v K]; [rewrite (proj1 (model_read v more) K)|rewrite (proj2 (model_read v more) K)]; reflexivity.
  - rewrite version_read. reflexivity.
  - rewrite version_read. reflexivity.
  - rewrite version_read. reflexivity.
  - pose proof (uptime_read _ _ _ _ _ _ _ _ more A B C D) as U. cbv zeta in U. rewrite U.
    replace (86400 * Z.of_N d + 3600 * Z.of_N h + 60 * Z.of_N m + Z.of_N s)%Z with (Z.of_N (86400 * d + 3600 * h + 60 * m + s)) by lia.
    destruct (Z.ltb_spec (Z.of_N (86400 * d + 3600 * h + 60 * m + s)) (86400 * 1000000000)); [reflexivity|lia].
  - rewrite (datetime_read y mo d h m s z) by assumption. reflexivity.
  - destruct (N f eq_refl).
  - unfold int0. cbn [index nth_error bind]. rewrite (number_int _ _ A). cbn [rmap]. rewrite N2Z.id. reflexivity.
Qed.

(** Whatever can be read is read, and means what it says. *)
Theorem says_read q vs : (exists a, says q vs a) -> exists a, says q vs a /\ decode q vs = Ok a.
Proof.
  intros (a & H). assert (D : (exists f, a = AFloat f) \/ (forall f, a <> AFloat f)) by (destruct a; try (right; discriminate); left; eauto).
  destruct D as [(f & ->)|N]; [|exists a; split; [assumption|apply says_decode; assumption]].
  inversion H as [| | | | | | | | | | |q0 v more f0 I Dv Nv R|]; subst. exists (AFloat (float_of_N (value_of 0 v))). split.
  - apply Says_float; try assumption. apply float_reads.
  - unfold decode. cbn in I. destruct I as [<-|[<-|[<-|[<-|[]]]]]; unfold float0; cbn [index nth_error bind]; rewrite (float_read v Dv Nv); reflexivity.
Qed.

Lemma says_not_nil q vs a : says q vs a -> vs <> [].
Proof. destruct 1; discriminate. Qed.
Lemma q_digits q : digits (q_dim q).
Proof. apply digits_all. destruct q; reflexivity. Qed.

(** ** Traces *)

Lemma serving_drop gw {Y Z} (es : list (ev Y)) : forall h out h' out' evs,
  serving gw h out (drop_yields es : list (ev Z)) h' out' evs -> serving gw h out es h' out' evs.
Proof.
  induction es as [|[b|m|y] es IH]; intros h out h' out' evs H; cbn [drop_yields] in H.
  - inversion H; subst. constructor.
  - inversion H; subst. econstructor; eauto.
  - inversion H; subst. econstructor; eauto.
  - constructor. apply IH, H.
Qed.
Lemma serving_drop' gw {Y Z} (es : list (ev Y)) : forall h out h' out' evs,
  serving gw h out es h' out' evs -> serving gw h out (drop_yields es : list (ev Z)) h' out' evs.
Proof. induction 1; cbn [drop_yields]; [constructor|econstructor; eauto|econstructor; eauto|assumption]. Qed.
Lemma yields_drop {Y Z} (es : list (ev Y)) : yields (drop_yields es : list (ev Z)) = [].
Proof. induction es as [|[] es IH]; cbn; auto. Qed.

(** The messages about one point. *)
Definition dim_msg (d : str) (p : point) : list msg :=
  match p_dims p d with Some vs => [MDimRes (p_who p) (p_where p) d vs] | None => [] end.
Lemma dims_read gw q a h : ghouse_ok h ->
  Forall (fun p => exists ms, ms = dim_msg (q_dim q) p /\ read_as dimres as_is (frame_dim (q_dim q) p) ms) (filter (aimed gw (q_who q) a) h).
Proof.
  intros H. apply Forall_forall. intros p I. apply filter_In in I as (I & A). unfold ghouse_ok in H. rewrite Forall_forall in H.
  destruct (H p I) as ((W & _) & D). unfold aimed in A. apply andb_true_iff in A as (A & _). apply who_eqb_true in A.
  exists (dim_msg (q_dim q) p). split; [reflexivity|]. unfold dim_msg, frame_dim, read_as.
  destruct (p_dims p (q_dim q)) as [vs|] eqn:E; [|exists []; repeat constructor].
  destruct (D q vs A E) as (V & b & Sb). exists [[MDimRes (p_who p) (p_where p) (q_dim q) vs]]. split; [reflexivity|]. constructor; [|constructor].
  eexists. split; [apply dim_parse; [exact W|apply q_digits|exact V|eapply says_not_nil; eassumption]|]. split; [do 4 eexists; reflexivity|reflexivity].
Qed.

Lemma Forall2_map_r {A B} (f : A -> B) ps yss : Forall2 (fun p ys => ys = f p) ps yss -> yss = map f ps.
Proof. induction 1; cbn; congruence. Qed.

(** What a question hears. *)
Lemma single_served gw it q s (es : list (ev (str * seen))) s1 r h h1 out1 evs :
  ghouse_ok h -> ready it -> wiretag (it_where it) -> it_who it = q_who q ->
  single_dim_req it (q_dim q) s = (es, s1, r) -> serving gw h [] es h1 out1 evs -> (r = Err TimeoutError -> out1 = []) ->
  out1 = [] /\ yields es = [] /\ h1 = h /\ evs = [] /\
  r = match concat (map (dim_msg (q_dim q)) (filter (aimed gw (q_who q) (it_where it)) h)) with m :: _ => Ok m | [] => Err ResponseError end.
Proof.
  intros Hh Hr Hw Hk E S T. unfold single_dim_req, andthen, collect in E.
  destruct (dimension_streamed it (q_dim q) as_is s Hr (proj1 Hw) (proj1 (FrameThms.digits_wire _ (q_digits q)))) as (x & Hx & Ex).
  rewrite Ex in E. destruct x as [[es0 s0] r0]. cbn [pre] in E. cbn [app] in E.
  set (o := Dimension (q_who q) (it_where it) (q_dim q)).
  assert (Oo : order_ok o) by (split; [exact Hw|apply q_digits]).
  rewrite Hk in E. change (frame_dimreq (q_who q) (it_where it) (q_dim q)) with (order_frame o) in E.
  change (yields (Sent (order_frame o) :: es0)) with (yields es0) in E.
  assert (Es : es = drop_yields (Sent (order_frame o) :: es0) /\ (r0 = Err TimeoutError -> r = Err TimeoutError)).
  { destruct r0 as [[]|e]; [|injection E as <- <- <-; split; [reflexivity|congruence]].
    destruct (yields es0) as [|m ms]; [|destruct (is_dimres m)]; unfold raise, ret in E; rewrite app_nil_r in E; injection E as <- <- <-; (split; [reflexivity|discriminate]). }
  destruct Es as (-> & Tr). apply serving_drop in S. rewrite yields_drop.
  inversion S as [|? ? ? h2 ans ev1 ? ? ? evs2 Sv S2| |]; subst. cbn [app] in S2. apply (serves_order gw h o) in Sv; [|assumption].
  destruct (existsb (at_whom gw o) h) eqn:X.
  - destruct (obeys_ask gw h o _ _ _ ltac:(intros []) X Sv) as (-> & ->).
    assert (ev1 = []) as -> by (inversion Sv; reflexivity).
    destruct (read_all dimres as_is (frame_dim (q_dim q)) _ _ (dims_read gw q (it_where it) h Hh)) as (yss & fyss & F & Ec & G).
    destruct (stream_served gw dimres as_is _ _ _ _ dimres_not_ack Hx _ _ _ _ _ _ S2 (fun Y => T (Tr Y)) G) as (-> & -> & -> & -> & Ey).
    apply Forall2_map_r in F. subst yss. rewrite <- Ec in Ey. rewrite Ey in E.
    do 4 (split; [reflexivity|]).
    destruct (concat _) as [|m ms] eqn:C; [unfold raise in E; injection E as _ _ <-; reflexivity|].
    assert (is_dimres m = true) as Dm.
    { assert (I : In m (concat (map (dim_msg (q_dim q)) (filter (aimed gw (q_who q) (it_where it)) h)))) by (rewrite C; left; reflexivity).
      apply in_concat in I as (l & Il & Im). apply in_map_iff in Il as (p & <- & _). unfold dim_msg in Im. destruct (p_dims p _); [|destruct Im].
      destruct Im as [<-|[]]. reflexivity. }
    rewrite Dm in E. unfold ret in E. injection E as _ _ <-. reflexivity.
  - destruct (obeys_nobody _ _ _ _ _ _ X Sv) as (-> & -> & ->).
    destruct (nack_served gw dimres as_is _ _ _ _ _ _ _ _ ltac:(intros W; destruct (dimres_not_ack _ W); congruence) Hx S2 (fun Y => T (Tr Y))) as (-> & -> & -> & -> & Ey).
    do 4 (split; [reflexivity|]). injection E as _ <-.
    replace (filter (aimed gw (q_who q) (it_where it)) h) with (@nil point); [reflexivity|]. symmetry.
    clear - X. cbn [at_whom o] in X. induction h as [|p h IH]; [reflexivity|]. cbn in X. apply orb_false_iff in X as (X1 & X2). cbn. rewrite X1. apply IH, X2.
Qed.

(** The first point aimed at that has the dimension. *)
Lemma first_dim gw w a d h :
  (concat (map (dim_msg d) (filter (aimed gw w a) h)) = [] /\ forall p, In p h -> aimed gw w a p = true -> p_dims p d = None) \/
  exists h1 p h2 vs ms, h = h1 ++ p :: h2 /\ (forall p', In p' h1 -> aimed gw w a p' = true -> p_dims p' d = None) /\
    aimed gw w a p = true /\ p_dims p d = Some vs /\
    concat (map (dim_msg d) (filter (aimed gw w a) h)) = MDimRes (p_who p) (p_where p) d vs :: ms.
Proof.
  induction h as [|p h IH]; [left; split; [reflexivity|intros p []]|]. cbn [filter].
  destruct (aimed gw w a p) eqn:A; [cbn [map concat]; unfold dim_msg at 1 3; destruct (p_dims p d) as [vs|] eqn:E|].
  - right. exists [], p, h, vs. eexists. split; [reflexivity|]. split; [intros p' []|]. split; [assumption|]. split; [assumption|]. reflexivity.
  - cbn [app]. destruct IH as [(C & N)|(h1 & p1 & h2 & vs & ms & -> & N & A1 & E1 & C)].
    + left. split; [assumption|]. intros p' [<-|I]; auto.
    + right. exists (p :: h1), p1, h2, vs, ms. split; [reflexivity|]. split; [intros p' [<-|I]; auto|]. auto.
  - destruct IH as [(C & N)|(h1 & p1 & h2 & vs & ms & -> & N & A1 & E1 & C)].
    + left. split; [assumption|]. intros p' [<-|I] Ap; [congruence|auto].
    + right. exists (p :: h1), p1, h2, vs, ms. split; [reflexivity|]. split; [intros p' [<-|I] Ap; [congruence|auto]|]. auto.
Qed.

Lemma gask_served gw it q s es s1 r h h1 out1 evs : ghouse_ok h -> gcall_ok (GAsk it q) -> gprogram (GAsk it q) s = (es, s1, r) ->
  serving gw h [] es h1 out1 evs -> (r = Err TimeoutError -> out1 = []) ->
  out1 = [] /\ gdoes gw h (GAsk it q) h1 (yields es) r evs.
Proof.
  intros Hh (Hr & Hw & Hk & _) E S T. cbn [gprogram gitem gwho] in *. rewrite ask_is in E.
  destruct (single_dim_req it (q_dim q) s) as [[es0 s0] r0] eqn:E0.
  assert (Es : es = es0) by (destruct r0; congruence). subst es0.
  assert (T0 : r0 = Err TimeoutError -> out1 = []) by (intros ->; apply T; congruence).
  destruct (single_served gw it q s es s0 r0 h h1 out1 evs Hh Hr Hw Hk E0 S T0) as (-> & -> & -> & -> & R).
  split; [reflexivity|].
  destruct (first_dim gw (q_who q) (it_where it) (q_dim q) h) as [(C & N)|(h1' & p & h2 & vs & ms & Eh & N & A & D & C)]; rewrite C in R; subst r0.
  - injection E as _ <-. destruct (existsb (aimed gw (q_who q) (it_where it)) h) eqn:X.
    + apply Gd_unknown; assumption.
    + apply (Gd_nobody gw h (GAsk it q) (Dimension (q_who q) (it_where it) (q_dim q))); [constructor|exact X].
  - cbn [get_values bind] in E. unfold ghouse_ok in Hh. rewrite Forall_forall in Hh.
    assert (Ip : In p h) by (rewrite Eh; apply in_elt). destruct (Hh p Ip) as (_ & Dp).
    assert (Wp : p_who p = q_who q) by (unfold aimed in A; apply andb_true_iff in A as (A & _); apply who_eqb_true, A).
    destruct (says_read q vs (proj2 (Dp q vs Wp D))) as (a & Sa & Da). rewrite Da in E. injection E as _ <-.
    eapply Gd_ask; eassumption.
Qed.

(** ** Setting *)

Lemma value_inj s : forall s' a a', length s = length s' -> digits s -> digits s' -> value_of a s = value_of a' s' -> a = a' /\ s = s'.
Proof.
  induction s as [|c s IH]; intros [|c' s'] a a' L D D' V; try discriminate; [cbn in V; auto|].
  inversion D; inversion D'; subst. cbn [value_of] in V. injection L as L.
  destruct (IH s' _ _ L ltac:(assumption) ltac:(assumption) V) as (E & ->). unfold digitchar in *.
  assert (a = a' /\ c = c') as (-> & ->) by lia. auto.
Qed.
Lemma fixed_inj k s s' n : fixed k s n -> fixed k s' n -> s = s'.
Proof.
  intros ((D & _ & _ & V) & L) ((D' & _ & _ & V') & L'). assert (value_of 0 s = value_of 0 s') as E by lia.
  apply (value_inj s s' 0 0); try assumption. congruence.
Qed.

Lemma fmt1_dec y : fmt 1 y = dec (Z.to_N y).
Proof.
  unfold fmt, pad. pose proof (dec_not_nil (Z.to_N y)) as N. destruct (dec (Z.to_N y)) as [|c r]; [congruence|]. reflexivity.
Qed.

Lemma gstands_ok g o : wiretag (it_where (gitem g)) -> gstands g o -> order_ok o.
Proof.
  intros W H. assert (F : forall k s n, fixed k s n -> wiretag s) by (intros k s n ((D & _) & _); apply FrameThms.digits_wire, D).
  inversion H as [c o' S|it y m d w ws ds ms ys C Fo F1 F2 F3 Nm|it h m s us hs ms ss zs H1 H2 H3 F1 F2 F3 Z|it c what D Nd|it q]; subst; cbn [gitem] in W.
  - apply (stands_ok c); assumption.
  - split; [exact W|]. split; [apply digits_all; reflexivity|]. split; [|discriminate].
    repeat (apply Forall_cons; [eauto|]); [|apply Forall_nil]. apply FrameThms.digits_wire, Nm.
  - split; [exact W|]. split; [apply digits_all; reflexivity|]. split; [|discriminate].
    repeat (apply Forall_cons; [eauto|]); [|apply Forall_nil]. inversion Z as [u t Hu ((D & _) & _)|u t Hu ((D & _) & _)]; subst; apply FrameThms.digits_wire; (constructor; [unfold digitchar; lia|exact D]).
  - split; [|exact W]. apply (what_wire c). apply what_documented; [exact D|]. destruct c; cbn; auto; discriminate.
  - split; [exact W|apply q_digits].
Qed.

Lemma sent_zone_is us zs : zone_sent us zs -> zs = sent_zone us.
Proof.
  intros H. assert (F : fixed 3 (fmt 3 (own_hours us)) (zone_hours us)).
  { apply fmt_fixed; [lia|]. pose proof (own_hours_range us). change (zone_hours us) with (own_hours us). cbn. lia. }
  unfold sent_zone. inversion H as [u t Hu Ft|u t Hu Ft]; subst.
  - destruct (Z.leb_spec 0 us); [|lia]. f_equal. exact (fixed_inj _ _ _ _ Ft F).
  - destruct (Z.leb_spec 0 us); [lia|]. f_equal. exact (fixed_inj _ _ _ _ Ft F).
Qed.
Lemma sent_date_is y m d w ws ds ms ys : calendar_date (y, m, d) -> falls_on (y, m, d) w ->
  fixed 2 ws w -> fixed 2 ds d -> fixed 2 ms m -> numeral (Z.to_N y) ys -> [ws; ds; ms; ys] = sent_date (y, m, d).
Proof.
  intros C Fo F1 F2 F3 Nm. pose proof (calendar_bounds _ _ _ C) as B. apply (weekday_true _ _ C) in Fo. subst w.
  destruct (sent_date_documented y m d C) as (w & ws' & ds' & ms' & ys' & E & Fo & G1 & G2 & G3 & _).
  apply (weekday_true _ _ C) in Fo. subst w. rewrite E.
  rewrite (fixed_inj _ _ _ _ F1 G1), (fixed_inj _ _ _ _ F2 G2), (fixed_inj _ _ _ _ F3 G3).
  unfold sent_date in E. injection E as _ _ _ <-. rewrite fmt1_dec. apply numeral_dec in Nm. subst ys. reflexivity.
Qed.

Lemma map_answered {Y A} (f : unit -> A) (p : io Y unit) s frame es s1 r :
  answered frame s (p s) -> mapres f p s = (es, s1, r) -> exists r0, answered frame s (es, s1, r0) /\ r = rmap f r0.
Proof. intros H E. unfold mapres in E. destruct (p s) as [[es0 s0] r0]. injection E as <- <- <-. eauto. Qed.

Lemma set_program g o s : gcall_ok g -> gstands g o -> sets o = true -> (forall c, g <> GCall c) ->
  exists p, gprogram g = mapres (fun _ => ANothing) p /\ answered (order_frame o) s (p s).
Proof.
  intros (Hr & Hw & Hk & _) H St Nc. pose proof (proj1 Hw : placed (gitem g)) as Hp.
  inversion H as [c o' Sf|it y m d w ws ds ms ys C Fo F1 F2 F3 Nm|it h m x us hs ms ss zs H1 H2 H3 F1 F2 F3 Z|it c what D Nd|it q]; subst; cbn [gitem gwho gprogram order_frame] in *.
  - destruct (Nc c eq_refl).
  - eexists. split; [reflexivity|]. rewrite (sent_date_is y m d w) by assumption. rewrite <- Hk. apply set_date_answered; assumption.
  - eexists. split; [reflexivity|]. pose proof (sent_zone_is _ _ Z) as ->.
    assert (F : forall n t, (0 <= n <= 59)%Z -> fixed 2 t n -> t = fmt 2 n).
    { intros n t Hn Ft. apply (fixed_inj 2 _ _ n Ft). apply fmt_fixed; [lia|]. cbn. lia. }
    rewrite (F h hs ltac:(lia) F1), (F m ms H2 F2), (F x ss H3 F3). rewrite <- Hk. apply set_time_answered; assumption.
  - eexists. split; [reflexivity|]. rewrite <- Hk. unfold run_energy.
    assert (Nd' : ~ is_daily c) by (destruct c; cbn; auto; discriminate).
    destruct (what_documented c what D Nd') as (E & T). rewrite E. rewrite andthen_lift. apply command_answered; assumption.
  - discriminate.
Qed.

Lemma sets_changes o : sets o = true <-> changes o.
Proof. destruct o; cbn; split; auto; try discriminate; intros []. Qed.

Lemma gset_served gw g o s es s1 r h h1 out1 evs : gcall_ok g -> gstands g o -> sets o = true -> (forall c, g <> GCall c) ->
  gprogram g s = (es, s1, r) -> serving gw h [] es h1 out1 evs -> (r = Err TimeoutError -> out1 = []) ->
  out1 = [] /\ gdoes gw h g h1 (yields es) r evs.
Proof.
  intros Hok Ho St Nc E S T. destruct (set_program _ o s Hok Ho St Nc) as (p & Ep & A). rewrite Ep in E.
  destruct (map_answered _ _ _ _ _ _ _ A E) as (r0 & A0 & ->). pose proof Hok as (_ & Hw & _).
  destruct (command_served gw o s es s1 r0 h h1 out1 evs (gstands_ok _ _ Hw Ho) (proj1 (sets_changes o) St) A0 S ltac:(intros ->; auto))
    as (-> & -> & [(X & -> & -> & ->)|(X & ans & O & ->)]); (split; [reflexivity|]); cbn [rmap].
  - eapply Gd_nobody; eassumption.
  - eapply Gd_set; eassumption.
Qed.

Lemma gcall_call c : gcall_ok (GCall c) -> call_ok c.
Proof. intros (Hr & Hw & Hk & o & Ho). inversion Ho; subst. split; [exact Hr|]. split; [exact Hw|]. split; [exact Hk|eauto]. Qed.
Lemma ghouse_house h : ghouse_ok h -> house_ok h.
Proof. intros H. eapply Forall_impl; [|exact H]. intros p P. apply P. Qed.

(** One call. *)
Theorem gone_call gw h g s es s1 r h1 out1 evs : ghouse_ok h -> gcall_ok g -> gprogram g s = (es, s1, r) ->
  serving gw h [] es h1 out1 evs -> (r = Err TimeoutError -> out1 = []) ->
  out1 = [] /\ gdoes gw h g h1 (yields es) r evs.
Proof.
  intros Hh Hok E S T. pose proof Hok as (_ & _ & _ & o & Ho).
  destruct g as [c|it d|it a b x us|it c|it q]; [| | | |apply (gask_served gw it q s es s1); assumption].
  - cbn [gprogram] in E. unfold mapres in E. destruct (program c s) as [[es0 s0] r0] eqn:E0. injection E as <- <- <-.
    destruct (one_call gw h c s es0 s0 r0 h1 out1 evs (ghouse_house h Hh) (gcall_call c Hok) E0 S) as (-> & D); [intros ->; auto|]. split; [reflexivity|].
    replace (rmap _ r0) with (as_answer r0) by (destruct r0 as [[]|]; reflexivity). constructor. exact D.
  - apply (gset_served gw _ o s es s1); try assumption; [inversion Ho; reflexivity|discriminate].
  - apply (gset_served gw _ o s es s1); try assumption; [inversion Ho; reflexivity|discriminate].
  - apply (gset_served gw _ o s es s1); try assumption; [inversion Ho; reflexivity|discriminate].
Qed.

(** ** The house stays readable *)

Lemma step_who gw o p : p_who (step gw p o) = p_who p.
Proof. unfold step. destruct (at_whom gw o p); [|reflexivity]. destruct o; reflexivity. Qed.
Definition order_who (o : order) : who := match o with Command w _ _ | Writing w _ _ _ | Status w _ | Dimension w _ _ => w end.
Lemma step_other gw o p : p_who p <> order_who o -> step gw p o = p.
Proof.
  intros N. unfold step. destruct (at_whom gw o p) eqn:A; [|reflexivity]. exfalso. apply N. apply who_eqb_true.
  destruct o; cbn in A; apply andb_true_iff in A as (A & _); exact A.
Qed.
Lemma stands_who c o : stands_for c o -> order_who o = LIGHTING \/ order_who o = AUTOMATION.
Proof. destruct 1; cbn; auto. Qed.
Lemma q_who_cases q : q_who q = GATEWAY \/ q_who q = ENERGY_MANAGEMENT.
Proof. destruct q; auto. Qed.

Lemma q_dim_inj q q' : q_who q = q_who q' -> q_dim q = q_dim q' -> q = q'.
Proof. destruct q, q'; cbn; try discriminate; reflexivity. Qed.

Lemma numeral_field y ys : (1 <= y <= 9999)%Z -> numeral (Z.to_N y) ys -> short_field ys y.
Proof.
  intros B Nm. pose proof Nm as (D & N & _ & V). split.
  - split; [exact D|]. split; [destruct ys; [congruence|cbn; lia]|]. split; [exact N|]. rewrite V. lia.
  - apply numeral_dec in Nm. subst ys. pose proof (small_len (Z.to_N y) ltac:(lia)) as L. unfold slen in L. lia.
Qed.
Lemma fixed_short k s n : (1 <= k <= 4300)%nat -> fixed k s n -> short_field s n.
Proof. intros K ((D & _ & N & V) & L). split; [split; [exact D|]; split; [lia|]; split; [exact N|exact V]|lia]. Qed.

Lemma firstn_fixed n t : (0 <= n < 100)%Z -> fixed 3 t n -> fixed 2 (firstn 2 t) (n / 10)%Z.
Proof.
  intros B ((D & _ & _ & V) & L). destruct t as [|a [|b [|c [|]]]]; try discriminate L. cbn [firstn value_of] in *.
  inversion D as [|? ? Da D1]; subst. inversion D1 as [|? ? Db D2]; subst. inversion D2 as [|? ? Dc _]; subst. unfold digitchar in *.
  split; [|reflexivity]. split; [repeat (constructor; [unfold digitchar; lia|]); constructor|]. split; [cbn; lia|]. split; [discriminate|]. cbn [value_of].
  symmetry. apply (Z.div_unique _ 10 _ (Z.of_N (c - 48))); lia.
Qed.
Lemma zone_back_read us zs : zone_sent us zs -> zone (firstn 3 zs) (zone_back us) /\ (Z.abs (zone_back us) < 24)%Z.
Proof.
  assert (B : (0 <= zone_hours us < 24)%Z) by (exact (own_hours_range us)).
  assert (B' : (0 <= zone_hours us / 10 <= 2)%Z) by (split; [apply Z.div_pos; lia|]; assert (zone_hours us / 10 < 3)%Z by (apply Z.div_lt_upper_bound; lia); lia).
  intros H. unfold zone_back. inversion H as [u t Hu Ft|u t Hu Ft]; subst; cbn [firstn].
  - destruct (Z.leb_spec 0 us); [|lia]. split; [|lia]. rewrite Z.mul_1_l. constructor. exact (firstn_fixed (zone_hours us) t ltac:(lia) Ft).
  - destruct (Z.leb_spec 0 us); [lia|]. split; [|lia]. replace (-1 * (zone_hours us / 10))%Z with (- (zone_hours us / 10))%Z by lia. constructor. exact (firstn_fixed (zone_hours us) t ltac:(lia) Ft).
Qed.

(** What set_date and set_time write can be read. *)
Lemma set_says g o w a d vs : gstands g o -> (forall c, g <> GCall c) -> o = Writing w a d vs ->
  w = GATEWAY /\ exists q ans, q_who q = GATEWAY /\ q_dim q = d /\ says q vs ans.
Proof.
  intros H Nc ->. inversion H as [c o' Sf|it y m dd wd ws ds ms ys C Fo F1 F2 F3 Nm|it h m x us hs ms ss zs H1 H2 H3 F1 F2 F3 Z|it c what D Nd|it q]; subst; try discriminate.
  - destruct (Nc c eq_refl).
  - split; [reflexivity|]. exists QDate, (ADate (y, m, dd)). split; [reflexivity|]. split; [reflexivity|].
    pose proof (calendar_bounds _ _ _ C). apply Says_date; [exact C|apply (fixed_short 2); [lia|exact F2]|apply (fixed_short 2); [lia|exact F3]|apply numeral_field; [lia|exact Nm]].
  - split; [reflexivity|]. exists QTime, (ATime (the_time h m x (zone_back us))). split; [reflexivity|]. split; [reflexivity|].
    destruct (zone_back_read us zs Z) as (Zr & Zb). apply Says_time; try assumption. split; [lia|]. split; [lia|]. split; [lia|exact Zb].
Qed.

Lemma gdoes_step gw h g h1 obs r evs : gdoes gw h g h1 obs r evs ->
  exists o, gstands g o /\ h1 = map (fun p => step gw p o) h.
Proof.
  intros D. destruct D as [c h' obs r evs D|g o Ho X|g o h' ans evs Nc Ho St X O|it q X N|it q ha p hb vs a Eh N A Ev Sa].
  - destruct (does_step _ _ _ _ _ _ _ D) as (o & Ho & E). exists o. split; [constructor; exact Ho|exact E].
  - exists o. split; [exact Ho|]. rewrite <- (map_id h) at 1. apply map_ext_in. intros p I. unfold step. rewrite (existsb_none _ _ X p I). reflexivity.
  - exists o. split; [exact Ho|]. eapply obeys_step, O.
  - eexists. split; [constructor|]. rewrite <- (map_id h) at 1. apply map_ext. intros p. unfold step. destruct (at_whom _ _ p); reflexivity.
  - eexists. split; [constructor|]. rewrite <- (map_id h) at 1. apply map_ext. intros p'. unfold step. destruct (at_whom _ _ p'); reflexivity.
Qed.

Lemma gdoes_ok gw h g h1 obs r evs : ggateway_ok gw -> ghouse_ok h -> wiretag (it_where (gitem g)) -> gdoes gw h g h1 obs r evs -> ghouse_ok h1.
Proof.
  intros (G & Ge) Hh Hw D. unfold ghouse_ok in *. rewrite Forall_forall in Hh.
  assert (Hs : forall o p, In p h -> point_ok (step gw p o) -> (p_who p = order_who o -> forall q vs, p_who p = q_who q -> p_dims (step gw p o) (q_dim q) = Some vs -> Forall wiretag vs /\ exists a, says q vs a) ->
    gpoint_ok (step gw p o)).
  { intros o p I P Q. split; [exact P|]. intros q vs. rewrite step_who. intros Eq Ed. destruct (Hh p I) as (_ & K).
    destruct (who_eqb (p_who p) (order_who o)) eqn:Ew; [apply who_eqb_true in Ew; apply (Q Ew); assumption|].
    assert (N : p_who p <> order_who o) by (intros X; rewrite X in Ew; assert (who_eqb (order_who o) (order_who o) = true) by (apply who_eqb_spec; reflexivity); congruence).
    rewrite (step_other gw o p N) in Ed. apply K; assumption. }
  pose proof D as D0.
  destruct D as [c h' obs r evs D|g o Ho X|g o h' ans evs Nc Ho St X O|it q X N|it q ha p hb vs a Eh N A Ev Sa]; try (apply Forall_forall; exact Hh).
  - assert (H1 : house_ok h') by (eapply does_ok; [exact G| |exact D]; apply Forall_forall; intros p I; apply (Hh p I)).
    destruct (does_step _ _ _ _ _ _ _ D) as (o & Ho & ->). apply Forall_forall. intros p' I'. apply in_map_iff in I' as (p & <- & I).
    apply Hs; [exact I| |].
    + unfold house_ok in H1. rewrite Forall_forall in H1. apply H1. apply in_map_iff. eauto.
    + intros Ew q vs Eq. destruct (stands_who c o Ho), (q_who_cases q); congruence.
  - pose proof (obeys_step _ _ _ _ _ _ O) as ->. apply Forall_forall. intros p' I'. apply in_map_iff in I' as (p & <- & I).
    destruct (Hh p I) as (P & K). pose proof (gstands_ok g o Hw Ho) as Oo.
    inversion Ho as [c o' Sf|it y m dd wd ws ds ms ys C Fo F1 F2 F3 Nm|it hh m x us hs ms ss zs H1 H2 H3 F1 F2 F3 Z|it c what Dc Nd|it q]; subst; [destruct (Nc c eq_refl)| | | |discriminate St].
    1,2: apply Hs; [exact I| |];
      [unfold step; destruct (at_whom _ _ p) eqn:A; [|exact P]; cbn in A; apply andb_true_iff in A as (A & _); apply who_eqb_true in A;
       pose proof P as (P1 & P2 & P3 & _); split; [exact P1|]; split; [exact P2|]; split; [exact P3|]; split; cbn; congruence
      |intros Ew q vs Eq; unfold step; destruct (at_whom _ _ p) eqn:A; [|apply K, Eq]; cbn [effect_of written p_dims];
       destruct (str_eqb _ (q_dim q)) eqn:Ed; [|apply K, Eq]; intros [= <-]; apply str_eqb_spec in Ed; split; [apply Oo|];
       destruct (set_says _ _ _ _ _ _ Ho Nc eq_refl) as (_ & q' & ans' & Q1 & Q2 & Sq);
       assert (q' = q) as -> by (apply q_dim_inj; cbn in Ew; congruence); eauto].
    apply Hs; [exact I| |].
    + unfold step; destruct (at_whom _ _ p) eqn:A; [|exact P]; cbn in A; apply andb_true_iff in A as (A & _); apply who_eqb_true in A.
      pose proof P as (P1 & P2 & P3 & _). split; [exact P1|]. split; [exact P2|]. cbn [effect_of moved p_state p_who]. rewrite A.
      split; [apply Ge; [apply Oo|exact P3]|]. split; discriminate.
    + intros Ew q vs Eq. unfold step. destruct (at_whom _ _ p); apply K, Eq.
Qed.
