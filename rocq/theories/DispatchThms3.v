(** * Theorems about event dispatch: single events *)
From Coq Require Import String List NArith ZArith Bool Lia.
From Verif Require Import PyStr PyDate PyFloat Tags Messages SpecMsg SpecTag MessageThms MessageThms2 MessageThms3 TagThms Protocol IO Client
  Items Lighting LightThms2 Gateway SpecGateway GatewayThms2 Energy SpecEnergy EnergyThms Dispatch SpecDispatch DispatchThms DispatchThms2.
Import ListNotations.
Open Scope N_scope.
Open Scope list_scope.

(** The meaning of an event is unique. *)
Theorem reports_unique m k args k' args' : built m -> reports m k args -> reports m k' args' -> k = k' /\ args = args'.
Proof.
  intros B R R'. destruct (reports_supported m k args R) as (w & W & S). destruct (supported_class w S) as (c & Ec & Hc).
  assert (Wc : msg_who m = Some (class_who c)) by congruence.
  apply (reports_iff c m k args B Wc Hc) in R. apply (reports_iff c m k' args' B Wc Hc) in R'. rewrite R in R'. injection R' as -> ->. auto.
Qed.

Theorem made_unique its r m ts ts' : built m -> NoDup its -> made its r m ts -> made its r m ts' -> ts = ts'.
Proof.
  intros B N1 M M'. destruct M as [k args w whr i ts R W Wh Hi C|H], M' as [k' args' w' whr' i' ts' R' W' Wh' Hi' C'|H'].
  - destruct (reports_unique m k args k' args' B R R') as [<- <-].
    assert (i' = i) as -> by (assert (E : (w', whr') = (w, whr)) by congruence; rewrite E in Hi'; apply (position_nth _ _ _ N1) in Hi, Hi'; congruence).
    eapply calls_unique; eassumption.
  - exfalso. eapply H'; eassumption.
  - exfalso. eapply H; eassumption.
  - reflexivity.
Qed.

(** ** Lights *)

Theorem light_wrong_dim e dim ps whr vs k args : documented_dim e dim -> e <> HSV_CHANGE -> Forall nohash ps ->
  reports (MDimRes LIGHTING whr (with_params dim ps) vs) k args -> k <> K_light e.
Proof.
  intros D He Hp R. remember (MDimRes LIGHTING whr (with_params dim ps) vs) as m eqn:E.
  destruct R as [| e' dim' n ps' us more ns whr' L Hp' F Hn| | | |]; try discriminate E.
  injection E as _ E _. assert (nohash dim) by (destruct D; cbv; intuition discriminate).
  apply with_params_unique in E as [E _]; [|eapply light_nohash, L|assumption..]. subst dim'.
  intros X. injection X as ->. destruct D; try congruence; inversion L.
Qed.

Theorem light_dimmed_off n what whr k args : 2 <= n -> tagnum what n ->
  reports (MNormal LIGHTING what whr) k args -> k = K_light STATUS_CHANGE /\ args = [VBool false].
Proof.
  intros Hn T R. remember (MNormal LIGHTING what whr) as m eqn:E. destruct R as [what' whr' b Hb| | | | |]; try discriminate E.
  injection E as -> ->. split; [reflexivity|]. do 2 f_equal. destruct b; [|reflexivity]. exfalso.
  assert (what = lit "1") as -> by (apply Hb; reflexivity). apply tagnum_int in T.
  replace (py_int (twp_tag (lit "1"))) with (Ok 1%Z) in T by (vm_compute; reflexivity). injection T as T. lia.
Qed.

(** ** Gateway *)

Definition text_valued (w : what_gateway) : Prop :=
  In w [NET_MASK; MAC_ADDRESS; FIRMWARE_VERSION; KERNEL_VERSION; DISTRIBUTION_VERSION].

Lemma join_length2 c (a b : str) l : (1 <= length (join c (a :: b :: l)))%nat.
Proof. cbn [join]. rewrite !app_length. cbn [length]. lia. Qed.

Lemma dotted_length vs s : dotted_of vs = Ok s -> (3 <= length s)%nat.
Proof.
  destruct vs as [|a [|b [|c [|d [|]]]]]; try discriminate. cbn [dotted_of].
  repeat match goal with |- context [do _ <- ?x; _] => destruct x; [|discriminate]; cbn [bind] end.
  intros [= <-]. cbn [join]. repeat (rewrite !app_length; cbn [length]). lia.
Qed.
Lemma mac_length vs s : mac_of vs = Ok s -> (5 <= length s)%nat.
Proof.
  destruct vs as [|a [|b [|c [|d [|e [|f [|]]]]]]]; try discriminate. cbn [mac_of].
  intros [= <-]. cbn [join]. repeat (rewrite !app_length; cbn [length]). lia.
Qed.
Lemma version_length vs s : version_of vs = Ok s -> (2 <= length s)%nat.
Proof.
  unfold version_of. destruct (index vs 0); [|discriminate]. destruct (index vs 1); [|discriminate]. destruct (index vs 2); [|discriminate].
  cbn [bind]. intros [= <-]. cbn [join]. repeat (rewrite !app_length; cbn [length]). lia.
Qed.
Theorem text_spread m w args : text_valued w -> reports m (K_gateway w) args ->
  (2 <= length args)%nat /\ exists s, args = map (fun c => VStr [c]) s.
Proof.
  intros T R.
  assert (G : exists vs, gateway_value w vs args).
  { remember (K_gateway w) as k eqn:E. destruct R as [| | |w' whr vs args G|w' whr vs args G|]; try discriminate; injection E as <-; eauto. }
  clear R. destruct G as (vs & G).
  destruct G as [vs t H|vs t H|vs t H|vs t H|vs t H|vs t H|vs t H|vs t H|w vs t Hw H]; try (exfalso; clear - T; cbv in T; intuition discriminate).
  all: rewrite map_length; split; [|exists t; reflexivity].
  - apply dotted_length in H. lia.
  - apply mac_length in H. lia.
  - apply version_length in H. lia.
Qed.

(** The model: one character per argument again, which for the five models with
    a one-digit number is one argument, the digit. *)
Theorem model_spread m args : reports m (K_gateway DEVICE_TYPE) args ->
  exists s, known_model s /\ args = map (fun c => VStr [c]) s.
Proof.
  intros R.
  assert (G : exists vs, gateway_value DEVICE_TYPE vs args).
  { remember (K_gateway DEVICE_TYPE) as k eqn:E. destruct R as [| | |w' whr vs args G|w' whr vs args G|]; try discriminate; injection E as ->; eauto. }
  destruct G as (vs & G). remember DEVICE_TYPE as w eqn:E.
  destruct G as [vs t H|vs t H|vs t H|vs t H|vs t H|vs t H|vs t H|vs t H|w vs t Hw H]; try discriminate E.
  - exists t. split; [|reflexivity]. unfold model_of in H. destruct (index vs 0) as [v|]; [|discriminate]. cbn [bind] in H. injection H as <-.
    unfold gateway_model. destruct (str_in v gateway_models) eqn:I; [apply models_known, str_in_spec, I|constructor].
  - subst w. exfalso. cbv in Hw. intuition discriminate.
Qed.

(** A callback of two arguments is not called, and stops those behind it. *)
Theorem text_not_called its r m w args ts : built m -> text_valued w -> reports m (K_gateway w) args ->
  (forall f, In f (r (K_gateway w)) -> forall n, cb_takes f n = (n =? 2)%nat) -> made its r m ts -> ts = [].
Proof.
  intros B T R Hf M. destruct M as [k args' w' whr i ts' R' W Wh Hi C|H]; [|reflexivity].
  destruct (reports_unique _ _ _ _ _ B R R') as [<- <-]. destruct (text_spread m w args T R) as [L _].
  destruct (r (K_gateway w)) as [|f fs]; inversion C as [|? ? ? E _|]; subst; try reflexivity.
  rewrite (Hf f (or_introl eq_refl)) in E. cbn [length] in E. apply Nat.eqb_eq in E. lia.
Qed.

(** ** Energy *)

Definition parameterised (d : dim_energy) : Prop :=
  In d [DAILY_TOTALIZERS_HOURLY_16BIT; MONTHLY_AVERAGE_HOURLY_16BIT; MONTHLY_TOTALIZERS_CURRENT_YEAR_32BIT;
        MONTHLY_TOTALIZERS_LAST_YEAR_32BIT; ENERGY_UNIT_PER_MONTH; TOTALIZERS].

Theorem parameterised_unreported d m args : parameterised d -> ~ reports m (K_energy d) args.
Proof.
  intros P R. remember (K_energy d) as k eqn:E. destruct R as [| | | | |d' whr vs args V]; try discriminate E. injection E as ->.
  destruct V as [d v more f Hd _ _ _|v more n _|v more _ _|a b c d e f tl more _]; cbv in P; try (intuition discriminate).
  destruct Hd as [<-|[<-|[<-|[<-|[]]]]]; intuition discriminate.
Qed.

Lemma de_nohash d : nohash (de_str d).
Proof. apply digits_nohash35. apply digits_all. destruct d; reflexivity. Qed.

(** Why: with a parameter the dimension is not a member of the enum, without
    one the parameter is not there. *)
Theorem parameterised_fails d whr ps vs : parameterised d -> Forall nohash ps ->
  energy_call (MDimRes ENERGY_MANAGEMENT whr (with_params (de_str d) ps) vs) = Err (match ps with [] => IndexError | _ => ValueError end).
Proof.
  intros P Hp. cbn [energy_call]. destruct ps as [|p ps].
  - replace (with_params (de_str d) []) with (de_str d) by (unfold with_params; cbn; rewrite app_nil_r; reflexivity).
    assert (X : de_of (de_str d) = Ok d) by (apply de_of_spec; reflexivity). rewrite X. cbn [bind].
    destruct P as [<-|[<-|[<-|[<-|[<-|[<-|[]]]]]]]; unfold report_args; rewrite dim_param_none; reflexivity.
  - destruct (de_of (with_params (de_str d) (p :: ps))) as [d'|e] eqn:E; cbn [bind].
    + exfalso. apply de_of_spec in E. pose proof (de_nohash d') as N1. rewrite <- E in N1. apply N1.
      unfold with_params. apply in_or_app. right. left. reflexivity.
    + unfold de_of in E. destruct (find _ _); [discriminate|]. injection E as <-. reflexivity.
Qed.

(** ** Cameras *)

Theorem camera_unreported m args : ~ reports m K_cam args.
Proof. intros R. inversion R. Qed.

Lemma position_camera its whr : sound its -> position (VIDEO_DOOR_ENTRY, whr) its = None.
Proof.
  intros [_ U]. apply position_none. intros H. rewrite Forall_forall in U. apply U in H as [H _]. cbn in H. unfold supported in H. cbn in H. intuition discriminate.
Qed.

Theorem camera_no_item its whr : sound its -> get_item its VIDEO_DOOR_ENTRY whr = (its, Err KeyError).
Proof. intros S. unfold get_item. rewrite (position_camera its whr S). reflexivity. Qed.

Theorem camera_silent v r acts evs q : v < 13 -> observed r acts evs q -> Forall (fun ev => msg_who (snd ev) = Some VIDEO_DOOR_ENTRY) evs ->
  st_started (run v (enter v (connected r)) acts) = [].
Proof.
  intros Hv O C. assert (NS : Forall (fun ev => ~ stray (snd ev)) evs).
  { eapply Forall_impl; [|exact C]. intros [r' m] Hm [X _]. cbn in *. congruence. }
  destruct (observed_run v r acts evs q Hv O NS) as (_ & its & tss & E & _ & F). rewrite E. cbn [open_state st_started].
  clear - C F. induction F as [|[r' m] ts evs tss M F IH]; [reflexivity|]. inversion C as [|? ? Cm C']; subst. cbn [concat]. rewrite (IH C'), app_nil_r.
  cbn [fst snd] in *. destruct M as [k args w whr i ts R W Wh Hi Ca|H]; [|reflexivity].
  apply reports_supported in R as (w' & X & S). rewrite Cm in X. injection X as <-. exfalso. unfold supported in S. cbn in S. intuition discriminate.
Qed.

(** ** Refused calls *)

Theorem refused_stops args pre f post : (forall g, In g pre -> cb_takes g (length args) = true) -> cb_takes f (length args) = false ->
  calls args (pre ++ f :: post) (map (fun g => (cb_id g, args)) pre).
Proof.
  intros H E. induction pre as [|g pre IH]; cbn [app map].
  - apply Calls_refused. exact E.
  - apply Calls_ok; [apply H; left; reflexivity|]. apply IH. intros g' Hg. apply H. right. exact Hg.
Qed.

Lemma camera_values s : In s what_camera_values <-> camera_what s.
Proof.
  split.
  - intros H. vm_compute in H.
    repeat (destruct H as [<-|H]; [first [exact CW_video|exact CW_free|apply CW_setting; lia|apply CW_dial; lia]|]). destruct H.
  - intros [| |a b A B|x y X Y].
    + left. reflexivity.
    + right. left. reflexivity.
    + assert (a = 50 \/ a = 51 \/ a = 52 \/ a = 53 \/ a = 54 \/ a = 55 \/ a = 56) as Ha by lia. assert (b = 48 \/ b = 49) as Hb by lia.
      apply str_in_spec. destruct Ha as [->|[->|[->|[->|[->|[->| ->]]]]]]; destruct Hb as [-> | ->]; vm_compute; reflexivity.
    + assert (x = 49 \/ x = 50 \/ x = 51 \/ x = 52) as Hx by lia. assert (y = 49 \/ y = 50 \/ y = 51 \/ y = 52) as Hy by lia.
      apply str_in_spec. destruct Hx as [->|[->|[->| ->]]]; destruct Hy as [->|[->|[->| ->]]]; vm_compute; reflexivity.
Qed.

Theorem camera_class m : msg_who m = Some VIDEO_DOOR_ENTRY -> forall k args,
  (class_call C_Camera m = Ok (Some (k, args)) <->
   exists what whr, m = MNormal VIDEO_DOOR_ENTRY what whr /\ camera_what what /\ k = K_cam /\ args = [VStr what; VMsg m]).
Proof.
  intros W k args. split.
  - destruct m; cbn in W; try discriminate W; injection W as ->; cbn [class_call cam_call]; try discriminate.
    unfold enum_of. destruct (str_in what what_camera_values) eqn:E; cbn [bind]; [|discriminate]. intros [= <- <-].
    apply str_in_spec, camera_values in E. exists what, whr. auto.
  - intros (what & whr & -> & C & -> & ->). cbn [class_call cam_call]. unfold enum_of.
    apply camera_values, str_in_spec in C. rewrite C. reflexivity.
Qed.
