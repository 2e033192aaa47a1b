(** * Theorems about the log of the event loop *)
From Coq Require Import String List NArith ZArith Bool Lia.
From Verif Require Import PyStr PyDate PyFloat Tags Messages SpecMsg SpecTag MessageThms MessageThms2 MessageThms3 TagThms Protocol IO Client
  Items Lighting LightThms2 Gateway SpecGateway GatewayThms2 Energy SpecEnergy EnergyThms Dispatch SpecDispatch DispatchThms DispatchThms2 DispatchThms3
  Errors ErrorThms Log LoopLog SpecLoopLog.
Import ListNotations.
Open Scope N_scope.
Open Scope list_scope.

(** ** The records change nothing else *)

Lemma call_same r c it m : fst (call_callbacks_x r c it m) = fst (call_callbacks r c it m) /\
  forget (snd (call_callbacks_x r c it m)) = snd (call_callbacks r c it m).
Proof.
  unfold call_callbacks_x, call_callbacks. rewrite <- (forget_call c m). destruct (class_call_x c m) as [[[k args]|]|x]; cbn [forget].
  - destruct (create_tasks (r k) (VItem it :: args)) as [ts [[]|e]]; split; reflexivity.
  - split; reflexivity.
  - split; reflexivity.
Qed.

Lemma dispatch_same why v r cs it m : fst (dispatch_l why v r cs it m) = dispatch v r cs it m.
Proof.
  induction cs as [|c cs IH]; [reflexivity|]. cbn [dispatch_l dispatch]. destruct (item_who v c) as [w|]; [|exact IH].
  destruct (msg_who m) as [w'|]; [|exact IH]. destruct (who_eqb w' w); [|exact IH].
  pose proof (call_same r c it m) as [A B]. destruct (call_callbacks_x r c it m) as [ts x], (call_callbacks r c it m) as [ts2 x2]; cbn [fst snd] in A, B.
  subst ts2 x2. destruct x as [[]|x]; cbn [forget].
  - rewrite app_nil_r. reflexivity.
  - rewrite <- IH. destruct (dispatch_l why v r cs it m). reflexivity.
Qed.

Lemma handle_same why v r its m : fst (handle_l why v r its m) = handle v r its m.
Proof.
  unfold handle_l, handle. destruct (msg_type m); try reflexivity.
  all: destruct (msg_who m) as [w|]; [|reflexivity]; destruct (msg_where m) as [whr|]; [|reflexivity];
    destruct (get_item its w whr) as [its' [n|[]]]; try reflexivity; rewrite <- (dispatch_same why); destruct (dispatch_l why v r subclasses n m); reflexivity.
Qed.

Lemma drain_same why v r t q : forall its ts l, fst (drain_l why v r t q its ts l) = drain v r t q its ts.
Proof.
  induction q as [|m q IH]; intros its ts l; cbn [drain_l drain]; [reflexivity|].
  rewrite <- (handle_same why). destruct (handle_l why v r its m) as [[[its' ts'] [e|]] l']; cbn [fst]; [reflexivity|].
  destruct t as [[]|]; try reflexivity. apply IH.
Qed.

Lemma drained_same why v s : l_state (drained_l why v s) = drained v (l_state s).
Proof.
  unfold drained_l, drained. cbv zeta. rewrite <- (drain_same why _ _ _ _ _ _ (l_log s)).
  destruct (drain_l why v _ _ _ _ _ (l_log s)) as [[[[q its] ts] lp] l]. reflexivity.
Qed.

Lemma step_same why v s a : l_state (step_l why v s a) = step v (l_state s) a.
Proof.
  unfold step_l. destruct a; try reflexivity. cbn [step]. destruct (st_loop (l_state s)) eqn:E1; try reflexivity.
  destruct (st_queue (l_state s)) eqn:E2.
  - reflexivity.
  - apply drained_same.
Qed.

Theorem run_same why v s acts : l_state (run_l why v (enter_l why v s) acts) = run v (enter v s) acts.
Proof.
  assert (X : forall s', l_state (run_l why v s' acts) = run v (l_state s') acts).
  { unfold run_l, run. induction acts as [|a acts IH]; intros s'; [reflexivity|]. cbn [fold_left]. rewrite IH, step_same. reflexivity. }
  rewrite X. f_equal. unfold enter_l, enter. destruct (is_cmd_session _); [reflexivity|]. destruct (st_trans s) as [[]|]; try reflexivity.
  rewrite drained_same. reflexivity.
Qed.

(** ** Errors that are neither InvalidMessage nor InvalidTag *)

Definition calm {A} (r : res A) : Prop := forall e, r = Err e -> e <> InvalidMessage /\ e <> InvalidTag.

Lemma calm_ok {A} (a : A) : calm (Ok a).
Proof. intros e H. discriminate. Qed.
Lemma calm_bind {A B} (r : res A) (f : A -> res B) : calm r -> (forall a, calm (f a)) -> calm (bind r f).
Proof. intros H K e. destruct r as [a|e']; cbn [bind]; [apply K|]. intros [= <-]. apply H. reflexivity. Qed.
Lemma calm_err {A} e : e <> InvalidMessage -> e <> InvalidTag -> @calm A (Err e).
Proof. intros H K e' [= <-]. auto. Qed.
Lemma calm_index {A} (l : list A) i : calm (index l i).
Proof. unfold index. destruct (nth_error l i); [apply calm_ok|apply calm_err; discriminate]. Qed.
Lemma calm_int s : calm (py_int s).
Proof.
  unfold py_int. cbv zeta.
  match goal with |- calm (let '(_, _) := ?p in _) => destruct p as [neg body] end.
  destruct (digits_us false body); [|apply calm_err; discriminate]. destruct (_ <? _); [apply calm_err; discriminate|apply calm_ok].
Qed.
Lemma calm_float s : calm (py_float s).
Proof. unfold py_float. repeat match goal with |- calm (if ?b then _ else _) => destruct b | |- calm (match ?x with _ => _ end) => destruct x end;
  first [apply calm_ok|apply calm_err; discriminate]. Qed.
Lemma calm_mapM {A B} (f : A -> res B) l : (forall a, calm (f a)) -> calm (mapM f l).
Proof.
  intros H. induction l as [|a l IH]; cbn [mapM]; [apply calm_ok|]. apply calm_bind; [apply H|]. intros b. apply calm_bind; [exact IH|].
  intros. apply calm_ok.
Qed.

Ltac calm1 :=
  match goal with
  | |- calm (Ok _) => apply calm_ok
  | |- calm (Err _) => apply calm_err; discriminate
  | |- calm (bind _ _) => apply calm_bind; [|intros ?]
  | |- calm (index _ _) => apply calm_index
  | |- calm (py_int _) => apply calm_int
  | |- calm (py_float _) => apply calm_float
  | |- calm (mapM _ _) => apply calm_mapM; intros ?
  | |- calm (if ?b then _ else _) => destruct b
  | |- calm (match ?x with _ => _ end) => destruct x
  | |- calm (let _ := _ in _) => cbv zeta
  end.
Ltac calm_go := repeat calm1.

Lemma calm_light w whr d vs : calm (light_call (MDimRes w whr d vs)).
Proof. cbn [light_call]. unfold tag_ints, int_value. calm_go. Qed.
Lemma calm_auto w what whr : calm (auto_call (MNormal w what whr)).
Proof. cbn [auto_call]. unfold enum_of. calm_go. Qed.
Lemma calm_cam w what whr : calm (cam_call (MNormal w what whr)).
Proof. cbn [cam_call]. unfold enum_of. calm_go. Qed.
Lemma calm_octet s : calm (parse_octet s).
Proof. unfold parse_octet. calm_go. Qed.
Lemma calm_dotted vs : calm (dotted_of vs).
Proof. unfold dotted_of, py_str_int. calm_go. Qed.
Lemma calm_gateway w whr d vs : calm (gateway_call (MDimRes w whr d vs)).
Proof.
  cbn [gateway_call]. unfold wg_of. apply calm_bind; [calm_go|]. intros g. apply calm_bind; [|intros; apply calm_ok].
  destruct g; (apply calm_bind; [|intros; apply calm_ok]);
  unfold time_of, date_of, ip_of, mac_of, model_of, version_of, uptime_of, datetime_of, parse_own_timezone, mk_time, mk_date, mk_timezone, mk_timedelta, mk_datetime, c_ints, ip_from_string;
  try apply calm_dotted; repeat first [apply calm_dotted|apply calm_octet|calm1].
Qed.
Lemma calm_energy w whr d vs : calm (energy_call (MDimRes w whr d vs)).
Proof.
  cbn [energy_call]. unfold de_of. apply calm_bind; [calm_go|]. intros g.
  destruct g; unfold report_args, dim_param, int_at, float_at, status_of_event, actuator_of, flag0, char0, totalizer_of, float0, mk_datetime, c_ints; calm_go.
Qed.

Lemma calm_type whr : get_type whr <> Err KeyError.
Proof.
  unfold get_type. repeat match goal with |- (if ?b then _ else _) <> _ => destruct b end; try discriminate.
  unfold index. destruct (nth_error _ 0); cbn [bind]; [|discriminate]. destruct (_ && _); discriminate.
Qed.

(** ** One event *)

Lemma dispatch_class_l why r it m w c : msg_who m = Some w -> class_who c = w -> forall v, v < 13 ->
  snd (dispatch_l why v r subclasses it m) =
    call_log c m ++ match snd (call_callbacks_x r c it m) with
                    | Okx _ => []
                    | Raise x => [failure_record x (why r m); not_found m]
                    end.
Proof.
  intros Hm Hc v Hv. unfold dispatch_l, subclasses, item_who. rewrite (proj2 (N.ltb_lt v 13) Hv), Hm.
  subst w. destruct c; cbn [class_who who_eqb who_str str_eqb].
  all: repeat match goal with |- context [who_eqb ?a ?b] => let y := eval vm_compute in (who_eqb a b) in change (who_eqb a b) with y end; cbv iota.
  all: destruct (call_callbacks_x r _ it m) as [ts [x|x]]; cbn [snd]; [symmetry; apply app_nil_r|reflexivity].
Qed.

Lemma create_refused fs args : (snd (create_tasks fs args) = Ok tt /\ forall f, In f fs -> cb_takes f (length args) = true) \/
  (snd (create_tasks fs args) = Err TypeError /\ exists f, In f fs /\ cb_takes f (length args) = false).
Proof.
  induction fs as [|f fs IH]; cbn [create_tasks]; [left; split; [reflexivity|intros f []]|].
  destruct (cb_takes f (length args)) eqn:E.
  - destruct (create_tasks fs args) as [ts x]. cbn [snd] in *. destruct IH as [[-> H]|[-> (g & Hg & H)]]; [left|right]; (split; [reflexivity|]).
    + intros g [<-|Hg]; auto.
    + exists g. split; [right; exact Hg|exact H].
  - right. split; [reflexivity|]. exists f. split; [left; reflexivity|exact E].
Qed.

Lemma call_log_remarks c m : msg_who m = Some (class_who c) -> remarks m (call_log c m).
Proof.
  intros W. destruct c; cbn [class_who] in W.
  1-3,5: (replace (call_log _ m) with (@nil record) by (destruct m; reflexivity)); apply Rem_none; intros v U; destruct U; cbn in W; discriminate.
  assert (K : forall d v (vs : list str), (str_eqb d (wg_str DEVICE_TYPE) && negb (str_in v gateway_models)) = true <-> d = lit "15" /\ ~ known_model v).
  { intros d v vs. rewrite andb_true_iff, negb_true_iff, str_eqb_spec. rewrite <- (models_known v), <- (str_in_spec v gateway_models).
    destruct (str_in v gateway_models); intuition congruence. }
  destruct m; cbn in W; try discriminate; injection W as ->; cbn [call_log].
  1,2,3: apply Rem_none; intros v U; inversion U.
  all: destruct vals as [|v vs]; [apply Rem_none; intros v U; inversion U|].
  all: specialize (K dim v vs); destruct (str_eqb dim _ && _) eqn:E.
  1,3: destruct (proj1 K eq_refl) as [-> U]; apply Rem_model; constructor; exact U.
  all: apply Rem_none; intros v' U; inversion U; subst; assert (X : false = true) by (apply K; auto); discriminate.
Qed.

Lemma light_none w whr d vs : light_call (MDimRes w whr d vs) = Ok None <->
  exists dim ps, d = with_params dim ps /\ nohash dim /\ Forall nohash ps /\ forall e n, ~ light_dim e dim n.
Proof.
  destruct (twp_spec d) as (E & N1 & N2).
  assert (X : light_call (MDimRes w whr d vs) = Ok None <-> ~ In (twp_tag d) [lit "1"; lit "8"; lit "12"; lit "13"]).
  { cbn [light_call In]. destruct (str_eqb (twp_tag d) (lit "1")) eqn:E1.
    { apply str_eqb_spec in E1. split; [|intros H; exfalso; apply H; auto]. destruct (tag_ints vs 3); discriminate. }
    destruct (str_eqb (twp_tag d) (lit "8")) eqn:E2.
    { apply str_eqb_spec in E2. split; [|intros H; exfalso; apply H; auto]. destruct (tag_ints vs 2); discriminate. }
    destruct (str_eqb (twp_tag d) (lit "12")) eqn:E3.
    { apply str_eqb_spec in E3. split; [|intros H; exfalso; apply H; auto]. destruct (tag_ints vs 3); discriminate. }
    destruct (str_eqb (twp_tag d) (lit "13")) eqn:E4.
    { apply str_eqb_spec in E4. split; [|intros H; exfalso; apply H; auto 6]. destruct (tag_ints vs 1); discriminate. }
    apply str_eqb_neq in E1, E2, E3, E4. split; [intros _|reflexivity]. intros [H|[H|[H|[H|[]]]]]; congruence. }
  rewrite X. split.
  - intros H. exists (twp_tag d), (twp_parameters d). split; [exact E|]. split; [exact N1|]. split; [exact N2|].
    intros e n L. apply H. destruct L; cbn; tauto.
  - intros (dim & ps & Ed & Nd & Np & H). rewrite E in Ed. apply with_params_unique in Ed as [-> _]; auto.
    intros [Y|[Y|[Y|[Y|[]]]]]; rewrite <- Y in H; eapply H; constructor.
Qed.

Lemma energy_none w whr d vs : energy_call (MDimRes w whr d vs) = Ok None <->
  In d (map lit ["1200"; "251"; "252"; "253"; "254"; "255"; "256"; "257"; "258"; "259"; "260"; "261"; "262"; "263"]%string).
Proof.
  cbn [energy_call]. split.
  - destruct (de_of d) as [g|] eqn:G; [|discriminate]. cbn [bind]. apply de_of_spec in G. subst d.
    destruct g; unfold report_args; rewrite ?dim_param_none; cbn [bind]; try discriminate.
    all: try match goal with |- (do _ <- ?x; _) = _ -> _ => destruct x; discriminate end.
    all: intros _; cbn; tauto.
  - intros H. cbn [map In] in H.
    repeat (destruct H as [<-|H]; [vm_compute; reflexivity|]). destruct H.
Qed.

Lemma unheard_iff m c : msg_who m = Some (class_who c) -> (class_call c m = Ok None <-> unheard m).
Proof.
  intros W. destruct c; cbn [class_call class_who] in *.
  - split; [|intros U; destruct U; discriminate W]. destruct m; try discriminate. cbn [auto_call]. destruct (enum_of _ _); discriminate.
  - split; [|intros U; destruct U; discriminate W]. destruct m; try discriminate. cbn [cam_call]. destruct (enum_of _ _); discriminate.
  - split.
    + destruct m; try discriminate. cbn in W. injection W as ->. intros H. apply energy_none in H. constructor. exact H.
    + intros U. destruct U; [discriminate W|]. apply energy_none. assumption.
  - split; [|intros U; destruct U; discriminate W]. destruct m; try discriminate; cbn [gateway_call].
    all: destruct (wg_of dim); [|discriminate]; cbn [bind]; match goal with |- (do _ <- ?x; _) = _ -> _ => destruct x; discriminate end.
  - split.
    + destruct m; try discriminate. cbn in W. injection W as ->. intros H. apply light_none in H as (dim' & ps & -> & A & B & C). constructor; assumption.
    + intros U. destruct U as [whr dim ps vs A B C|]; [|discriminate W]. apply light_none. exists dim, ps. auto.
Qed.

Lemma wrong_kind m c : msg_who m = Some (class_who c) -> c <> C_Camera -> (class_call c m = Err InvalidMessage <-> ~ right_kind m).
Proof.
  intros W Hc. destruct c; try congruence; destruct m; cbn in W; try discriminate; injection W as ->; cbn [class_call right_kind].
  all: try (split; [intros _; intuition discriminate|reflexivity]).
  all: (split; [intros X; exfalso|intros X; exfalso; apply X; tauto]).
  - exact (proj1 (calm_auto _ _ _ _ X) eq_refl).
  - exact (proj1 (calm_energy _ _ _ _ _ X) eq_refl).
  - exact (proj1 (calm_gateway AUTOMATION whr _ _ _ X) eq_refl).
  - exact (proj1 (calm_gateway _ _ _ _ _ X) eq_refl).
  - discriminate X.
  - exact (proj1 (calm_light _ _ _ _ _ X) eq_refl).
Qed.

Lemma no_tag m c : msg_who m = Some (class_who c) -> class_call c m <> Err InvalidTag.
Proof.
  intros W X. destruct c; destruct m; cbn in W; try discriminate; injection W as ->; cbn [class_call] in X; try discriminate X.
  - exact (proj2 (calm_auto _ _ _ _ X) eq_refl).
  - exact (proj2 (calm_cam _ _ _ _ X) eq_refl).
  - exact (proj2 (calm_energy _ _ _ _ _ X) eq_refl).
  - exact (proj2 (calm_gateway AUTOMATION whr _ _ _ X) eq_refl).
  - exact (proj2 (calm_gateway _ _ _ _ _ X) eq_refl).
  - exact (proj2 (calm_light _ _ _ _ _ X) eq_refl).
Qed.

(** What is written about an event whose item was found. *)
Lemma dispatch_account why v r it m c : v < 13 -> built m -> msg_who m = Some (class_who c) -> c <> C_Camera ->
  account why r m (snd (dispatch_l why v r subclasses it m)).
Proof.
  intros Hv B W Hc. rewrite (dispatch_class_l why r it m _ c W eq_refl v Hv).
  pose proof (call_log_remarks c m W) as R. pose proof (unheard_iff m c W) as U. pose proof (wrong_kind m c W Hc) as K.
  pose proof (no_tag m c W) as T. pose proof (fun k args => reports_iff c m k args B W Hc) as Rep.
  unfold call_callbacks_x, class_call_x.
  destruct (class_call c m) as [[[k args]|]|e] eqn:E; cbn [plain].
  - assert (Hr : reports m k args) by (apply Rep; reflexivity).
    pose proof (create_refused (r k) (VItem it :: args)) as C. destruct (create_tasks (r k) (VItem it :: args)) as [ts x]. cbn [snd] in *.
    destruct C as [[-> C]|[-> (f & Hf & C)]]; cbn [plain].
    + rewrite app_nil_r. eapply A_called; [exact Hr| |exact R]. intros (f & Hf & Y). apply C in Hf. cbn [length] in Hf. congruence.
    + eapply A_refused; [exact Hr| |exact R]. exists f. auto.
  - assert (Un : unheard m) by (apply U; reflexivity). cbn [snd]. rewrite app_nil_r.
    replace (call_log c m) with (@nil record); [apply A_unheard; exact Un|]. destruct Un; destruct c; try discriminate W; reflexivity.
  - assert (NR : forall k args, ~ reports m k args) by (intros k args H; apply Rep in H; discriminate).
    assert (NU : ~ unheard m) by (intros H; apply U in H; discriminate).
    assert (L : call_log c m = []).
    { destruct R as [v0 Un|]; [|reflexivity]. exfalso. destruct Un; eapply NR; [eapply Rep_gateway with (w := DEVICE_TYPE)|eapply Rep_gateway_set with (w := DEVICE_TYPE)]; apply GV_model; reflexivity. }
    rewrite L. cbn [app].
    assert (D : {e = InvalidMessage} + {e <> InvalidMessage}) by (destruct e; (left; reflexivity) || (right; discriminate)).
    destruct D as [->|D].
    + cbn [snd failure_record invalid_message r_class r_what].
      replace (callback_text c m) with (objection (class_who c) m) by (destruct c; try congruence; reflexivity).
      apply A_kind; [exact W| |apply K; reflexivity]. destruct c; try congruence; unfold with_items; cbn; tauto.
    + assert (RK : right_kind m).
      { destruct m; cbn in W; try discriminate W; injection W as ->; destruct c; try congruence; cbn in *; try tauto; exfalso; apply D; inversion E; reflexivity. }
      destruct e; try congruence; cbn [snd plain failure_record r_class r_what]; apply A_values; assumption.
Qed.

Theorem handle_account why v r its m : v < 13 -> built m -> sound its ->
  (~ stray m -> account why r m (snd (handle_l why v r its m))) /\ (stray m -> snd (handle_l why v r its m) = []).
Proof.
  intros Hv B S.
  assert (K : (exists l, snd (handle_l why v r its m) = l /\ ~ stray m /\ account why r m l) \/
              (exists w whr, msg_who m = Some w /\ msg_where m = Some whr /\ tagtext whr /\
                 snd (handle_l why v r its m) = match get_item its w whr with
                   | (its', Ok n) => snd (dispatch_l why v r subclasses n m)
                   | (its', Err KeyError) => [Rec L_client INFO (lit "Item type not supported, WHO=" ++ who_str w ++ lit ", WHERE=" ++ whr)]
                   | (its', Err _) => [] end)).
  { pose proof (proj1 B) as B1. destruct m; cbn [free_tags] in B1.
    1,2,8: left; eexists; (split; [reflexivity|]); (split; [intros [X _]; discriminate X|]).
    - apply A_answer. auto.
    - apply A_answer. auto.
    - apply A_generic.
    - right; do 2 eexists; split; [reflexivity|]; split; [reflexivity|]; split; [inversion B1; subst; inversion H2; assumption|].
      unfold handle_l. cbn [msg_type msg_who msg_where]. destruct (get_item its w whr) as [its' [n|[]]]; try reflexivity. destruct (dispatch_l _ _ _ _ _ _); reflexivity.
    - right; do 2 eexists; split; [reflexivity|]; split; [reflexivity|]; split; [inversion B1; assumption|].
      unfold handle_l. cbn [msg_type msg_who msg_where]. destruct (get_item its w whr) as [its' [n|[]]]; try reflexivity. destruct (dispatch_l _ _ _ _ _ _); reflexivity.
    - right; do 2 eexists; split; [reflexivity|]; split; [reflexivity|]; split; [inversion B1; assumption|].
      unfold handle_l. cbn [msg_type msg_who msg_where]. destruct (get_item its w whr) as [its' [n|[]]]; try reflexivity. destruct (dispatch_l _ _ _ _ _ _); reflexivity.
    - right; do 2 eexists; split; [reflexivity|]; split; [reflexivity|]; split; [inversion B1; assumption|].
      unfold handle_l. cbn [msg_type msg_who msg_where]. destruct (get_item its w whr) as [its' [n|[]]]; try reflexivity. destruct (dispatch_l _ _ _ _ _ _); reflexivity.
    - right; do 2 eexists; split; [reflexivity|]; split; [reflexivity|]; split; [inversion B1; assumption|].
      unfold handle_l. cbn [msg_type msg_who msg_where]. destruct (get_item its w whr) as [its' [n|[]]]; try reflexivity. destruct (dispatch_l _ _ _ _ _ _); reflexivity. }
  destruct K as [(l & -> & NS & A)|(w & whr & Wm & Wh & T & ->)]; [split; [intros _; exact A|contradiction]|].
  destruct (get_item its w whr) as [its1 [n|e]] eqn:G.
  - pose proof (get_item_sound _ _ _ _ _ T S G) as S'. destruct S as [N1 U].
    destruct (get_item_spec _ _ _ _ _ N1 G) as (_ & P & Hn).
    assert (Us : usable (w, whr)). { destruct S' as [_ U']. rewrite Forall_forall in U'. apply U'. eapply nth_error_In, Hn. }
    destruct (supported_class w (proj1 Us)) as (c & Ec & Hc). split.
    + intros _. apply dispatch_account with (c := c); [exact Hv|exact B|congruence|exact Hc].
    + intros (X & whr' & Y & Z). rewrite X in Wm. injection Wm as <-. rewrite Y in Wh. injection Wh as ->.
      destruct (proj2 Us eq_refl) as (t & Ht). exfalso. exact (Z t Ht).
  - destruct S as [N1 U].
    assert (G' : snd (get_item its w whr) = Err e) by (rewrite G; reflexivity).
    apply (get_item_error its w whr e ltac:(constructor; [exact T|constructor]) N1) in G' as (Nin & Cases).
    destruct Cases as [[-> Hs]|(-> & Hcl & Cases)].
    + split.
      * intros _. apply A_no_items; assumption.
      * intros (X & _). rewrite X in Wm. injection Wm as <-. exfalso. apply Hs. unfold supported. cbn. tauto.
    + assert (stray m) as St by (split; [exact Wm|exists whr; auto]). split; [contradiction|]. intros _.
      destruct Cases as [[-> _]|[-> _]]; reflexivity.
Qed.

(** ** Histories *)

Lemma drain_log why v r t q its ts l : exists l', snd (drain_l why v r t q its ts l) = l ++ l'.
Proof.
  revert its ts l. induction q as [|m q IH]; intros its ts l; cbn [drain_l]; [exists []; symmetry; apply app_nil_r|].
  destruct (handle_l why v r its m) as [[[its' ts'] [e|]] l1]; cbn [snd]; [eauto|]. destruct t as [[]|]; cbn [snd]; eauto.
  destruct (IH its' (ts ++ ts') (l ++ l1)) as [l2 E]. rewrite E, <- app_assoc. eauto.
Qed.

Lemma drain_accounts why v r q : v < 13 -> forall its ts l, Forall built q -> sound its -> Forall (fun m => ~ stray m) q ->
  exists ls, snd (drain_l why v r (Some false) q its ts l) = l ++ concat ls /\ Forall2 (account why r) q ls.
Proof.
  intros Hv. induction q as [|m q IH]; intros its ts l B S NS; cbn [drain_l].
  - exists []. cbn [concat snd]. rewrite app_nil_r. split; [reflexivity|constructor].
  - inversion B as [|? ? Bm Bq]; subst. inversion NS as [|? ? Nm Nq]; subst.
    pose proof (handle_same why v r its m) as H. pose proof (proj1 (handle_account why v r its m Hv Bm S) Nm) as A.
    destruct (handle_l why v r its m) as [[[its1 ts1] x] l1]. cbn [fst snd] in *. symmetry in H.
    destruct (handle_spec v r its m its1 ts1 x Hv Bm S H) as (S1 & _ & [(-> & _ & _)|(St & _)]); [|contradiction].
    destruct (IH its1 (ts ++ ts1) (l ++ l1) Bq S1 Nq) as (ls & E & F). exists (l1 :: ls). rewrite E. cbn [concat]. rewrite <- app_assoc.
    split; [reflexivity|constructor; assumption].
Qed.

Lemma run_l_snoc why v s acts a : run_l why v s (acts ++ [a]) = step_l why v (run_l why v s acts) a.
Proof. unfold run_l. apply fold_left_app. Qed.

Theorem observed_log why v r acts evs q : v < 13 -> observed r acts evs q -> Forall (fun ev => ~ stray (snd ev)) evs ->
  exists ls, l_log (run_l why v (enter_l why v (Dispatch.connected r)) acts) = concat ls /\
    Forall2 (fun ev l => account why (fst ev) (snd ev) l) evs ls.
Proof.
  intros Hv O. induction O as [|acts evs q data ms O IH P|acts evs q k c O IH|acts evs q w whr O IH T|acts evs q O IH]; intros NS.
  - exists []. split; [reflexivity|constructor].
  - rewrite run_l_snoc. exact (IH NS).
  - rewrite run_l_snoc. exact (IH NS).
  - rewrite run_l_snoc. exact (IH NS).
  - apply Forall_app in NS as [NS1 NS2]. destruct (IH NS1) as (ls & E & F).
    destruct (observed_run v r acts evs q Hv O NS1) as (B & its & tss & ER & S & _).
    assert (NQ : Forall (fun m => ~ stray m) q).
    { clear - NS2. induction q; cbn in NS2; constructor; inversion NS2; auto. }
    rewrite run_l_snoc. pose proof (run_same why v (Dispatch.connected r) acts) as RS. rewrite ER in RS.
    destruct (run_l why v (enter_l why v (Dispatch.connected r)) acts) as [st lg]. cbn [l_state l_log] in *. subst st lg.
    unfold step_l. cbn [l_state open_state st_loop st_queue]. destruct q as [|m q].
    + exists ls. cbn [map]. rewrite app_nil_r. auto.
    + destruct (drain_accounts why v (registered r acts) (m :: q) Hv its (concat tss) (concat ls) B S NQ) as (ls' & D & F').
      exists (ls ++ ls'). split.
      * unfold drained_l, open_state. cbv zeta. cbn [l_state l_log st_reg st_trans st_queue st_items st_started].
        destruct (drain_l why v (registered r acts) (Some false) (m :: q) its (concat tss) (concat ls)) as [[[[q' its'] ts'] lp] l'].
        cbn [snd l_log] in *. rewrite D, concat_app. reflexivity.
      * apply Forall2_app; [exact F|]. remember (m :: q) as ms. clear - F'. induction F'; cbn [map]; constructor; assumption.
Qed.

(** ** The account of an event is unique *)

Lemma remarks_unique m l l' : remarks m l -> remarks m l' -> l = l'.
Proof.
  intros [v U|N1] [v' U'|N2]; try reflexivity.
  - assert (v' = v) as -> by (destruct U; inversion U'; reflexivity). reflexivity.
  - exfalso. exact (N2 v U).
  - exfalso. exact (N1 v' U').
Qed.

Lemma reports_kind m k args : reports m k args -> right_kind m.
Proof. intros []; cbn; tauto. Qed.

Lemma reports_heard m k args : built m -> reports m k args -> ~ unheard m.
Proof.
  intros B R U. destruct (reports_supported m k args R) as (w & W & S). destruct (supported_class w S) as (c & <- & Hc).
  apply (reports_iff c m k args B W Hc) in R. apply (unheard_iff m c W) in U. congruence.
Qed.

Lemma unheard_kind m : unheard m -> right_kind m.
Proof. intros []; cbn; tauto. Qed.

Lemma unheard_items m : unheard m -> exists w, msg_who m = Some w /\ with_items w.
Proof. intros []; eexists; (split; [reflexivity|]); unfold with_items; cbn; tauto. Qed.

Lemma kind_items m : right_kind m -> exists w, msg_who m = Some w /\ with_items w.
Proof. destruct m; cbn; intros H; try contradiction; eexists; (split; [reflexivity|]); unfold with_items; cbn; intuition. Qed.

Theorem account_unique why r m l l' : built m -> account why r m l -> account why r m l' -> l = l'.
Proof.
  intros B H H'.
  assert (RK : forall k args, reports m k args -> right_kind m) by (intros; eapply reports_kind; eassumption).
  assert (RH : forall k args, reports m k args -> ~ unheard m) by (intros; eapply reports_heard; eassumption).
  pose proof (kind_items m) as KI. pose proof (unheard_kind m) as UK. pose proof (reports_unique m) as RU. pose proof (remarks_unique m) as MU.
  destruct H as [m E|tags|m w whr W Wh NI|m k args l R NR M|m U|m w W I K|m k args l R NR M|m K NU NV].
  - destruct E as [-> | ->]; inversion H'; subst; try reflexivity; try discriminate;
      match goal with R : reports _ _ _ |- _ => inversion R | U : unheard _ |- _ => inversion U | K : right_kind _ |- _ => destruct K end.
  - inversion H'; subst; try reflexivity; try discriminate;
      match goal with E : _ \/ _ |- _ => destruct E; discriminate | R : reports _ _ _ |- _ => inversion R | U : unheard _ |- _ => inversion U | K : right_kind _ |- _ => destruct K end.
  - assert (NK : ~ right_kind m) by (intros X; apply KI in X as (w' & X & Y); rewrite X in W; injection W as ->; contradiction).
    destruct H' as [m E|tags|m w' whr' W' Wh' NI'|m k args l R NR M|m U|m w' W' I K|m k args l R NR M|m K NU NV];
      try (exfalso; eauto; fail); try discriminate W.
    + destruct E as [-> | ->]; discriminate W.
    + rewrite W in W'. rewrite Wh in Wh'. injection W' as ->. injection Wh' as ->. reflexivity.
    + rewrite W in W'. injection W' as ->. contradiction.
  - destruct H' as [m E|tags|m w' whr' W' Wh' NI'|m k' args' l' R' NR' M'|m U|m w' W' I K|m k' args' l' R' NR' M'|m K NU NV].
    + destruct E as [-> | ->]; inversion R.
    + inversion R.
    + destruct (KI (RK _ _ R)) as (w & X & Y). rewrite X in W'. injection W' as ->. contradiction.
    + eauto.
    + exfalso. exact (RH _ _ R U).
    + exfalso. exact (K (RK _ _ R)).
    + exfalso. destruct (RU _ _ _ _ B R R') as [-> ->]. contradiction.
    + exfalso. exact (NV _ _ R).
  - destruct H' as [m E|tags|m w' whr' W' Wh' NI'|m k' args' l' R' NR' M'|m U'|m w' W' I K|m k' args' l' R' NR' M'|m K NU NV].
    + reflexivity.
    + inversion U.
    + destruct (KI (UK U)) as (w & X & Y). rewrite X in W'. injection W' as ->. contradiction.
    + exfalso. exact (RH _ _ R' U).
    + reflexivity.
    + exfalso. exact (K (UK U)).
    + exfalso. exact (RH _ _ R' U).
    + contradiction.
  - destruct H' as [m E|tags|m w' whr' W' Wh' NI'|m k' args' l' R' NR' M'|m U'|m w' W' I' K'|m k' args' l' R' NR' M'|m K' NU NV].
    + destruct E as [-> | ->]; discriminate W.
    + discriminate W.
    + rewrite W in W'. injection W' as ->. contradiction.
    + exfalso. exact (K (RK _ _ R')).
    + exfalso. exact (K (UK U')).
    + rewrite W in W'. injection W' as ->. reflexivity.
    + exfalso. exact (K (RK _ _ R')).
    + contradiction.
  - destruct H' as [m E|tags|m w' whr' W' Wh' NI'|m k' args' l' R' NR' M'|m U|m w' W' I K|m k' args' l' R' NR' M'|m K NU NV].
    + destruct E as [-> | ->]; inversion R.
    + inversion R.
    + destruct (KI (RK _ _ R)) as (w & X & Y). rewrite X in W'. injection W' as ->. contradiction.
    + exfalso. destruct (RU _ _ _ _ B R R') as [-> ->]. contradiction.
    + exfalso. exact (RH _ _ R U).
    + exfalso. exact (K (RK _ _ R)).
    + rewrite (MU _ _ M M'). reflexivity.
    + exfalso. exact (NV _ _ R).
  - destruct H' as [m E|tags|m w' whr' W' Wh' NI'|m k' args' l' R' NR' M'|m U|m w' W' I K'|m k' args' l' R' NR' M'|m K' NU' NV'].
    + destruct E as [-> | ->]; destruct K.
    + destruct K.
    + destruct (KI K) as (w & X & Y). rewrite X in W'. injection W' as ->. contradiction.
    + exfalso. exact (NV _ _ R').
    + contradiction.
    + contradiction.
    + exfalso. exact (NV _ _ R').
    + reflexivity.
Qed.

(** ** Silence *)

Theorem silent_events why r m : built m -> (account why r m [] <->
  m = MAck \/ m = MNack \/ unheard m \/
  exists k args, reports m k args /\ ~ refused r k args /\ forall v, ~ unknown_model m v).
Proof.
  intros B. split.
  - intros H. inversion H as [m' E|tags|m' w whr W Wh NI|m' k args l R NR M|m' U|m' w W I K|m' k args l R NR M E|m' K NU NV]; subst.
    + tauto.
    + right. right. right. exists k, args. split; [exact R|]. split; [exact NR|]. inversion M; subst. assumption.
    + tauto.
    + destruct l; discriminate.
  - intros [H|[H|[H|(k & args & R & NR & U)]]]; [apply A_answer; tauto..|apply A_unheard; exact H|].
    eapply A_called; [exact R|exact NR|apply Rem_none; exact U].
Qed.

(** ** The item is there *)

Lemma drain_found v r q : v < 13 -> forall its ts, Forall built q -> sound its -> Forall (fun m => ~ stray m) q ->
  forall m w whr, In m q -> msg_who m = Some w -> msg_where m = Some whr -> with_items w ->
  In (w, whr) (snd (fst (fst (drain v r (Some false) q its ts)))).
Proof.
  intros Hv. induction q as [|m0 q IH]; intros its ts B S NS m w whr I W Wh HI; [destruct I|]. cbn [drain].
  inversion B as [|? ? Bm Bq]; subst. inversion NS as [|? ? Nm Nq]; subst.
  destruct (handle v r its m0) as [[its1 ts1] x] eqn:H.
  destruct (handle_spec v r its m0 its1 ts1 x Hv Bm S H) as (S1 & _ & [(-> & _ & M)|(St & _)]); [|contradiction].
  destruct I as [->|I]; [|apply (IH _ _ Bq S1 Nq m); assumption].
  assert (In (w, whr) its1) as I1.
  { unfold handle in H. rewrite W, Wh in H. destruct (msg_type m) eqn:T; try (destruct m; cbn in W, T; discriminate).
    all: destruct (get_item its w whr) as [its2 [n|e]] eqn:G.
    all: try (injection H as <- _; destruct S as [N1 _]; destruct (get_item_spec _ _ _ _ _ N1 G) as (_ & _ & Hn); eapply nth_error_In, Hn).
    all: exfalso; assert (G' : snd (get_item its w whr) = Err e) by (rewrite G; reflexivity).
    all: assert (T1 : tagtext whr) by (destruct Bm as [Bm _]; destruct m; cbn in Wh, Bm; try discriminate; injection Wh as <-;
           repeat match goal with H : Forall _ (_ :: _) |- _ => inversion H; subst; clear H end; assumption).
    all: apply (get_item_error its w whr e ltac:(constructor; [exact T1|constructor]) (proj1 S)) in G' as (_ & [[-> Hs]|(_ & _ & [[-> _]|[-> _]])]);
         [exact (Hs HI)|discriminate H|discriminate H]. }
  destruct (drain_all v r q Hv its1 (ts ++ ts1) Bq S1 Nq) as (l & tss & E & _). rewrite E. cbn [fst snd]. apply in_or_app. left. exact I1.
Qed.

Theorem observed_found v r acts evs q : v < 13 -> observed r acts evs q -> Forall (fun ev => ~ stray (snd ev)) evs ->
  forall ev w whr, In ev evs -> msg_who (snd ev) = Some w -> msg_where (snd ev) = Some whr -> with_items w ->
  In (w, whr) (st_items (run v (enter v (Dispatch.connected r)) acts)).
Proof.
  intros Hv O. induction O as [|acts evs q data ms O IH P|acts evs q k c O IH|acts evs q w0 whr0 O IH T|acts evs q O IH]; intros NS ev w whr I W Wh HI.
  - destruct I.
  - destruct (observed_run v r _ _ _ Hv O NS) as (_ & its & tss & E & _ & _). specialize (IH NS ev w whr I W Wh HI). rewrite E in IH.
    rewrite run_snoc, E. cbn [step open_state st_trans st_queue] in *. destruct (data_received q data) as [? []]; exact IH.
  - rewrite run_snoc. cbn [step st_items]. eauto.
  - rewrite run_snoc. cbn [step st_items]. destruct (observed_run v r _ _ _ Hv O NS) as (_ & its & tss & E & S & _). specialize (IH NS ev w whr I W Wh HI).
    rewrite E in *. cbn [open_state st_items] in *. destruct (get_item its w0 whr0) as [its' x] eqn:G.
    destruct (get_item_spec _ _ _ _ _ (proj1 S) G) as (_ & (l & ->) & _). cbn [fst]. apply in_or_app. left. exact IH.
  - apply Forall_app in NS as [NS1 NS2]. destruct (observed_run v r _ _ _ Hv O NS1) as (B & its & tss & E & S & _).
    assert (NQ : Forall (fun m => ~ stray m) q).
    { clear - NS2. induction q; cbn in NS2; constructor; inversion NS2; auto. }
    rewrite run_snoc, E. pose proof (drain_all v (registered r acts) q Hv its (concat tss) B S NQ) as (l & tss' & D & _).
    assert (X : st_items (step v (open_state r acts q its (concat tss)) Wake) = its ++ l).
    { unfold step, open_state. cbn [st_loop st_queue]. destruct q as [|m q].
      - cbn [drain] in D. injection D as D _. exact D.
      - unfold drained. cbn [st_reg st_trans st_queue st_items st_started]. rewrite D. reflexivity. }
    rewrite X. apply in_app_or in I as [I|I].
    + specialize (IH NS1 ev w whr I W Wh HI). rewrite E in IH. apply in_or_app. left. exact IH.
    + apply in_map_iff in I as (m & <- & I). pose proof (drain_found v (registered r acts) q Hv its (concat tss) B S NQ m w whr I W Wh HI) as Y.
      rewrite D in Y. exact Y.
Qed.

(** ** An event that ends the loop *)

Lemma drain_stray_log why v r pre m post : v < 13 -> forall its ts l, Forall built (pre ++ m :: post) -> sound its ->
  Forall (fun m => ~ stray m) pre -> stray m ->
  exists ls, snd (drain_l why v r (Some false) (pre ++ m :: post) its ts l) = l ++ concat ls /\ Forall2 (account why r) pre ls.
Proof.
  intros Hv. induction pre as [|m' pre IH]; intros its ts l B S NS St; cbn [app drain_l].
  - inversion B as [|? ? Bm Bq]; subst. pose proof (handle_same why v r its m) as H. pose proof (proj2 (handle_account why v r its m Hv Bm S) St) as A.
    destruct (handle_l why v r its m) as [[[its1 ts1] x] l1]. cbn [fst snd] in *. symmetry in H. subst l1.
    destruct (handle_spec v r its m its1 ts1 x Hv Bm S H) as (_ & _ & [(-> & N1 & _)|(_ & -> & -> & whr & _ & C)]); [contradiction|].
    exists []. destruct C as [[-> _]|[-> _]]; split; try reflexivity; constructor.
  - inversion B as [|? ? Bm Bq]; subst. inversion NS as [|? ? Nm Nq]; subst.
    pose proof (handle_same why v r its m') as H. pose proof (proj1 (handle_account why v r its m' Hv Bm S) Nm) as A.
    destruct (handle_l why v r its m') as [[[its1 ts1] x] l1]. cbn [fst snd] in *. symmetry in H.
    destruct (handle_spec v r its m' its1 ts1 x Hv Bm S H) as (S1 & _ & [(-> & _ & _)|(St' & _)]); [|contradiction].
    destruct (IH its1 (ts ++ ts1) (l ++ l1) Bq S1 Nq St) as (ls & E & F). exists (l1 :: ls). rewrite E. cbn [concat]. rewrite <- app_assoc.
    split; [reflexivity|constructor; assumption].
Qed.

Lemma ended_log why v s acts : st_loop (l_state s) <> Waiting -> l_log (run_l why v s acts) = l_log s.
Proof.
  revert s. induction acts as [|a acts IH]; intros s H; [reflexivity|]. unfold run_l in *. cbn [fold_left].
  destruct (ended_step v (l_state s) a H) as [E1 _]. rewrite IH.
  - unfold step_l. destruct a; try reflexivity. destruct (st_loop (l_state s)); try reflexivity. congruence.
  - rewrite step_same. congruence.
Qed.

Theorem stray_log why v r acts evs pre m post : v < 13 ->
  observed r acts evs (pre ++ m :: post) -> Forall (fun ev => ~ stray (snd ev)) evs -> Forall (fun m => ~ stray m) pre -> stray m ->
  exists ls1 ls2, Forall2 (fun ev l => account why (fst ev) (snd ev) l) evs ls1 /\
    Forall2 (account why (registered r acts)) pre ls2 /\
    forall more, l_log (run_l why v (enter_l why v (Dispatch.connected r)) (acts ++ Wake :: more)) = concat (ls1 ++ ls2).
Proof.
  intros Hv O NS1 NS2 St. destruct (observed_log why v r acts evs _ Hv O NS1) as (ls1 & E & F1).
  destruct (observed_run v r acts evs _ Hv O NS1) as (B & its & tss & ER & S & _).
  destruct (drain_stray_log why v (registered r acts) pre m post Hv its (concat tss) (concat ls1) B S NS2 St) as (ls2 & D & F2).
  exists ls1, ls2. split; [exact F1|]. split; [exact F2|]. intros more.
  replace (acts ++ Wake :: more) with ((acts ++ [Wake]) ++ more) by (rewrite <- app_assoc; reflexivity).
  assert (RA : forall s a b, run_l why v s (a ++ b) = run_l why v (run_l why v s a) b) by (intros; unfold run_l; apply fold_left_app).
  rewrite RA, ended_log.
  - rewrite run_l_snoc. pose proof (run_same why v (Dispatch.connected r) acts) as RS. rewrite ER in RS.
    destruct (run_l why v (enter_l why v (Dispatch.connected r)) acts) as [st lg]. cbn [l_state l_log] in *. subst st lg.
    unfold step_l. cbn [l_state open_state st_loop st_queue].
    assert (X : l_log (drained_l why v {| l_state := open_state r acts (pre ++ m :: post) its (concat tss); l_log := concat ls1 |}) = concat (ls1 ++ ls2)).
    { unfold drained_l, open_state. cbv zeta. cbn [l_state l_log st_reg st_trans st_queue st_items st_started].
      destruct (drain_l why v (registered r acts) (Some false) (pre ++ m :: post) its (concat tss) (concat ls1)) as [[[[q' its'] ts'] lp] l'].
      cbn [snd l_log] in *. rewrite D, concat_app. reflexivity. }
    destruct pre; exact X.
  - rewrite run_same. destruct (stray_event v r acts evs pre m post Hv O NS1 NS2 St) as (e & tss1 & tss2 & its2 & _ & _ & _ & SE).
    destruct (SE []) as [E1 _]. rewrite E1. discriminate.
Qed.

(** ** Python 3.13 *)

Lemma dispatch_l_new why v r cs it m : 13 <= v -> dispatch_l why v r cs it m = ([], [not_found m]).
Proof.
  intros Hv. induction cs as [|c cs IH]; [reflexivity|]. cbn [dispatch_l]. unfold item_who. rewrite (proj2 (N.ltb_ge v 13) Hv). exact IH.
Qed.

Theorem handle_new_log why v r its m w whr its' n : 13 <= v -> msg_who m = Some w -> msg_where m = Some whr ->
  get_item its w whr = (its', Ok n) -> handle_l why v r its m = (its', [], None, [not_found m]).
Proof.
  intros Hv W Wh G. unfold handle_l. rewrite W, Wh, G, (dispatch_l_new why v r subclasses n m Hv).
  destruct m; cbn in *; try discriminate; reflexivity.
Qed.

(** ** All records *)

Lemma call_log_records c m : msg_who m = Some (class_who c) -> Forall loop_record (call_log c m).
Proof.
  intros W. pose proof (call_log_remarks c m W) as R. destruct R as [v U|]; [|constructor].
  repeat constructor. destruct U; assumption.
Qed.

Lemma dispatch_records why v r cs it m w : msg_who m = Some w -> Forall loop_record (snd (dispatch_l why v r cs it m)).
Proof.
  intros W. induction cs as [|c cs IH]; cbn [dispatch_l]; [repeat econstructor; exact W|].
  destruct (item_who v c) as [w'|] eqn:I; [|exact IH]. rewrite W. destruct (who_eqb w w') eqn:E; [|exact IH].
  assert (W' : msg_who m = Some (class_who c)).
  { unfold item_who in I. destruct (v <? 13); [|discriminate]. injection I as <-. apply str_eqb_spec, who_str_inj in E. congruence. }
  pose proof (call_log_records c m W') as L. pose proof (no_tag m c W') as T.
  unfold call_callbacks_x, class_call_x. destruct (class_call c m) as [[[k args]|]|e] eqn:C; cbn [plain].
  - pose proof (create_refused (r k) (VItem it :: args)) as CR. destruct (create_tasks (r k) (VItem it :: args)) as [ts x]. cbn [snd] in CR.
    destruct CR as [[-> _]|[-> _]]; cbn [plain]; [exact L|]. destruct (dispatch_l why v r cs it m) as [ts' l]. cbn [snd] in *.
    apply Forall_app. split; [exact L|]. constructor; [apply LR_error|exact IH].
  - exact L.
  - assert (X : forall x, (forall t, r_class x = InvalidTag -> r_what x <> Some t) ->
               (r_class x = InvalidMessage -> r_what x = Some (callback_text c m) \/ r_what x = None) -> loop_record (failure_record x (why r m))).
    { intros [k t] NT NM. unfold failure_record. cbn [r_class r_what] in *. destruct k; try apply LR_error.
      - destruct t as [t|]; [|apply LR_error]. destruct (NM eq_refl) as [[= ->]|?]; [|discriminate].
        replace (callback_text c m) with (objection (class_who c) m) by (destruct c; reflexivity). apply LR_kind. exact W'.
      - destruct t as [t|]; [exfalso; exact (NT t eq_refl eq_refl)|apply LR_error]. }
    destruct (dispatch_l why v r cs it m) as [ts' l]. cbn [snd] in *.
    destruct e; try congruence; cbn [plain invalid_message snd]; apply Forall_app; (split; [exact L|]); (constructor; [|exact IH]); apply X; cbn [r_class r_what]; intros; try discriminate; auto.
Qed.

Lemma get_item_key its w whr its' : get_item its w whr = (its', Err KeyError) -> ~ with_items w.
Proof.
  unfold get_item. destruct (position (w, whr) its); [discriminate|]. destruct (item_types w) as [f|] eqn:F; [|intros _; apply item_types_none, F].
  intros G. exfalso. destruct f; cbn [construct] in G; try discriminate. pose proof (calm_type whr) as C. destruct (get_type whr) as [t|e]; cbn [bind] in G; [discriminate|].
  injection G as _ ->. exact (C eq_refl).
Qed.

Lemma handle_records why v r its m : Forall loop_record (snd (handle_l why v r its m)).
Proof.
  assert (X : forall w whr, msg_who m = Some w -> msg_where m = Some whr -> Forall loop_record (snd (handle_l why v r its m))).
  { intros w whr W Wh. unfold handle_l. rewrite W, Wh. pose proof (fun n => dispatch_records why v r subclasses n m w W) as D.
    pose proof (get_item_key its w whr) as K. destruct (get_item its w whr) as [its' [n|e]].
    - specialize (D n). destruct (dispatch_l why v r subclasses n m) as [ts l]. destruct m; cbn in W |- *; try discriminate W; exact D.
    - destruct m; cbn in W |- *; try discriminate W; destruct e; cbn [snd]; repeat constructor; eapply K; reflexivity. }
  destruct m; try (eapply X; reflexivity); cbn; repeat constructor; apply (LR_generic tags).
Qed.

Lemma drain_records why v r t q : forall its ts l, Forall loop_record l -> Forall loop_record (snd (drain_l why v r t q its ts l)).
Proof.
  induction q as [|m q IH]; intros its ts l H; cbn [drain_l]; [exact H|].
  pose proof (handle_records why v r its m) as K. destruct (handle_l why v r its m) as [[[its' ts'] [e|]] l1]; cbn [snd] in *.
  - apply Forall_app; auto.
  - destruct t as [[]|]; cbn [snd]; try (apply Forall_app; auto; fail). apply IH. apply Forall_app; auto.
Qed.

Lemma drained_records why v s : Forall loop_record (l_log s) -> Forall loop_record (l_log (drained_l why v s)).
Proof.
  intros H. unfold drained_l. cbv zeta. pose proof (drain_records why v (st_reg (l_state s)) (st_trans (l_state s)) (st_queue (l_state s)) (st_items (l_state s)) (st_started (l_state s)) (l_log s) H) as K.
  destruct (drain_l why v _ _ _ _ _ (l_log s)) as [[[[q its] ts] lp] l]. exact K.
Qed.

Theorem run_records why v s acts : Forall loop_record (l_log (run_l why v (enter_l why v s) acts)).
Proof.
  assert (E : Forall loop_record (l_log (enter_l why v s))).
  { unfold enter_l. destruct (is_cmd_session _); [constructor|]. destruct (st_trans s) as [[]|]; try constructor. apply drained_records. constructor. }
  revert E. generalize (enter_l why v s) as s'. unfold run_l. induction acts as [|a acts IH]; intros s' E; [exact E|]. cbn [fold_left]. apply IH.
  unfold step_l. destruct a; try exact E. destruct (st_loop (l_state s')); try exact E. destruct (st_queue (l_state s')); [exact E|apply drained_records, E].
Qed.
