(** * Events of a house reach the callbacks *)
From Coq Require Import String List NArith ZArith Bool Lia.
From Verif Require Import PyStr Tags Messages MessageFacts SpecMsg SpecTag MessageThms MessageThms2 MessageThms3 TagThms Protocol SpecProto ProtoThms IO Client SpecItem Items
  Lighting SpecLight HandshakeThms ItemThms LightThms LightThms2 FrameThms Dispatch SpecDispatch DispatchThms DispatchThms2 DispatchThms3 SpecHouse HouseThms HouseThms2 SpecNotice.
Import ListNotations.
Open Scope N_scope.
Open Scope list_scope.

Definition spoken (p : point) : Prop := point_ok p /\ (p_who p = LIGHTING \/ p_who p = AUTOMATION).

Lemma stands_who c o : stands_for c o -> match o with Command w _ _ | Writing w _ _ _ | Status w _ | Dimension w _ _ => w = LIGHTING \/ w = AUTOMATION end.
Proof. destruct 1; auto. Qed.

Lemma aimed_spoken gw w a h : house_ok h -> w = LIGHTING \/ w = AUTOMATION -> Forall spoken (filter (aimed gw w a) h).
Proof. intros H W. eapply Forall_impl; [|apply aimed_points, H]. intros p (A & <-). split; assumption. Qed.

(** Every event is the state of a point. *)
Theorem story_events gw h cs log evs h' : story gw h cs log evs h' -> gateway_ok gw -> house_ok h ->
  exists ps, Forall spoken ps /\ evs = map frame_state ps.
Proof.
  induction 1 as [h|h c cs h1 obs r evs log evs' h' D S IH]; intros G Hh; [exists []; split; constructor|].
  pose proof (does_ok _ _ _ _ _ _ _ G Hh D) as Hh1. destruct (IH G Hh1) as (ps & F & ->).
  assert (E : exists ps0, Forall spoken ps0 /\ evs = map frame_state ps0).
  { assert (O : exists o ans, stands_for c o /\ obeys gw h o h1 ans evs).
    { destruct D; [|eauto..]. exists o, [frame_nack]. split; [assumption|apply Ob_nobody; assumption]. }
    destruct O as (o & ans & Ho & O). apply stands_who in Ho. destruct O; try (exists []; split; [constructor|reflexivity]).
    - eexists. split; [|reflexivity]. apply aimed_spoken; assumption.
    - destruct (echoes gw); [|exists []; split; [constructor|reflexivity]]. eexists. split; [|reflexivity]. apply aimed_spoken; assumption. }
  destruct E as (ps0 & F0 & ->). exists (ps0 ++ ps). split; [apply Forall_app; auto|]. symmetry. apply map_app.
Qed.

Lemma state_str p : frame_state p = msg_str (state_msg p).
Proof. unfold frame_state, frame_cmd, wire. cbn [map concat msg_str state_msg app]. rewrite app_nil_r.
  repeat first [rewrite <- app_assoc | progress cbn [app]]. reflexivity.
Qed.

Lemma state_streamable p : point_ok p -> streamable (state_msg p).
Proof.
  intros (A & B & C & _). split.
  - split; [|exact I]. apply Forall_cons; [exact C|]. apply Forall_cons; [exact A|apply Forall_nil].
  - intros (u & E). cbn [msg_str state_msg] in E. change [35; 35; 35] with ([35] ++ hh) in E. rewrite !app_assoc in E.
    apply app_inv_tail in E. apply B. destruct (p_where p) as [|y l] eqn:Ew.
    + rewrite app_nil_r in E. apply app_inj_tail in E as [_ E]. discriminate E.
    + assert (N : y :: l <> []) by discriminate. destruct (exists_last N) as (a' & x & Ex). rewrite Ex in *. rewrite app_assoc in E.
      apply app_inj_tail in E as [_ ->]. exists a'. reflexivity.
Qed.

Lemma delivered r acts fs : delivers acts fs -> forall ps, Forall point_ok ps -> fs = map frame_state ps ->
  exists evs q, observed r acts evs q /\ map snd evs ++ q = map state_msg ps /\ Forall (fun ev => fst ev = r) evs.
Proof.
  induction 1 as [|acts fs group D IH|acts fs w whr D IH T|acts fs D IH]; intros ps F E.
  - destruct ps; [|discriminate]. exists [], []. split; [constructor|]. split; [reflexivity|constructor].
  - symmetry in E. apply map_eq_app in E as (ps1 & ps2 & -> & <- & <-). apply Forall_app in F as (F1 & F2).
    destruct (IH ps1 F1 eq_refl) as (evs & q & O & E & Fr). exists evs, (q ++ map state_msg ps2). split; [|split; [|exact Fr]].
    + apply O_packet; [exact O|].
      pose proof (packet_ok (map (fun p => ([], state_msg p)) ps2) []) as P. rewrite map_map in P. cbn [snd] in P.
      transitivity (packet_messages (packet_text (map (fun p => ([], state_msg p)) ps2) [])); [|apply P].
      * f_equal. unfold packet_text. rewrite app_nil_r, map_map. cbn [fst snd app]. f_equal. apply map_ext. intros p. apply state_str.
      * apply Forall_map. eapply Forall_impl; [|exact F2]. intros p Hp. cbn [fst snd]. split; [split; constructor|apply state_streamable, Hp].
      * split; constructor.
    + rewrite app_assoc, E, map_app. reflexivity.
  - destruct (IH ps F E) as (evs & q & O & Eq & Fr). exists evs, q. split; [apply O_lookup; assumption|]. auto.
  - destruct (IH ps F E) as (evs & q & O & Eq & Fr). exists (evs ++ map (fun m => (registered r acts, m)) q), [].
    split; [apply O_wake, O|]. split.
    + rewrite map_app, map_map, map_id, app_nil_r. exact Eq.
    + apply Forall_app. split; [exact Fr|]. apply Forall_map. apply Forall_forall. intros m _. cbn.
      clear - D. assert (X : registered r acts = r); [|exact X].
      induction D; [reflexivity|rewrite registered_other by discriminate; exact IHD..].
Qed.

Lemma announced its r p ts : spoken p -> made its r (state_msg p) ts -> noticed its r (frame_state p) ts.
Proof.
  intros (P & W) M. pose proof P as (_ & _ & _ & _ & HA).
  assert (R : exists k args, reports (state_msg p) k args /\ announces p k args).
  { unfold state_msg. destruct W as [W|W]; rewrite W.
    - destruct (str_eqb (p_state p) [49]) eqn:E.
      + apply str_eqb_spec in E. do 2 eexists. split; [apply (Rep_status _ _ true); rewrite E; split; reflexivity|apply An_lamp_on; assumption].
      + assert (N : p_state p <> [49]) by (intros X; apply str_eqb_spec in X; congruence).
        do 2 eexists. split; [apply (Rep_status _ _ false); split; [discriminate|intros X; destruct N; exact X]|apply An_lamp_else; assumption].
    - destruct (HA W) as (c & Hc). do 2 eexists. split; [apply Rep_auto; rewrite Hc; destruct c; cbn; auto|apply An_shutter, W]. }
  destruct R as (k0 & args0 & R & A). destruct M as [k args w whr i ts R' Hw Hh Hi Hc|N]; [|destruct (N _ _ R)].
  cbn in Hw, Hh. injection Hw as <-. injection Hh as <-.
  assert (B : built (state_msg p)) by apply wf_built, state_streamable, P.
  destruct (reports_unique _ _ _ _ _ B R R') as (<- & <-).
  exists p, i, k0, args0. auto 6.
Qed.

Lemma spoken_not_stray p : spoken p -> ~ stray (state_msg p).
Proof. intros (_ & W) (E & _). cbn in E. destruct W as [W|W]; rewrite W in E; discriminate E. Qed.

(** The calls that an event client has started when the last events were read. *)
Theorem events_noticed v r acts ps : v < 13 -> Forall spoken ps -> delivers acts (map frame_state ps) ->
  exists its tss, let s := run v (enter v (connected r)) (acts ++ [Wake]) in
    st_started s = concat tss /\ st_items s = its /\ NoDup its /\ st_loop s = Waiting /\ st_queue s = [] /\
    Forall2 (noticed its r) (map frame_state ps) tss.
Proof.
  intros Hv F D. 
  destruct (delivered r _ _ (Dl_wake _ _ D) ps) as (evs & q & O & E & Fr); [eapply Forall_impl; [|exact F]; intros p H; apply H|reflexivity|].
  assert (q = []) as ->. { inversion O; subst; try reflexivity; apply app_inj_tail in H as (_ & H); discriminate. }
  rewrite app_nil_r in E.
  assert (NS : Forall (fun ev => ~ stray (snd ev)) evs).
  { apply (proj1 (Forall_map (@snd registry msg) (fun m => ~ stray m) evs)). rewrite E. apply Forall_map. eapply Forall_impl; [|exact F]. apply spoken_not_stray. }
  destruct (observed_run v r _ evs [] Hv O NS) as (_ & its & tss & Er & (Nd & _) & M).
  exists its, tss. rewrite Er. cbn. repeat (split; [auto; fail|]). 
  clear - F E Fr M. revert ps F E. induction M as [|ev ts evs tss Me M IH]; intros ps F E; destruct ps as [|p ps]; try discriminate; [constructor|].
  injection E as E1 E. inversion F; subst. inversion Fr; subst. cbn. constructor; [|apply IH; assumption].
  apply announced; [assumption|]. rewrite <- E1. assumption.
Qed.

Theorem session_noticed gw h cs s log evs h' out' v r acts : gateway_ok gw -> house_ok h -> Forall call_ok cs ->
  session_with gw h [] cs s log evs h' out' -> v < 13 -> delivers acts evs ->
  exists its tss, let st := run v (enter v (connected r)) (acts ++ [Wake]) in
    st_started st = concat tss /\ st_items st = its /\ NoDup its /\ st_loop st = Waiting /\ st_queue st = [] /\
    Forall2 (noticed its r) evs tss.
Proof.
  intros G H F S Hv D. destruct (session_story gw h [] cs s log evs h' out' S G H F eq_refl) as (St & _ & _).
  destruct (story_events gw h cs log evs h' St G H) as (ps & Fp & ->). apply events_noticed; assumption.
Qed.

Lemma state_inj p q : point_ok p -> point_ok q -> frame_state p = frame_state q ->
  p_who p = p_who q /\ p_where p = p_where q /\ p_state p = p_state q.
Proof.
  intros P Q E. apply state_parse in P, Q. rewrite E, Q in P. injection P as A B C. auto.
Qed.

(** A command makes the gateway report every point it is aimed at, in the state
    it was put into. *)
Lemma command_events gw h before c after log evs h' p w what a : gateway_ok gw -> house_ok h ->
  story gw h (before ++ c :: after) log evs h' -> stands_for c (Command w what a) ->
  In p h -> aimed gw w a p = true -> (forall st, react gw w what st = what) ->
  exists q, point_ok q /\ In (frame_state q) evs /\ p_who q = w /\ p_where q = p_where p /\ p_state q = what.
Proof.
  intros G Hh S Ho Ip Ap Hr.
  destruct (story_app gw _ _ _ _ _ _ S) as (h1 & l1 & l2 & e1 & e2 & S1 & S2 & -> & ->).
  assert (Hh1 : house_ok h1).
  { clear - S1 G Hh. induction S1; [assumption|]. apply IHS1, (does_ok _ _ _ _ _ _ _ G Hh H). }
  destruct (story_lives _ _ _ _ _ _ S1) as (os & F & ->).
  inversion S2 as [|x1 x2 x3 h2 obs r ev x8 ev' x10 D S3]; subst.
  pose proof (does_ok _ _ _ _ _ _ _ G Hh1 D) as Hh2.
  set (p1 := life gw os p) in *.
  assert (A1 : aimed gw w a p1 = true) by (rewrite <- Ap; apply (at_life gw (Command w what a))).
  assert (I1 : In p1 (map (life gw os) h)) by (apply in_map, Ip).
  assert (X : existsb (aimed gw w a) (map (life gw os) h) = true) by (apply existsb_exists; eauto).
  assert (Pw : p_who p1 = w) by (unfold aimed in A1; apply andb_true_iff in A1 as (A1 & _); apply who_eqb_true, A1).
  exists (moved gw what p1).
  assert (O : exists ans, obeys gw (map (life gw os) h) (Command w what a) h2 ans ev).
  { destruct D as [o Hs N|o h2 ans ev Hs Ac Y O|o h2 ans ev yss Hs Ac Y O _]; rewrite <- (stands_fun _ _ _ Ho Hs) in *; [cbn in N; congruence|eauto|eauto]. }
  destruct O as (ans & O). inversion O as [o N|w0 what0 a0 Y hx| | |]; subst; [cbn in N; congruence|].
  assert (I2 : In (moved gw what p1) (done_to gw (p_who p1) a (moved gw what) (map (life gw os) h))).
  { apply in_map_iff. exists p1. rewrite A1. auto. }
  split; [unfold house_ok in Hh2; rewrite Forall_forall in Hh2; apply Hh2, I2|]. split.
  - apply in_or_app. right. apply in_or_app. left. apply in_map, filter_In. split; [exact I2|exact A1].
  - cbn. split; [reflexivity|]. split; [apply where_life|apply Hr].
Qed.

(** So every callback is told, for the item of the point. *)
Theorem command_heard gw h before c after s log evs h' out' v r acts p w what a k args f :
  gateway_ok gw -> house_ok h -> Forall call_ok (before ++ c :: after) ->
  session_with gw h [] (before ++ c :: after) s log evs h' out' -> v < 13 -> delivers acts evs ->
  stands_for c (Command w what a) -> In p h -> aimed gw w a p = true -> (forall st, react gw w what st = what) ->
  announces {| p_who := w; p_where := p_where p; p_state := what; p_dims := p_dims p |} k args ->
  (forall g, In g (r k) -> cb_takes g (S (length args)) = true) -> In f (r k) ->
  exists i, let st := run v (enter v (connected r)) (acts ++ [Wake]) in
    nth_error (st_items st) i = Some (w, p_where p) /\ In (cb_id f, VItem i :: args) (st_started st).
Proof.
  intros G H F S Hv D Ho Ip Ap Hr An Ta If. destruct (session_story gw h [] _ s log evs h' out' S G H F eq_refl) as (St & _ & _).
  destruct (command_events gw h before c after log evs h' p w what a G H St Ho Ip Ap Hr) as (q & Q & Iq & Qw & Qa & Qs).
  destruct (session_noticed gw h _ s log evs h' out' v r acts G H F S Hv D) as (its & tss & Es & Ei & _ & _ & _ & M).
  destruct (Forall2_in _ _ _ _ M Iq) as (ts & It & (p' & i & k' & args' & Ef & P' & Ni & An' & Hc)).
  destruct (state_inj q p' Q P' Ef) as (E1 & E2 & E3).
  exists i. cbv zeta. rewrite Ei, Es. rewrite Ni, <- E1, <- E2, Qw, Qa. split; [reflexivity|].
  assert (K : k' = k /\ args' = args).
  { clear - An An' E1 E3 Qw Qs. destruct An; cbn in *; destruct An'; try (split; congruence); exfalso; congruence. }
  destruct K as (-> & ->). apply in_concat. exists ts. split; [assumption|].
  rewrite (calls_unique _ _ _ _ Hc (calls_all (VItem i :: args) (r k) Ta)).
  apply in_map_iff. exists f. auto.
Qed.
