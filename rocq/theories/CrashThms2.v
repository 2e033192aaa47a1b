(** * Every such break can happen; what is known afterwards; trying again *)
From Coq Require Import String List NArith ZArith Bool Lia.
From Verif Require Import PyStr Tags Messages MessageFacts SpecMsg SpecTag MessageThms MessageThms2 MessageThms3 TagThms SpecProto ProtoThms IO Client SpecItem Items
  Lighting SpecLight HandshakeThms ItemThms LightThms LightThms2 FrameThms SpecHouse HouseThms HouseThms2 SpecCrash CrashThms.
Import ListNotations.
Open Scope N_scope.
Open Scope list_scope.

(** ** What is reported is decided by the house *)

Lemma shows_fun p c ys ys' : shows p c ys -> shows p c ys' -> ys = ys'.
Proof.
  intros A B. destruct A as [it E|it E|it E E'|it n T|it k E|it r vs more ns E F L|it r E]; inversion B; subst; try reflexivity; try congruence.
  - rewrite (tagnum_fun _ _ _ T H0). reflexivity.
  - match goal with X : p_dims p (req_dim r) = Some (?v ++ ?m), Y : Forall2 valnum ?v ?n |- _ =>
      rewrite (valnums_fun vs v more m ns n); [reflexivity|congruence|assumption|assumption|congruence] end.
Qed.
Lemma shows_all c ps : forall yss yss', Forall2 (fun p ys => shows p c ys) ps yss -> Forall2 (fun p ys => shows p c ys) ps yss' -> yss = yss'.
Proof.
  induction ps as [|p ps IH]; intros yss yss' A B; inversion A; subst; inversion B; subst; [reflexivity|].
  f_equal; [eapply shows_fun; eassumption|]. apply IH; assumption.
Qed.

(** ** Every break can happen *)

Lemma serving_cutting gw {Y} h out (es : list (ev Y)) h' out' evs : serving gw h out es h' out' evs -> cutting gw true h out es true h' out'.
Proof.
  induction 1; [apply Ct_nil, St_same|eapply Ct_sent; eassumption| |apply Ct_yield; assumption].
  eapply Ct_got; [apply St_same|eassumption|assumption].
Qed.

(** A call that is made in vain. *)
Lemma vain_exists gw h c : call_ok c -> exists es, program c [] = (es, [], Err TimeoutError) /\ cutting gw true h [] es false h [] /\
  cutting gw false h [] es false h [] /\ yields es = [].
Proof.
  intros Hok. pose proof Hok as (_ & _ & _ & o & Ho).
  assert (C : forall a, cutting gw (Y:=str * seen) a h [] [Sent (order_frame o)] false h []).
  { intros a. destruct a.
    - eapply Ct_vain; [apply (St_cut true [] [] []); reflexivity|apply Ct_nil, St_same].
    - eapply Ct_vain; [apply St_same|apply Ct_nil, St_same]. }
  exists [Sent (order_frame o)]. split; [|auto].
  destruct (asks c) eqn:Ac.
  - destruct (call_asks c o Hok Ho Ac) as (Y & f & want & body & g & Ep & Es & _). rewrite Ep. unfold tagged.
    destruct (Es []) as (x & Hs & ->). inversion Hs; subst. reflexivity.
  - destruct (command_program c o [] Hok Ho Ac) as (_ & A). destruct (program c []) as [[es s1] r]. inversion A; subst. reflexivity.
Qed.

Lemma vain_sessions gw h cs : Forall call_ok cs -> session_cut gw false h [] cs [] (in_vain cs) false h [].
Proof.
  induction 1 as [|c cs Hc F IH]; [apply Sc_nil, St_same|]. destruct (vain_exists gw h c Hc) as (es & E & _ & C & Y).
  assert (X : session_cut gw false h [] (c :: cs) [] ((yields es, Err TimeoutError) :: in_vain cs) false h []) by (eapply Sc_call; [exact E|exact C|reflexivity|exact IH]).
  rewrite Y in X. exact X.
Qed.

Lemma stream_stops gw {Y} (want : msg -> Prop) (body : msg -> res (list Y)) h : (forall m, want m -> m <> MAck /\ m <> MNack) ->
  forall fs fyss, Forall2 (fun f ys => exists m, parse_message f = Ok m /\ want m /\ body m = Ok ys) fs fyss ->
  exists ms, forall x, streamed want body (map Some ms) x ->
  exists es, x = (es, [], Err TimeoutError) /\ yields es = concat fyss /\ forall lost, cutting gw true h (fs ++ lost) es false h [].
Proof.
  intros Wn fs fyss F. induction F as [|f ys fs fyss (m & P & W & B) F (ms & IH)].
  - exists []. intros x Hx. inversion Hx; subst. exists []. split; [reflexivity|]. split; [reflexivity|].
    intros lost. apply Ct_nil. apply (St_cut true lost [] lost); reflexivity.
  - exists (m :: ms). intros x Hx. cbn [map] in Hx. destruct (Wn _ W). inversion Hx; subst; try congruence; try contradiction.
    match goal with X : streamed _ _ (map Some ms) _ |- _ => destruct (IH _ X) as (es' & E & Ey & S) end.
    injection E as -> -> ->. eexists. split; [reflexivity|]. split.
    + cbn [yields concat]. rewrite yields_app, Ey. f_equal. rewrite B in *. match goal with X : Ok _ = Ok _ |- _ => injection X as -> end. apply yields_map.
    + intros lost. cbn [app]. eapply Ct_got; [apply St_same|exact P|]. apply cutting_yielded. apply S.
Qed.

Lemma Forall2_firstn {A B} (R : A -> B -> Prop) l l' k : Forall2 R l l' -> Forall2 R (firstn k l) (firstn k l').
Proof. intros F. revert k. induction F; intros k; destruct k; cbn; constructor; auto. Qed.

Lemma cut_exists gw h c h' obs : house_ok h -> call_ok c -> unfinished gw h c h' obs ->
  exists ms es, program c (map Some ms) = (es, [], Err TimeoutError) /\ cutting gw true h [] es false h' [] /\ yields es = obs.
Proof.
  intros Hh Hok U. pose proof Hok as (Hr & Hw & Hk & _). destruct U as [|o h' ans evs Ho Ac O|o yss k Ho Ac X F].
  - destruct (vain_exists gw h c Hok) as (es & E & C & _ & Y). exists [], es. auto.
  - pose proof (stands_ok c o Hw Ho) as Oo. destruct (command_program c o [] Hok Ho Ac) as (_ & A).
    exists [], [Sent (order_frame o)]. cbn [map]. split; [destruct (program c []) as [[es s1] r]; inversion A; subst; reflexivity|]. split; [|reflexivity].
    eapply Ct_sent; [exists o; eauto|]. apply Ct_nil. apply (St_cut true _ [] ([] ++ ans)); reflexivity.
  - pose proof (stands_ok c o Hw Ho) as Oo. destruct (call_asks c o Hok Ho Ac) as (Y & f & want & body & g & Ep & Es & Wn & V).
    destruct (read_first want body o _ _ (V gw h Hh)) as (yss1 & fyss & F1 & G & _ & K & _).
    assert (F' : Forall2 (fun p ys => shows p c ys) (filter (at_whom gw o) h) (map (map f) yss1)) by (clear - F1; induction F1; constructor; assumption).
    rewrite (shows_all _ _ _ _ F F'). destruct (K k) as (j & _ & Ej).
    destruct (stream_stops gw want body h Wn _ _ (Forall2_firstn _ _ _ j G)) as (ms & Hms). exists ms. rewrite Ep. unfold tagged.
    destruct (Es (map Some ms)) as (x & Hs & ->). destruct (Hms x Hs) as (es & -> & Ey & S). cbn [pre].
    exists (retag f (Sent (order_frame o) :: es)). split; [reflexivity|]. split.
    + apply cutting_retag.
      assert (O : exists evs, obeys gw h o h (concat (map (frames_of o) (filter (at_whom gw o) h)) ++ [frame_ack]) evs).
      { inversion Ho; subst; try discriminate Ac; eexists; cbn [at_whom frames_of] in *;
          try (rewrite (concat_singles frame_state)); first [apply Ob_status; exact X | apply Ob_dimension; exact X]. }
      destruct O as (evs & O). eapply Ct_sent; [exists o; eauto|]. cbn [app].
      rewrite <- (firstn_skipn j (concat (map (frames_of o) (filter (at_whom gw o) h)))), <- app_assoc. apply S.
    + rewrite yields_retag. cbn [yields]. rewrite Ey, Ej. apply concat_firstn_map.
Qed.

Lemma does_fun gw h c h1 obs r evs h1' obs' r' evs' : does gw h c h1 obs r evs -> does gw h c h1' obs' r' evs' -> h1 = h1' /\ obs = obs' /\ r = r'.
Proof.
  intros A B.
  assert (Of : forall o ha aa ea hb ab eb, obeys gw h o ha aa ea -> obeys gw h o hb ab eb -> ha = hb).
  { intros o ha aa ea hb ab eb P Q. apply obeys_step in P, Q. congruence. }
  destruct A as [o Ho X|o h1 ans evs Ho Ac X O|o h1 ans evs yss Ho Ac X O F]; inversion B as [o2 Ho2 X2|o2 h2 ans2 evs2 Ho2 Ac2 X2 O2|o2 h2 ans2 evs2 yss2 Ho2 Ac2 X2 O2 F2]; subst;
    rewrite (stands_fun _ _ _ Ho2 Ho) in *; try congruence; auto.
  - rewrite (Of _ _ _ _ _ _ _ O O2). auto.
  - rewrite (Of _ _ _ _ _ _ _ O O2), (shows_all _ _ _ _ F F2). auto.
Qed.

(** A call that is carried out, over whatever comes after it. *)
Lemma done_exists gw h c h1 obs r evs : house_ok h -> call_ok c -> does gw h c h1 obs r evs ->
  exists ms, forall rest, exists es, program c (map Some ms ++ rest) = (es, rest, r) /\ cutting gw true h [] es true h1 [] /\ yields es = obs /\ r <> Err TimeoutError.
Proof.
  intros Hh Hok D. destruct (call_exists gw h c Hh Hok) as (ms & h2 & evs2 & H). exists ms. intros rest. destruct (H rest) as (es & r2 & E & S & T).
  destruct (one_call gw h c _ _ _ _ _ _ _ Hh Hok E S ltac:(congruence)) as (_ & D2).
  destruct (does_fun _ _ _ _ _ _ _ _ _ _ _ D D2) as (-> & -> & ->). exists es. split; [exact E|]. split; [eapply serving_cutting; eassumption|]. auto.
Qed.

Theorem cut_possible gw : gateway_ok gw -> forall cs h log a h', house_ok h -> Forall call_ok cs -> cut_story gw h cs log a h' ->
  exists s, session_cut gw true h [] cs s log a h' [].
Proof.
  intros G.
  assert (M : forall cs1 h log evs h1, story gw h cs1 log evs h1 -> house_ok h -> Forall call_ok cs1 ->
    house_ok h1 /\ forall cs2 s2 log2 a h', session_cut gw true h1 [] cs2 s2 log2 a h' [] -> exists s, session_cut gw true h [] (cs1 ++ cs2) s (log ++ log2) a h' []).
  { induction 1 as [h|h c cs h1 obs r evs log evs' h' D S IH]; intros Hh F.
    - split; [assumption|]. cbn. eauto.
    - inversion F; subst. destruct (IH (does_ok _ _ _ _ _ _ _ G Hh D) ltac:(assumption)) as (Hh' & K). split; [assumption|].
      intros cs2 s2 log2 a h2 S2. destruct (K _ _ _ _ _ S2) as (s & Hs). destruct (done_exists gw h c h1 obs r evs Hh ltac:(assumption) D) as (ms & Hms).
      destruct (Hms s) as (es & E & C & Y & T). exists (map Some ms ++ s). cbn [app]. subst obs. eapply Sc_call; [exact E|exact C|congruence|exact Hs]. }
  intros cs h log a h' Hh F H. destruct H as [log evs h' S|cs1 cs2 log evs h' -> S|cs1 c cs2 log evs h1 obs h' -> S U].
  - destruct (M _ _ _ _ _ S Hh F) as (_ & K). destruct (K [] [] [] true h' ltac:(apply Sc_nil, St_same)) as (s & Hs).
    rewrite !app_nil_r in Hs. eauto.
  - apply Forall_app in F as (F1 & F2). destruct (M _ _ _ _ _ S Hh F1) as (_ & K).
    destruct F2 as [|c cs2 Hc F2].
    + apply (K [] [] [] false h'). apply Sc_nil. apply (St_cut true [] [] []); reflexivity.
    + destruct (vain_exists gw h' c Hc) as (es & E & C & _ & Y).
      apply (K (c :: cs2) [] (in_vain (c :: cs2)) false h').
      assert (X : session_cut gw true h' [] (c :: cs2) [] ((yields es, Err TimeoutError) :: in_vain cs2) false h' []) by
        (eapply Sc_call; [exact E|exact C|reflexivity|]; apply vain_sessions, F2).
      rewrite Y in X. exact X.
  - apply Forall_app in F as (F1 & F2). inversion F2; subst. destruct (M _ _ _ _ _ S Hh F1) as (Hh1 & K).
    destruct (cut_exists gw h1 c h' obs Hh1 ltac:(assumption) U) as (ms & es & E & C & <-).
    apply (K (c :: cs2) (map Some ms) ((yields es, Err TimeoutError) :: in_vain cs2) false h').
    eapply Sc_call; [exact E|exact C|reflexivity|]. apply vain_sessions. assumption.
Qed.

(** ** What is known afterwards *)

Lemma story_verdicts gw h cs log evs h' : story gw h cs log evs h' -> length log = length cs /\ Forall (fun x => snd x = Ok tt \/ snd x = Err ResponseError) log.
Proof.
  induction 1 as [h|h c cs h1 obs r evs log evs' h' D S (L & F)]; [split; [reflexivity|constructor]|].
  split; [cbn; congruence|]. constructor; [|assumption]. destruct D; cbn; auto.
Qed.

Lemma unfinished_step gw h c h' obs o : stands_for c o -> unfinished gw h c h' obs -> h' = h \/ h' = map (fun p => step gw p o) h.
Proof.
  intros Ho U. destruct U as [|o2 h' ans evs Ho2 Ac O|]; [left; reflexivity| |left; reflexivity].
  right. rewrite (stands_fun _ _ _ Ho Ho2). eapply obeys_step; eassumption.
Qed.

Lemma skipn_tl {A} n : forall l : list A, skipn (Datatypes.S n) l = tl (skipn n l).
Proof. induction n as [|n IH]; intros [|x l]; try reflexivity. cbn [skipn]. rewrite <- (IH l). reflexivity. Qed.

(** The number of calls with a verdict tells what the house has become, but for
    the call after them. *)
Theorem cut_known gw h cs log a h' : Forall call_ok cs -> cut_story gw h cs log a h' ->
  exists n os, n = verdicts log /\ Forall2 stands_for cs os /\ length log = length cs /\
    Forall (fun x => snd x = Ok tt \/ snd x = Err ResponseError) (firstn n log) /\ Forall (fun x => snd x = Err TimeoutError) (skipn n log) /\
    Forall (fun x => fst x = []) (skipn (Datatypes.S n) log) /\
    (h' = map (life gw (firstn n os)) h \/ h' = map (life gw (firstn (Datatypes.S n) os)) h) /\ (a = true -> n = length cs).
Proof.
  intros Fc H.
  assert (Os : forall l, Forall call_ok l -> exists os, Forall2 stands_for l os).
  { intros l Fl. induction Fl as [|c l (_ & _ & _ & o & Ho) _ (os & F)]; [exists []; constructor|exists (o :: os); constructor; assumption]. }
  assert (Vn : forall l, length (in_vain l) = length l /\ Forall (fun x => snd x = Err TimeoutError /\ fst x = []) (in_vain l)).
  { intros l. induction l as [|c l (L & V)]; [split; [reflexivity|constructor]|]. split; [cbn; f_equal; exact L|constructor; [split; reflexivity|exact V]]. }
  assert (Fn : forall {A} (l l' : list A) n, n = length l -> firstn n (l ++ l') = l /\ skipn n (l ++ l') = l').
  { intros A l l' n ->. split; [rewrite firstn_app, firstn_all, Nat.sub_diag, firstn_O; apply app_nil_r|rewrite skipn_app, skipn_all, Nat.sub_diag; reflexivity]. }
  assert (F2l : forall l os, Forall2 stands_for l os -> length os = length l) by (intros l os F; induction F; cbn; congruence).
  assert (Va : forall l, Forall (fun x => snd x = Ok tt \/ snd x = Err ResponseError) l -> verdicts l = length l).
  { intros l F. unfold verdicts. induction F as [|[x r] l [E|E] F IH]; [reflexivity| |]; cbn [snd] in E; subst r; cbn; f_equal; exact IH. }
  assert (Vz : forall l, verdicts (in_vain l) = 0%nat) by (intros l; unfold verdicts; induction l; cbn; auto).
  assert (Vp : forall l l', verdicts (l ++ l') = (verdicts l + verdicts l')%nat) by (intros l l'; unfold verdicts; rewrite filter_app, app_length; reflexivity).
  destruct H as [log evs h' S|cs1 cs2 log evs h' -> S|cs1 c cs2 log evs h1 obs h' -> S U];
    destruct (story_verdicts _ _ _ _ _ _ S) as (L & V); destruct (story_lives _ _ _ _ _ _ S) as (os & F & ->).
  - exists (length cs), os. split; [rewrite (Va _ V); congruence|]. split; [assumption|]. split; [assumption|]. rewrite <- L, firstn_all, skipn_all. split; [assumption|]. split; [constructor|].
    split; [rewrite skipn_all2 by lia; constructor|]. split; [|auto]. left. rewrite L, <- (F2l _ _ F), firstn_all. reflexivity.
  - apply Forall_app in Fc as (F1 & F2). destruct (Os _ F2) as (os2 & G). destruct (Vn cs2) as (Lv & Vv).
    exists (length cs1), (os ++ os2). split; [rewrite Vp, Vz, (Va _ V); lia|]. split; [apply Forall2_app; assumption|]. split; [rewrite !app_length; lia|].
    destruct (Fn _ log (in_vain cs2) (length cs1) ltac:(congruence)) as (-> & E2).
    destruct (Fn _ os os2 (length cs1) ltac:(symmetry; apply F2l, F)) as (-> & _).
    split; [assumption|]. split; [rewrite E2; eapply Forall_impl; [|exact Vv]; intros x (X & _); exact X|]. split.
    + rewrite skipn_tl, E2.
      destruct (in_vain cs2) as [|x l]; [constructor|]. cbn. inversion Vv; subst. eapply Forall_impl; [|eassumption]. intros y (_ & Y). exact Y.
    + split; [left; reflexivity|discriminate].
  - apply Forall_app in Fc as (F1 & F2). destruct (Os _ F2) as (os2 & G). inversion G as [|x o l os3 Ho G']; subst. destruct (Vn cs2) as (Lv & Vv).
    exists (length cs1), (os ++ o :: os3). split; [rewrite Vp, (Va _ V); change (length cs1 = length log + verdicts (in_vain cs2))%nat; rewrite Vz; lia|]. split; [apply Forall2_app; assumption|]. split; [rewrite !app_length; cbn; lia|].
    destruct (Fn _ log ((obs, Err TimeoutError) :: in_vain cs2) (length cs1) ltac:(congruence)) as (-> & E2).
    destruct (Fn _ os (o :: os3) (length cs1) ltac:(symmetry; apply F2l, F)) as (-> & _).
    split; [assumption|]. split; [rewrite E2; constructor; [reflexivity|]; eapply Forall_impl; [|exact Vv]; intros x (X & _); exact X|]. split.
    + rewrite skipn_tl, E2. cbn. eapply Forall_impl; [|exact Vv]. intros y (_ & Y). exact Y.
    + split; [|discriminate]. change (o :: os3) with ([o] ++ os3). rewrite app_assoc.
      destruct (Fn _ (os ++ [o]) os3 (Datatypes.S (length cs1)) ltac:(rewrite app_length, (F2l _ _ F); cbn; lia)) as (-> & _).
      destruct (unfinished_step _ _ _ _ _ _ Ho U) as [->| ->]; [left; reflexivity|right].
      rewrite map_map. apply map_ext. intros p. rewrite life_app. reflexivity.
Qed.

(** ** Trying again *)

Lemma same_refl p : same_point p p.
Proof. repeat split. Qed.
Lemma same_at gw o p q : same_point p q -> at_whom gw o p = at_whom gw o q.
Proof. intros (A & B & _). destruct o; cbn; unfold aimed; rewrite A, B; reflexivity. Qed.
Lemma same_step gw o p q : same_point p q -> same_point (step gw p o) (step gw q o).
Proof.
  intros H. pose proof H as (A & B & C & D). unfold step. rewrite (same_at gw o p q H). destruct (at_whom gw o q); [|assumption].
  destruct o as [w what a|w a d vs| |]; cbn; try assumption.
  - split; [exact A|]. split; [exact B|]. split; [cbn; rewrite A, C; reflexivity|exact D].
  - split; [exact A|]. split; [exact B|]. split; [exact C|]. intros d'. cbn. destruct (str_eqb d d'); [reflexivity|apply D].
Qed.
Lemma same_life gw os : forall p q, same_point p q -> same_point (life gw os p) (life gw os q).
Proof. induction os as [|o os IH]; intros p q H; [assumption|]. cbn. apply IH, same_step, H. Qed.
Lemma same_twice gw o p : repeatable gw o -> same_point (step gw (step gw p o) o) (step gw p o).
Proof.
  intros R. destruct (at_whom gw o p) eqn:A; [|unfold step; rewrite A, A; apply same_refl].
  unfold step at 1. rewrite at_step, A. unfold step. rewrite A. destruct o as [w what a|w a d vs| |]; cbn in *; try apply same_refl.
  - split; [reflexivity|]. split; [reflexivity|]. cbn. split; [|reflexivity].
    unfold aimed in A. apply andb_true_iff in A as (A & _). apply who_eqb_true in A. rewrite A. apply R.
  - repeat split. cbn. intros d'. destruct (str_eqb d d'); reflexivity.
Qed.

(** The client connects again and makes the calls without a verdict once more, to
    the end. *)
Theorem resumed gw h cs h' n os log2 evs2 h2 : Forall2 stands_for cs os ->
  (h' = map (life gw (firstn n os)) h \/ h' = map (life gw (firstn (Datatypes.S n) os)) h) ->
  (forall o, nth_error os n = Some o -> repeatable gw o) ->
  story gw h' (skipn n cs) log2 evs2 h2 -> same_house h2 (map (life gw os) h).
Proof.
  intros F Hh R S. destruct (story_lives _ _ _ _ _ _ S) as (os2 & F2 & ->).
  assert (os2 = skipn n os) as ->.
  { assert (F3 : Forall2 stands_for (skipn n cs) (skipn n os)).
    { clear - F. revert n. induction F; intros n; destruct n; cbn; try constructor; auto. }
    clear - F2 F3. revert F3. generalize (skipn n os). induction F2; intros l0 F3; inversion F3; subst; [reflexivity|]. f_equal; [eapply stands_fun; eassumption|auto]. }
  assert (Q : forall p, same_point (life gw (skipn n os) (life gw (firstn n os) p)) (life gw os p)).
  { intros p. rewrite <- life_app, firstn_skipn. apply same_refl. }
  assert (Q2 : forall p, same_point (life gw (skipn n os) (life gw (firstn (Datatypes.S n) os) p)) (life gw os p)).
  { intros p. destruct (nth_error os n) as [o|] eqn:En.
    - destruct (nth_error_split _ _ En) as (l1 & l2 & E & Ln).
      assert (E1 : firstn (Datatypes.S n) os = l1 ++ [o]).
      { rewrite E. change (o :: l2) with ([o] ++ l2). rewrite app_assoc. replace (Datatypes.S n) with (length (l1 ++ [o])) by (rewrite app_length; cbn; lia).
        rewrite firstn_app, firstn_all, Nat.sub_diag, firstn_O. apply app_nil_r. }
      assert (E2 : skipn n os = o :: l2) by (rewrite E, <- Ln, skipn_app, skipn_all, Nat.sub_diag; reflexivity).
      rewrite E1, E2, E. rewrite !life_app. cbn. apply same_life, same_twice, R. reflexivity.
    - apply nth_error_None in En. rewrite skipn_all2, firstn_all2 by lia. apply same_refl. }
  destruct Hh as [->| ->]; rewrite map_map; unfold same_house; clear - Q Q2; induction h as [|p h IH]; cbn [map]; constructor; auto.
Qed.

Lemma cut_house gw h cs log a h' : gateway_ok gw -> house_ok h -> cut_story gw h cs log a h' -> house_ok h'.
Proof.
  intros G Hh H.
  assert (St : forall h cs log evs h', story gw h cs log evs h' -> house_ok h -> house_ok h').
  { clear - G. induction 1 as [h|h c cs h1 obs r evs log evs' h' D S IH]; intros Hh; [assumption|]. apply IH. eapply does_ok; eassumption. }
  destruct H as [log evs h' S|cs1 cs2 log evs h' -> S|cs1 c cs2 log evs h1 obs h' -> S U]; [eapply St; eassumption|eapply St; eassumption|].
  pose proof (St _ _ _ _ _ S Hh) as H1. destruct U as [|o h' ans evs' Ho Ac O|]; try assumption.
  destruct (existsb (at_whom gw o) h1) eqn:X.
  - eapply (does_ok gw h1 c); [assumption|assumption|]. eapply Do_command; eassumption.
  - destruct (obeys_nobody _ _ _ _ _ _ X O) as (-> & _). assumption.
Qed.

Theorem tried_again gw h cs log a h' s2 log2 evs2 h2 out2 log0 evs0 h0 : gateway_ok gw -> house_ok h -> Forall call_ok cs ->
  cut_story gw h cs log a h' ->
  (forall c o, nth_error cs (verdicts log) = Some c -> stands_for c o -> repeatable gw o) ->
  session_with gw h' [] (skipn (verdicts log) cs) s2 log2 evs2 h2 out2 ->
  story gw h cs log0 evs0 h0 -> same_house h2 h0.
Proof.
  intros G Hh F C R S2 S0. destruct (cut_known gw h cs log a h' F C) as (n & os & En & Fo & _ & _ & _ & _ & Hk & _). rewrite <- En in *.
  assert (F2 : Forall call_ok (skipn n cs)) by (clear - F; revert n; induction F; intros n; destruct n; cbn; auto).
  destruct (session_story _ _ _ _ _ _ _ _ _ S2 G (cut_house _ _ _ _ _ _ G Hh C) F2 eq_refl) as (St & _).
  destruct (story_lives _ _ _ _ _ _ S0) as (os0 & Fo0 & ->).
  assert (os0 = os) as ->.
  { clear - Fo Fo0. revert os0 Fo0. induction Fo; intros os0 Fo0; inversion Fo0; subst; [reflexivity|]. f_equal; [eapply stands_fun; eassumption|auto]. }
  eapply (resumed gw h cs h' n os); [eassumption|exact Hk| |exact St].
  intros o E. assert (X : exists c, nth_error cs n = Some c /\ stands_for c o).
  { clear - Fo E. revert n E. induction Fo; intros n E; destruct n; cbn in *; try discriminate; [injection E as ->; eauto|auto]. }
  destruct X as (c & Ec & Hc). eapply R; eassumption.
Qed.
