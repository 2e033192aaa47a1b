(** * Callbacks that send commands: a lamp that follows another one *)
From Coq Require Import String List NArith ZArith Bool Lia PeanoNat.
From Verif Require Import PyStr Tags Messages SpecMsg SpecTag SpecProto MessageThms3 Protocol IO Client SpecItem Items Lighting SpecLight ItemThms LightThms2
  SpecHouse HouseThms HouseThms2 Dispatch SpecDispatch DispatchThms DispatchThms2 DispatchThms3 SpecNotice NoticeThms SpecMirror MirrorThms Reflex SpecReflex ReflexThms ReflexThms2.
Import ListNotations.
Open Scope nat_scope.
Open Scope list_scope.

Lemma calls_all args fs ts : (forall g, In g fs -> cb_takes g (length args) = true) -> calls args fs ts -> ts = map (fun g => (cb_id g, args)) fs.
Proof.
  intros T C. induction C as [|f fs ts E C IH|f fs E]; [reflexivity| |].
  - cbn. f_equal. apply IH. intros g I. apply T. right. exact I.
  - rewrite T in E by (left; reflexivity). discriminate.
Qed.

Lemma elsewhere_quiet a it its r f ts q : noticed its r f ts -> f = frame_state q -> point_ok q -> place q <> (LIGHTING, a) ->
  concat (map (answer (follow a it) its) ts) = [].
Proof.
  intros (p & i & k & args & E & P & Nj & _ & C) -> Pq N. destruct (state_inj _ _ Pq P E) as (W & A & _).
  assert (X : forall t, In t ts -> answer (follow a it) its t = []).
  { intros (f & as_) I. pose proof (calls_in _ _ _ C _ I) as Y. cbn in Y. subst as_. cbn [answer]. rewrite Nj, <- W, <- A. unfold follow.
    destruct (p_who q) eqn:Eq; try reflexivity. destruct (str_eqb a (p_where q)) eqn:Ea; [|reflexivity]. apply str_eqb_spec in Ea. destruct N. unfold place. congruence. }
  clear C. induction ts as [|t ts IH]; [reflexivity|]. cbn [map concat]. rewrite X by (left; reflexivity). apply IH. intros t' I. apply X. right. exact I.
Qed.

Definition switch (it : item) (on : bool) : SpecHouse.call := CLight it (LBase (if on then turn_on else turn_off)).

Lemma follow_answers a it its r p ts f : noticed its r (frame_state p) ts -> point_ok p -> place p = (LIGHTING, a) ->
  In f (r (K_light STATUS_CHANGE)) -> (forall g, In g (r (K_light STATUS_CHANGE)) -> cb_takes g 2 = true) ->
  exists n, concat (map (answer (follow a it) its) ts) = repeat (switch it (str_eqb (p_state p) [49%N])) (S n).
Proof.
  intros (q & i & k & args & E & P & Nj & An & C) Pp Pl If T. destruct (state_inj _ _ Pp P E) as (W & A & S). injection Pl as Pw Pa.
  assert (X : k = K_light STATUS_CHANGE /\ args = [VBool (str_eqb (p_state p) [49%N])]).
  { destruct An as [_ E1|_ E1|E1]; [| |congruence]; (split; [reflexivity|]); rewrite S.
    - rewrite E1. reflexivity.
    - destruct (str_eqb (p_state q) [49%N]) eqn:Z; [apply str_eqb_spec in Z; contradiction|reflexivity]. }
  destruct X as (-> & ->). apply calls_all in C; [|exact T]. subst ts.
  assert (Y : forall l, concat (map (answer (follow a it) its) (map (fun g => (cb_id g, [VItem i; VBool (str_eqb (p_state p) [49%N])])) l)) =
    repeat (switch it (str_eqb (p_state p) [49%N])) (length l)).
  { induction l as [|g l IH]; [reflexivity|]. cbn [map concat]. rewrite IH. cbn [answer]. rewrite Nj, <- W, Pw, <- A, Pa. unfold follow.
    rewrite (proj2 (str_eqb_spec a a) eq_refl). destruct (str_eqb (p_state p) [49%N]); reflexivity. }
  rewrite Y. destruct (r (K_light STATUS_CHANGE)) as [|g l]; [destruct If|]. exists (length l). reflexivity.
Qed.

Lemma silent_quiet a it its r fs tss p : Forall2 (noticed its r) fs tss -> silent fs p -> place p = (LIGHTING, a) ->
  concat (map (answer (follow a it) its) (concat tss)) = [].
Proof.
  intros F. induction F as [|f ts fs tss N F IH]; intros S Pl; [reflexivity|]. cbn [concat]. rewrite map_app, concat_app.
  rewrite IH; [|intros q P I; apply S; [exact P|right; exact I]|exact Pl]. rewrite app_nil_r.
  pose proof N as (q & i & k & args & E & P & _). eapply elsewhere_quiet; [exact N|exact E|exact P|]. rewrite <- Pl. apply S; [exact P|]. left. exact E.
Qed.

Lemma switch_order it on o : stands_for (switch it on) o -> o = Command LIGHTING (if on then [49%N] else [48%N]) (it_where it).
Proof. intros H. inversion H; subst. match goal with X : doc_light _ = _ |- _ => apply doc_code in X; subst end. destruct on; reflexivity. Qed.

(** What the last of the callbacks' calls leaves behind. *)
Lemma followed gw it p : aimed gw LIGHTING (it_where it) p = true ->
  (forall st, SpecHouse.react gw LIGHTING [49%N] st = [49%N]) -> (forall st, SpecHouse.react gw LIGHTING [48%N] st = [48%N]) ->
  forall by_ os, Forall2 stands_for (map snd by_) os ->
  Forall (fun c => forall o, stands_for c o -> at_whom gw o p = true -> sets o = false) (of_others by_) ->
  (of_callbacks by_ = [] -> p_state (life gw os p) = p_state p) /\
  (forall cs on, of_callbacks by_ = cs ++ [switch it on] -> p_state (life gw os p) = if on then [49%N] else [48%N]).
Proof.
  intros Ai R1 R0 by_. induction by_ as [|[w c] by_ IH] using rev_ind; intros os F O.
  - inversion F; subst. split; [reflexivity|]. intros [|x cs] on X; discriminate X.
  - rewrite map_app in F. apply Forall2_app_inv_l in F as (os1 & os2 & F1 & F2 & ->). inversion F2 as [|x o xs l St Fn]; subst. inversion Fn; subst.
    rewrite others_app in O. apply Forall_app in O as (O1 & O2). specialize (IH os1 F1 O1). rewrite callbacks_app, life_app. cbn [life fold_left snd] in *.
    destruct w as [n|]; cbn [of_callbacks of_others map concat fst snd app] in *; rewrite ?app_nil_r.
    + split; [intros X; destruct (of_callbacks by_); discriminate X|]. intros cs on X. apply app_inj_tail in X as (_ & ->). apply switch_order in St. subst o.
      unfold SpecHouse.step. rewrite (at_life gw _ os1 p). cbn [at_whom]. rewrite Ai. cbn [effect_of moved p_state].
      assert (W : p_who (life gw os1 p) = LIGHTING).
      { pose proof (at_life gw (Command LIGHTING [] (it_where it)) os1 p) as X. cbn [at_whom] in X. rewrite Ai in X. unfold aimed in X.
        apply andb_true_iff in X as (X & _). destruct (p_who (life gw os1 p)); try discriminate X; reflexivity. }
      rewrite W. destruct on; [apply R1|apply R0].
    + inversion O2 as [|? ? Oc _]; subst.
      assert (E : SpecHouse.step gw (life gw os1 p) o = life gw os1 p).
      { unfold SpecHouse.step. rewrite (at_life gw o os1 p). destruct (at_whom gw o p) eqn:Ew; [|reflexivity].
        specialize (Oc _ St Ew). destruct o; cbn in *; congruence. }
      rewrite E. exact IH.
Qed.

Lemma repeat_end {A} (x : A) n : repeat x (S n) = repeat x n ++ [x].
Proof. induction n as [|n IH]; [reflexivity|]. cbn [repeat app] in *. f_equal. exact IH. Qed.

Theorem follows gw v r h ls w a it f pa pb : gateway_ok gw -> house_ok h -> distinct h -> (v < 13)%N ->
  wruns gw v r (follow a it) (quiet_house h) ls w -> at_rest v r w ->
  In f (r (K_light STATUS_CHANGE)) -> (forall g, In g (r (K_light STATUS_CHANGE)) -> cb_takes g 2 = true) ->
  (forall st, SpecHouse.react gw LIGHTING [49%N] st = [49%N]) -> (forall st, SpecHouse.react gw LIGHTING [48%N] st = [48%N]) ->
  In pa (w_house w) -> place pa = (LIGHTING, a) -> In pb (w_house w) -> aimed gw LIGHTING (it_where it) pb = true ->
  Forall (fun c => forall o, stands_for c o -> at_whom gw o pb = true -> sets o = false) (pressed ls) ->
  p_state pb = (if str_eqb (p_state pa) [49%N] then [49%N] else [48%N]) \/
  (exists pa0 pb0, In pa0 h /\ place pa0 = place pa /\ p_state pa0 = p_state pa /\ In pb0 h /\ place pb0 = place pb /\ p_state pb0 = p_state pb).
Proof.
  intros G H D Hv R Re If T R1 R0 Ia Pa Ib Ab Ot.
  destruct (ordered _ _ _ _ _ _ _ G H Hv R) as (log & pre & post & tss & m & S & O & E & Es & F & _ & Z). cbv zeta in *.
  destruct (Z Re) as (-> & Cb). rewrite app_nil_r in E. subst pre. rewrite Es in Cb.
  destruct (story_lives _ _ _ _ _ _ S) as (os & Fo & Eh). rewrite Eh in Ib. apply in_map_iff in Ib as (pb0 & <- & Ib0).
  assert (Pp : place (life gw os pb0) = place pb0).
  { clear. revert pb0. induction os as [|o os IH]; intros p; [reflexivity|]. cbn. fold (life gw os (SpecHouse.step gw p o)). rewrite IH. apply step_place. }
  assert (Ab0 : aimed gw LIGHTING (it_where it) pb0 = true) by (rewrite <- Ab; apply aimed_place; symmetry; exact Pp).
  assert (Ot0 : Forall (fun c => forall o, stands_for c o -> at_whom gw o pb0 = true -> sets o = false) (of_others (w_by w))).
  { rewrite O. eapply Forall_impl; [|exact Ot]. intros c Hc o St A. apply (Hc o St). rewrite at_life. exact A. }
  destruct (followed gw it pb0 Ab0 R1 R0 _ _ Fo Ot0) as (L0 & L1).
  destruct (story_last _ _ _ _ _ _ S G H D pa Ia) as [(e1 & e2 & Ee & Si)|(Si & pa0 & I0 & Pl0 & St0)].
  - left. rewrite Ee in F. apply Forall2_app_inv_l in F as (t1 & t2 & _ & F2 & ->). inversion F2 as [|x ts l t3 N F3]; subst.
    assert (Pok : point_ok pa).
    { pose proof (story_house _ _ _ _ _ _ S G H) as Hk. unfold house_ok in Hk. rewrite Forall_forall in Hk. apply Hk, Ia. }
    destruct (follow_answers a it _ _ _ _ f N Pok Pa If T) as (n & A).
    rewrite concat_app in Cb. cbn [concat] in Cb. rewrite !map_app, !concat_app in Cb. rewrite A in Cb. rewrite (silent_quiet _ _ _ _ _ _ _ F3 Si Pa) in Cb.
    rewrite app_nil_r, repeat_end, app_assoc in Cb. apply L1 in Cb. exact Cb.
  - right. exists pa0, pb0. rewrite (silent_quiet _ _ _ _ _ _ _ F Si Pa) in Cb. specialize (L0 Cb).
    repeat (split; [assumption || (symmetry; assumption)|]). symmetry. exact L0.
Qed.

(** ** Lamps that follow each other *)

Lemma reaches_places gw h h1 c : map place h1 = map place h -> reaches gw h c -> reaches gw h1 c.
Proof.
  intros P R o S. destruct (R o S) as (w & what & a & -> & E). exists w, what, a. split; [reflexivity|].
  clear R S. revert h1 P. induction h as [|p h IH]; intros [|q h1] P; try discriminate.
  assert (P1 : place q = place p) by (cbn in P; congruence). assert (P2 : map place h1 = map place h) by (cbn in P; congruence).
  cbn [existsb] in *. rewrite (aimed_place gw w a q p P1). apply orb_true_iff in E as [E|E]; [rewrite E; reflexivity|].
  rewrite (IH E h1 P2). apply orb_true_r.
Qed.

Lemma reached gw h c h1 obs res evs : reaches gw h c -> house_ok h -> gateway_ok gw -> does gw h c h1 obs res evs ->
  evs <> [] /\ exists ps, evs = map frame_state ps /\ Forall (fun p => point_ok p /\ In (place p) (map place h)) ps.
Proof.
  intros R H G D. pose proof (does_ok _ _ _ _ _ _ _ G H D) as H1. pose proof (does_places _ _ _ _ _ _ _ D) as Pl.
  destruct (does_obeys _ _ _ _ _ _ _ D) as (o & ans & St & Ob). destruct (R o St) as (w & what & a & -> & E).
  inversion Ob; subst.
  - cbn [at_whom] in *. congruence.
  - split.
    + assert (X : existsb (aimed gw w a) h' = true).
      { unfold h', done_to. clear - E. induction h as [|p h IH]; [discriminate|]. cbn [existsb map] in *. 
        apply orb_true_iff in E as [E|E].
        - rewrite E. rewrite (aimed_place gw w a (moved gw what p) p) by reflexivity. rewrite E. reflexivity.
        - rewrite (IH E). apply orb_true_r. }
      apply existsb_exists in X as (p & Ip & Ap). intros Z. apply map_eq_nil in Z. assert (J : In p (filter (aimed gw w a) h')) by (apply filter_In; auto).
      rewrite Z in J. destruct J.
    + eexists. split; [reflexivity|]. apply Forall_forall. intros p I. apply filter_In in I as (I & _). unfold house_ok in H1. rewrite Forall_forall in H1.
      split; [apply H1, I|]. rewrite <- Pl. apply in_map, I.
Qed.

Lemma reached_story gw h0 : gateway_ok gw -> forall h cs log evs h', story gw h cs log evs h' -> house_ok h -> map place h = map place h0 ->
  Forall (reaches gw h0) cs -> length cs <= length evs /\ exists ps, evs = map frame_state ps /\ Forall (fun p => point_ok p /\ In (place p) (map place h0)) ps.
Proof.
  intros G h cs log evs h' S. induction S as [h|h c cs h1 obs r evs log evs' h' D S IH]; intros H Pl F; [split; [cbn; lia|exists []; split; [reflexivity|constructor]]|].
  inversion F; subst.
  destruct (reached _ _ _ _ _ _ _ (reaches_places _ _ _ _ Pl ltac:(eassumption)) H G D) as (N & ps & -> & Fp).
  destruct (IH (does_ok _ _ _ _ _ _ _ G H D) ltac:(rewrite (does_places _ _ _ _ _ _ _ D); exact Pl) ltac:(assumption)) as (L & ps' & -> & Fp').
  split.
  - rewrite app_length. destruct ps; [contradiction|]. cbn [length map] in *. lia.
  - exists (ps ++ ps'). rewrite map_app. split; [reflexivity|]. rewrite Pl in Fp. apply Forall_app. auto.
Qed.

Theorem restless gw v r body h ls w : gateway_ok gw -> house_ok h -> (v < 13)%N -> wruns gw v r body (quiet_house h) ls w ->
  (forall its p ts, point_ok p -> In (place p) (map place h) -> noticed its r (frame_state p) ts -> concat (map (answer body its) ts) <> []) ->
  (forall f k args, Forall (reaches gw h) (body f k args)) -> Forall (reaches gw h) (pressed ls) -> pressed ls <> [] ->
  ~ at_rest v r w.
Proof.
  intros G H Hv R A B P N Re.
  destruct (ordered _ _ _ _ _ _ _ G H Hv R) as (log & pre & post & tss & m & S & O & E & Es & F & _ & Z). cbv zeta in *.
  destruct (Z Re) as (-> & Cb). rewrite app_nil_r in E. subst pre. rewrite Es in Cb.
  set (its := st_items (listener v r (w_acts w))) in *.
  assert (Fr : Forall (reaches gw h) (map snd (w_by w))).
  { assert (X1 : Forall (reaches gw h) (of_callbacks (w_by w))).
    { rewrite Cb. apply Forall_concat, Forall_map, Forall_forall. intros (g & [|[] args]) _; try constructor. cbn. destruct (nth_error its n); [apply B|constructor]. }
    rewrite <- O in P. clear - X1 P. induction (w_by w) as [|[[n|] c] l IH]; [constructor| |]; cbn in *.
    - inversion X1; subst. constructor; [assumption|apply IH; assumption].
    - inversion P; subst. constructor; [assumption|apply IH; assumption]. }
  destruct (reached_story gw h G _ _ _ _ _ S H eq_refl Fr) as (L & ps & Ep & Fp). rewrite map_length in L.
  assert (K : length (w_evs w) <= length (of_callbacks (w_by w))).
  { rewrite Cb, Ep. rewrite Ep in F. clear - F Fp A. revert tss F. induction ps as [|p ps IH]; intros tss F; [cbn; lia|].
    inversion F as [|x ts l t3 Nt F3]; subst. inversion Fp as [|? ? (Pk & Ip) Fp']; subst. specialize (IH Fp' _ F3).
    cbn [concat]. rewrite map_app, concat_app, app_length. pose proof (A _ _ _ Pk Ip Nt) as X. destruct (concat (map (answer body its) ts)); [contradiction|]. cbn [length map] in *. lia. }
  assert (Q : length (w_by w) = length (of_others (w_by w)) + length (of_callbacks (w_by w))).
  { clear. unfold of_others, of_callbacks. induction (w_by w) as [|[[n|] c] l IH]; [reflexivity| |]; cbn [map concat fst snd app length] in *; lia. }
  rewrite O in Q. destruct (pressed ls); [contradiction|]. cbn [length] in Q. lia.
Qed.
