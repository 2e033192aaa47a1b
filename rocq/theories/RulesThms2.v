(** * Rules between lamps: what the followers are in the end *)
From Coq Require Import String List NArith ZArith Bool Lia PeanoNat.
From Verif Require Import PyStr Tags Messages SpecMsg SpecTag SpecProto MessageThms3 Protocol IO Client SpecItem Items Lighting SpecLight ItemThms LightThms2
  SpecHouse HouseThms HouseThms2 Dispatch SpecDispatch DispatchThms DispatchThms2 DispatchThms3 SpecNotice NoticeThms SpecMirror MirrorThms Reflex SpecReflex ReflexThms ReflexThms2 ReflexThms3 ReflexThms4 Failing SpecFailing FailingThms SpecRules.
Import ListNotations.
Open Scope nat_scope.
Open Scope list_scope.

Definition harmless (gw : gateway) (p : point) (c : SpecHouse.call) : Prop := forall o, stands_for c o -> at_whom gw o p = true -> sets o = false.

Lemma harmless_step gw p os c o : harmless gw p c -> stands_for c o -> SpecHouse.step gw (life gw os p) o = life gw os p.
Proof.
  intros Hc St. unfold SpecHouse.step. rewrite (at_life gw o os p). destruct (at_whom gw o p) eqn:Ew; [|reflexivity].
  specialize (Hc _ St Ew). destruct o; cbn in *; congruence.
Qed.

Lemma followed2 gw p : (forall st, SpecHouse.react gw LIGHTING [49%N] st = [49%N]) -> (forall st, SpecHouse.react gw LIGHTING [48%N] st = [48%N]) ->
  forall by_ os, Forall2 stands_for (map snd by_) os -> Forall (harmless gw p) (of_others by_) ->
  (Forall (harmless gw p) (of_callbacks by_) -> p_state (life gw os p) = p_state p) /\
  (forall cs it on ds, of_callbacks by_ = cs ++ switch it on :: ds -> aimed gw LIGHTING (it_where it) p = true -> Forall (harmless gw p) ds ->
    p_state (life gw os p) = if on then [49%N] else [48%N]).
Proof.
  intros R1 R0 by_. induction by_ as [|[w c] by_ IH] using rev_ind; intros os F O.
  - inversion F; subst. split; [reflexivity|]. intros [|x cs] it on ds X; discriminate X.
  - rewrite map_app in F. apply Forall2_app_inv_l in F as (os1 & os2 & F1 & F2 & ->). inversion F2 as [|x o xs l St Fn]; subst. inversion Fn; subst.
    rewrite others_app in O. apply Forall_app in O as (O1 & O2). specialize (IH os1 F1 O1). rewrite callbacks_app, life_app. cbn [life fold_left snd] in *.
    destruct w as [n|]; cbn [of_callbacks of_others map concat fst snd app] in *; rewrite ?app_nil_r.
    + split.
      * intros X. apply Forall_app in X as (X1 & X2). inversion X2; subst. rewrite (harmless_step gw p os1 c o) by assumption. apply IH, X1.
      * intros cs it on ds X Ai Hd. destruct ds as [|d ds _] using rev_ind.
        -- apply app_inj_tail in X as (_ & ->). apply switch_order in St. subst o.
           unfold SpecHouse.step. rewrite (at_life gw _ os1 p). cbn [at_whom]. rewrite Ai. cbn [effect_of moved p_state].
           assert (W : p_who (life gw os1 p) = LIGHTING).
           { pose proof (at_life gw (Command LIGHTING [] (it_where it)) os1 p) as X. cbn [at_whom] in X. rewrite Ai in X. unfold aimed in X.
             apply andb_true_iff in X as (X & _). destruct (p_who (life gw os1 p)); try discriminate X; reflexivity. }
           rewrite W. destruct on; [apply R1|apply R0].
        -- change (cs ++ switch it on :: ds ++ [d]) with (cs ++ (switch it on :: ds) ++ [d]) in X. rewrite app_assoc in X. apply app_inj_tail in X as (X & ->).
           apply Forall_app in Hd as (Hd & Hl). inversion Hl; subst. rewrite (harmless_step gw p os1 d o) by assumption. destruct IH as (_ & IH). exact (IH _ _ _ _ X Ai Hd).
    + inversion O2 as [|? ? Oc _]; subst. rewrite (harmless_step gw p os1 c o Oc St). exact IH.
Qed.

Lemma off_target gw p it on : aimed gw LIGHTING (it_where it) p = false -> harmless gw p (switch it on).
Proof. intros A o St W. apply switch_order in St. subst o. cbn [at_whom] in W. congruence. Qed.

Lemma last_aimed gw p on l it : Forall (fun c => exists i, c = switch i on) l -> In (switch it on) l -> aimed gw LIGHTING (it_where it) p = true ->
  exists cs i ds, l = cs ++ switch i on :: ds /\ aimed gw LIGHTING (it_where i) p = true /\ Forall (harmless gw p) ds.
Proof.
  intros F I A. induction l as [|c l IH] using rev_ind; [destruct I|]. apply Forall_app in F as (F & Fc). inversion Fc as [|? ? (i & ->) _]; subst.
  destruct (aimed gw LIGHTING (it_where i) p) eqn:E; [exists l, i, []; split; [reflexivity|]; split; [exact E|constructor]|].
  apply in_app_or in I as [I|[I|[]]].
  - destruct (IH F I) as (cs & j & ds & -> & Aj & Hd). exists cs, j, (ds ++ [switch i on]). rewrite <- app_assoc. split; [reflexivity|]. split; [exact Aj|].
    apply Forall_app. split; [exact Hd|]. constructor; [apply off_target, E|constructor].
  - assert (i = it) by (unfold switch in I; congruence). subst. congruence.
Qed.

(** The only lamp that [pb] follows is the one at [a]. *)
Definition lone (gw : gateway) (rules : list (str * item)) (a : str) (pb : point) : Prop :=
  forall a' it', In (a', it') rules -> aimed gw LIGHTING (it_where it') pb = true -> a' = a.

Lemma follow_shape a it f k args c : In c (follow a it f k args) -> k = (LIGHTING, a) /\ exists on, args = [VBool on] /\ c = switch it on.
Proof.
  destruct k as (k & s). unfold follow. destruct k; try (intros []). destruct (str_eqb a s) eqn:E; [|intros []]. apply str_eqb_spec in E. subst s.
  destruct args as [|x [|y l]]; try (intros []; fail); destruct x; try (intros []; fail); match goal with x : bool |- _ => destruct x end; intros H; try (destruct H; fail);
    (destruct H as [<-|[]]; split; [reflexivity|]; eexists; split; reflexivity).
Qed.

Lemma elsewhere_harmless gw rules its r a pb f ts q : lone gw rules a pb -> noticed its r f ts -> f = frame_state q -> point_ok q -> place q <> (LIGHTING, a) ->
  Forall (harmless gw pb) (concat (map (answer (by_rules rules) its) ts)).
Proof.
  intros Lo (p & i & k & args & E & P & Nj & _ & C) -> Pq N. destruct (state_inj _ _ Pq P E) as (W & A & _).
  apply Forall_concat, Forall_map, Forall_forall. intros (f & as_) I. pose proof (calls_in _ _ _ C _ I) as Y. cbn in Y. subst as_. cbn [answer]. rewrite Nj, <- W, <- A.
  unfold by_rules. apply Forall_concat, Forall_map, Forall_forall. intros (a' & it') Ir. apply Forall_forall. cbn [fst snd]. intros c Ic.
  apply follow_shape in Ic as (Ek & on & _ & ->). apply off_target. destruct (aimed gw LIGHTING (it_where it') pb) eqn:Ea; [|reflexivity].
  pose proof (Lo _ _ Ir Ea). subst a'. contradiction.
Qed.

Lemma rules_answers gw rules a it pb its r p ts f : In (a, it) rules -> aimed gw LIGHTING (it_where it) pb = true -> 
  noticed its r (frame_state p) ts -> point_ok p -> place p = (LIGHTING, a) ->
  In f (r (K_light STATUS_CHANGE)) -> (forall g, In g (r (K_light STATUS_CHANGE)) -> cb_takes g 2 = true) ->
  exists cs i ds, concat (map (answer (by_rules rules) its) ts) = cs ++ switch i (str_eqb (p_state p) [49%N]) :: ds /\ aimed gw LIGHTING (it_where i) pb = true /\ Forall (harmless gw pb) ds.
Proof.
  intros Ir Ai (q & i & k & args & E & P & Nj & An & C) Pp Pl If T. destruct (state_inj _ _ Pp P E) as (W & A & S). 
  assert (Pw : p_who p = LIGHTING) by (unfold place in Pl; congruence). assert (Pa : p_where p = a) by (unfold place in Pl; congruence).
  set (on := str_eqb (p_state p) [49%N]).
  assert (X : k = K_light STATUS_CHANGE /\ args = [VBool on]).
  { unfold on. destruct An as [_ E1|_ E1|E1]; [| |congruence]; (split; [reflexivity|]); rewrite S.
    - rewrite E1. reflexivity.
    - destruct (str_eqb (p_state q) [49%N]) eqn:Z; [apply str_eqb_spec in Z; contradiction|reflexivity]. }
  destruct X as (-> & ->). apply calls_all in C; [|exact T]. subst ts.
  assert (An1 : forall g, answer (by_rules rules) its (cb_id g, [VItem i; VBool on]) = by_rules rules (cb_id g) (LIGHTING, a) [VBool on]).
  { intros g. cbn [answer]. rewrite Nj, <- W, Pw, <- A, Pa. reflexivity. }
  apply (last_aimed gw pb on _ it).
  - apply Forall_concat, Forall_map, Forall_map, Forall_forall. intros g _. rewrite An1. unfold by_rules. apply Forall_concat, Forall_map, Forall_forall.
    intros (a' & it') _. apply Forall_forall. intros c Ic. cbn [fst snd] in Ic. apply follow_shape in Ic as (_ & on' & Eo & ->). exists it'. congruence.
  - apply in_concat. exists (by_rules rules (cb_id f) (LIGHTING, a) [VBool on]). split.
    + rewrite map_map. apply in_map_iff. exists f. split; [apply An1|exact If].
    + unfold by_rules. apply in_concat. exists (follow a it (cb_id f) (LIGHTING, a) [VBool on]). split; [apply in_map_iff; exists (a, it); auto|].
      unfold follow. rewrite (proj2 (str_eqb_spec a a) eq_refl). destruct on; left; reflexivity.
  - exact Ai.
Qed.

Lemma silent_harmless gw rules a its r fs tss p pb : lone gw rules a pb -> Forall2 (noticed its r) fs tss -> silent fs p -> place p = (LIGHTING, a) ->
  Forall (harmless gw pb) (concat (map (answer (by_rules rules) its) (concat tss))).
Proof.
  intros Lo F. induction F as [|f ts fs tss N F IH]; intros S Pl; [constructor|]. cbn [concat]. rewrite map_app, concat_app. apply Forall_app. split.
  - pose proof N as (q & i & k & args & E & P & _). eapply elsewhere_harmless; [exact Lo|exact N|exact E|exact P|]. rewrite <- Pl. apply S; [exact P|]. left. exact E.
  - apply IH; [intros q P I; apply S; [exact P|right; exact I]|exact Pl].
Qed.

Lemma rules_core gw v r h h' its by_ log evs tss rules a it f pa pb others : gateway_ok gw -> house_ok h -> distinct h -> (v < 13)%N ->
  story gw h (map snd by_) log evs h' -> of_others by_ = others -> Forall2 (noticed its r) evs tss ->
  of_callbacks by_ = concat (map (answer (by_rules rules) its) (concat tss)) -> In (a, it) rules ->
  In f (r (K_light STATUS_CHANGE)) -> (forall g, In g (r (K_light STATUS_CHANGE)) -> cb_takes g 2 = true) ->
  (forall st, SpecHouse.react gw LIGHTING [49%N] st = [49%N]) -> (forall st, SpecHouse.react gw LIGHTING [48%N] st = [48%N]) ->
  In pa h' -> place pa = (LIGHTING, a) -> In pb h' -> aimed gw LIGHTING (it_where it) pb = true ->
  (forall a' it', In (a', it') rules -> aimed gw LIGHTING (it_where it') pb = true -> a' = a) ->
  Forall (fun c => forall o, stands_for c o -> at_whom gw o pb = true -> sets o = false) others ->
  p_state pb = (if str_eqb (p_state pa) [49%N] then [49%N] else [48%N]) \/
  (exists pa0 pb0, In pa0 h /\ place pa0 = place pa /\ p_state pa0 = p_state pa /\ In pb0 h /\ place pb0 = place pb /\ p_state pb0 = p_state pb).
Proof.
  intros G H D Hv S O F Cb Ir If T R1 R0 Ia Pa Ib Ab Lo Ot.
  destruct (story_lives _ _ _ _ _ _ S) as (os & Fo & Eh). rewrite Eh in Ib. apply in_map_iff in Ib as (pb0 & <- & Ib0).
  assert (Pp : place (life gw os pb0) = place pb0).
  { clear. revert pb0. induction os as [|o os IH]; intros p; [reflexivity|]. cbn. fold (life gw os (SpecHouse.step gw p o)). rewrite IH. apply step_place. }
  assert (Ap : forall i, aimed gw LIGHTING (it_where i) (life gw os pb0) = aimed gw LIGHTING (it_where i) pb0) by (intros i; apply aimed_place; exact Pp).
  assert (Ab0 : aimed gw LIGHTING (it_where it) pb0 = true) by (rewrite <- Ap; exact Ab).
  assert (Lo0 : lone gw rules a pb0) by (intros a' it' I' A'; apply (Lo a' it' I'); rewrite Ap; exact A').
  assert (Ot0 : Forall (harmless gw pb0) (of_others by_)).
  { rewrite O. eapply Forall_impl; [|exact Ot]. intros c Hc o St A. apply (Hc o St). rewrite at_life. exact A. }
  destruct (followed2 gw pb0 R1 R0 _ _ Fo Ot0) as (L0 & L1).
  destruct (story_last _ _ _ _ _ _ S G H D pa Ia) as [(e1 & e2 & Ee & Si)|(Si & pa0 & I0 & Pl0 & St0)].
  - left. rewrite Ee in F. apply Forall2_app_inv_l in F as (t1 & t2 & _ & F2 & ->). inversion F2 as [|x ts l t3 N F3]; subst.
    assert (Pok : point_ok pa).
    { pose proof (story_house _ _ _ _ _ _ S G H) as Hk. unfold house_ok in Hk. rewrite Forall_forall in Hk. apply Hk, Ia. }
    destruct (rules_answers gw rules a it pb0 _ _ _ _ f Ir Ab0 N Pok Pa If T) as (cs & i & ds & A & Ai & Hd).
    rewrite concat_app in Cb. cbn [concat] in Cb. rewrite !map_app, !concat_app in Cb. rewrite A in Cb.
    pose proof (silent_harmless gw rules a _ _ _ _ _ _ Lo0 F3 Si Pa) as Hs.
    rewrite <- (app_assoc cs), app_assoc in Cb. cbn [app] in Cb. eapply L1; [exact Cb|exact Ai|]. apply Forall_app. split; [exact Hd|exact Hs].
  - right. exists pa0, pb0. pose proof (silent_harmless gw rules a _ _ _ _ _ _ Lo0 F Si Pa) as Hs. rewrite <- Cb in Hs. specialize (L0 Hs).
    repeat (split; [assumption || (symmetry; assumption)|]). symmetry. exact L0.
Qed.

Theorem rules_follow gw v r h ls w rules a it f pa pb : gateway_ok gw -> house_ok h -> distinct h -> (v < 13)%N ->
  wruns gw v r (by_rules rules) (quiet_house h) ls w -> at_rest v r w -> In (a, it) rules ->
  In f (r (K_light STATUS_CHANGE)) -> (forall g, In g (r (K_light STATUS_CHANGE)) -> cb_takes g 2 = true) ->
  (forall st, SpecHouse.react gw LIGHTING [49%N] st = [49%N]) -> (forall st, SpecHouse.react gw LIGHTING [48%N] st = [48%N]) ->
  In pa (w_house w) -> place pa = (LIGHTING, a) -> In pb (w_house w) -> aimed gw LIGHTING (it_where it) pb = true ->
  (forall a' it', In (a', it') rules -> aimed gw LIGHTING (it_where it') pb = true -> a' = a) ->
  Forall (fun c => forall o, stands_for c o -> at_whom gw o pb = true -> sets o = false) (pressed ls) ->
  p_state pb = (if str_eqb (p_state pa) [49%N] then [49%N] else [48%N]) \/
  (exists pa0 pb0, In pa0 h /\ place pa0 = place pa /\ p_state pa0 = p_state pa /\ In pb0 h /\ place pb0 = place pb /\ p_state pb0 = p_state pb).
Proof.
  intros G H D Hv R Re. destruct (ordered _ _ _ _ _ _ _ G H Hv R) as (log & pre & post & tss & m & S & O & E & Es & F & _ & Z). cbv zeta in *.
  destruct (Z Re) as (-> & Cb). rewrite app_nil_r in E. subst pre. rewrite Es in Cb. intros. eapply rules_core; eassumption.
Qed.

(** ** Callbacks that stop at the first command that fails *)

Lemma heard_all gw h cs : Forall (fun c => heard gw h c = true) cs -> until_unheard gw h cs = cs.
Proof. induction 1 as [|c cs E F IH]; [reflexivity|]. cbn [until_unheard]. rewrite E, IH. reflexivity. Qed.

Lemma rules_heard gw h rules its t : (forall a it, In (a, it) rules -> existsb (aimed gw LIGHTING (it_where it)) h = true) ->
  Forall (fun c => heard gw h c = true) (answer (by_rules rules) its t).
Proof.
  intros A. destruct t as (f & args). cbn [answer]. destruct args as [|[] args]; try constructor.
  match goal with |- context[nth_error its ?i] => destruct (nth_error its i) as [k|] end; [|constructor].
  unfold by_rules. apply Forall_concat, Forall_map, Forall_forall. intros (a & it) I. apply Forall_forall. cbn [fst snd]. intros c Ic.
  apply follow_shape in Ic as (_ & on & _ & ->). exact (A a it I).
Qed.

Theorem failing_follow gw v r h ls w es rules a it f pa pb : gateway_ok gw -> house_ok h -> distinct h -> (v < 13)%N ->
  fruns gw v r (by_rules rules) (quiet_house h, []) ls (w, es) -> at_rest v r w -> In (a, it) rules ->
  (forall a' it', In (a', it') rules -> existsb (aimed gw LIGHTING (it_where it')) h = true) ->
  In f (r (K_light STATUS_CHANGE)) -> (forall g, In g (r (K_light STATUS_CHANGE)) -> cb_takes g 2 = true) ->
  (forall st, SpecHouse.react gw LIGHTING [49%N] st = [49%N]) -> (forall st, SpecHouse.react gw LIGHTING [48%N] st = [48%N]) ->
  In pa (w_house w) -> place pa = (LIGHTING, a) -> In pb (w_house w) -> aimed gw LIGHTING (it_where it) pb = true ->
  (forall a' it', In (a', it') rules -> aimed gw LIGHTING (it_where it') pb = true -> a' = a) ->
  Forall (fun c => forall o, stands_for c o -> at_whom gw o pb = true -> sets o = false) (pressed ls) ->
  p_state pb = (if str_eqb (p_state pa) [49%N] then [49%N] else [48%N]) \/
  (exists pa0 pb0, In pa0 h /\ place pa0 = place pa /\ p_state pa0 = p_state pa /\ In pb0 h /\ place pb0 = place pb /\ p_state pb0 = p_state pb).
Proof.
  intros G H D Hv R Re Ir A. destruct (failing_order _ _ _ _ _ _ _ _ G H Hv R) as (log & pre & post & tss & m & S & O & E & Es & F & _ & _ & Z). cbv zeta in *.
  destruct (Z Re) as (-> & Cb & _). rewrite app_nil_r in E. subst pre.
  erewrite map_ext in Cb; [|intros t; apply heard_all, rules_heard, A]. rewrite Es in Cb. intros. eapply rules_core; eassumption.
Qed.
