(** * Rules between lamps: chains of followers *)
From Coq Require Import String List NArith ZArith Bool Lia PeanoNat.
From Verif Require Import PyStr Tags Messages SpecMsg SpecTag SpecProto MessageThms3 Protocol IO Client SpecItem Items Lighting SpecLight ItemThms LightThms2
  SpecHouse HouseThms HouseThms2 Dispatch SpecDispatch DispatchThms DispatchThms2 DispatchThms3 SpecNotice NoticeThms SpecMirror MirrorThms Reflex SpecReflex ReflexThms ReflexThms2 ReflexThms3 ReflexThms4 Failing SpecFailing FailingThms SpecRules RulesThms2.
Import ListNotations.
Open Scope nat_scope.
Open Scope list_scope.

(** The gateway has said something about the point. *)
Definition told (evs : list (list N)) (p : point) : Prop := exists q, point_ok q /\ place q = place p /\ In (frame_state q) evs.

Lemma told_same evs p q : place p = place q -> told evs p -> told evs q.
Proof. intros E (x & P & Pl & I). exists x. rewrite <- E. auto. Qed.

Lemma told_story gw : gateway_ok gw -> forall h cs log evs h', story gw h cs log evs h' -> forall c p, house_ok h -> In c cs -> reaches gw [p] c -> In (place p) (map place h) ->
  told evs p.
Proof.
  intros G h cs log evs h' S. induction S as [h|h c1 cs h1 obs r evs log evs' h' D S IH]; intros c p H I R Ip; [destruct I|].
  pose proof (does_ok _ _ _ _ _ _ _ G H D) as H1. pose proof (does_places _ _ _ _ _ _ _ D) as Pl.
  destruct I as [<-|I].
  - destruct (does_obeys _ _ _ _ _ _ _ D) as (o & ans & St & Ob). destruct (R o St) as (w & what & a & -> & E). cbn [existsb] in E. rewrite orb_false_r in E.
    assert (X : exists q, In q h1 /\ place q = place p). { rewrite <- Pl in Ip. apply in_map_iff in Ip as (q & Eq & Iq). eauto. }
    destruct X as (q & Iq & Eq). inversion Ob; subst.
    + exfalso. apply in_map_iff in Ip as (q' & Eq' & Iq'). assert (B : existsb (aimed gw w a) h1 = true) by (apply existsb_exists; exists q'; split; [exact Iq'|]; rewrite (aimed_place gw w a q' p Eq'); exact E).
      cbn [at_whom] in *. congruence.
    + exists q. unfold house_ok in H1. rewrite Forall_forall in H1. split; [apply H1, Iq|]. split; [exact Eq|]. apply in_or_app. left. apply in_map, filter_In. split; [exact Iq|].
      rewrite (aimed_place gw w a q p Eq). exact E.
  - destruct (IH c p H1 I R ltac:(rewrite Pl; exact Ip)) as (q & P & Eq & Iq). exists q. split; [exact P|]. split; [exact Eq|]. apply in_or_app. right. exact Iq.
Qed.

Lemma callbacks_in c by_ : In c (of_callbacks by_) -> In c (map snd by_).
Proof. induction by_ as [|[[n|] d] l IH]; cbn in *; [auto| |]; intros I; [destruct I as [I|I]; auto|right; auto]. Qed.
Lemma others_in c by_ : In c (of_others by_) -> In c (map snd by_).
Proof. induction by_ as [|[[n|] d] l IH]; cbn in *; [auto| |]; intros I; [right; auto|destruct I as [I|I]; auto]. Qed.

Lemma rules_link gw v r h h' its by_ log evs tss rules a it f pa pb others : told evs pa -> gateway_ok gw -> house_ok h -> distinct h -> (v < 13)%N ->
  story gw h (map snd by_) log evs h' -> of_others by_ = others -> Forall2 (noticed its r) evs tss ->
  of_callbacks by_ = concat (map (answer (by_rules rules) its) (concat tss)) -> In (a, it) rules ->
  In f (r (K_light STATUS_CHANGE)) -> (forall g, In g (r (K_light STATUS_CHANGE)) -> cb_takes g 2 = true) ->
  (forall st, SpecHouse.react gw LIGHTING [49%N] st = [49%N]) -> (forall st, SpecHouse.react gw LIGHTING [48%N] st = [48%N]) ->
  In pa h' -> place pa = (LIGHTING, a) -> In pb h' -> aimed gw LIGHTING (it_where it) pb = true ->
  (forall a' it', In (a', it') rules -> aimed gw LIGHTING (it_where it') pb = true -> a' = a) ->
  Forall (fun c => forall o, stands_for c o -> at_whom gw o pb = true -> sets o = false) others ->
  p_state pb = (if str_eqb (p_state pa) [49%N] then [49%N] else [48%N]) /\ told evs pb.
Proof.
  intros To G H D Hv S O F Cb Ir If T R1 R0 Ia Pa Ib Ab Lo Ot.
  destruct (story_lives _ _ _ _ _ _ S) as (os & Fo & Eh). rewrite Eh in Ib. apply in_map_iff in Ib as (pb0 & <- & Ib0).
  assert (Pp : place (life gw os pb0) = place pb0).
  { clear. revert pb0. induction os as [|o os IH]; intros p; [reflexivity|]. cbn. fold (life gw os (SpecHouse.step gw p o)). rewrite IH. apply step_place. }
  assert (Ap : forall i, aimed gw LIGHTING (it_where i) (life gw os pb0) = aimed gw LIGHTING (it_where i) pb0) by (intros i; apply aimed_place; exact Pp).
  assert (Ab0 : aimed gw LIGHTING (it_where it) pb0 = true) by (rewrite <- Ap; exact Ab).
  assert (Lo0 : lone gw rules a pb0) by (intros a' it' I' A'; apply (Lo a' it' I'); rewrite Ap; exact A').
  assert (Ot0 : Forall (harmless gw pb0) (of_others by_)).
  { rewrite O. eapply Forall_impl; [|exact Ot]. intros c Hc o St A. apply (Hc o St). rewrite at_life. exact A. }
  destruct (followed2 gw pb0 R1 R0 _ _ Fo Ot0) as (L0 & L1).
  destruct (story_last _ _ _ _ _ _ S G H D pa Ia) as [(e1 & e2 & Ee & Si)|(Si & pa0 & I0 & Pl0 & St0)].
  - rewrite Ee in F. apply Forall2_app_inv_l in F as (t1 & t2 & _ & F2 & ->). inversion F2 as [|x ts l t3 N F3]; subst x l t2.
    assert (Pok : point_ok pa).
    { pose proof (story_house _ _ _ _ _ _ S G H) as Hk. unfold house_ok in Hk. rewrite Forall_forall in Hk. apply Hk, Ia. }
    destruct (rules_answers gw rules a it pb0 _ _ _ _ f Ir Ab0 N Pok Pa If T) as (cs & i & ds & A & Ai & Hd).
    rewrite concat_app in Cb. cbn [concat] in Cb. rewrite !map_app, !concat_app in Cb. rewrite A in Cb.
    pose proof (silent_harmless gw rules a _ _ _ _ _ _ Lo0 F3 Si Pa) as Hs.
    rewrite <- (app_assoc cs), app_assoc in Cb. cbn [app] in Cb. split; [eapply L1; [exact Cb|exact Ai|]; apply Forall_app; split; [exact Hd|exact Hs]|].
    apply (told_same evs pb0); [symmetry; exact Pp|]. eapply (told_story gw G _ _ _ _ _ S (switch i (str_eqb (p_state pa) [49%N]))); [exact H| | |apply in_map; exact Ib0].
    + apply callbacks_in. rewrite Cb. apply in_or_app. right. left. reflexivity.
    + intros o St. apply switch_order in St. subst o. eexists _, _, _. split; [reflexivity|]. cbn [existsb]. rewrite Ai. reflexivity.
  - destruct To as (q & Q & Pl & I). destruct (Si q Q I Pl).
Qed.

Lemma rules_down gw v r h h' its by_ log evs tss rules f pa c others : gateway_ok gw -> house_ok h -> distinct h -> (v < 13)%N ->
  story gw h (map snd by_) log evs h' -> of_others by_ = others -> Forall2 (noticed its r) evs tss ->
  of_callbacks by_ = concat (map (answer (by_rules rules) its) (concat tss)) ->
  In f (r (K_light STATUS_CHANGE)) -> (forall g, In g (r (K_light STATUS_CHANGE)) -> cb_takes g 2 = true) ->
  (forall st, SpecHouse.react gw LIGHTING [49%N] st = [49%N]) -> (forall st, SpecHouse.react gw LIGHTING [48%N] st = [48%N]) ->
  In pa h' -> In c others -> reaches gw [pa] c -> forall pb, downstream gw rules others h' pa pb ->
  p_state pb = (if str_eqb (p_state pa) [49%N] then [49%N] else [48%N]) /\ told evs pb /\ In pb h'.
Proof.
  intros G H D Hv S O F Cb If T R1 R0 Ia Ic Rc pb Dn.
  assert (Ta : told evs pa).
  { eapply (told_story gw G _ _ _ _ _ S c pa H); [apply others_in; rewrite O; exact Ic|exact Rc|]. destruct (story_lives _ _ _ _ _ _ S) as (os & _ & Eh). rewrite Eh in Ia.
    apply in_map_iff in Ia as (p0 & <- & I0). apply in_map_iff. exists p0. split; [|exact I0]. clear. revert p0. induction os as [|o os IH]; intros p; [reflexivity|]. cbn.
    fold (life gw os (SpecHouse.step gw p o)). rewrite <- IH. symmetry. apply step_place. }
  assert (L : forall p q, told evs p -> In p h' -> link gw rules others h' p q -> p_state q = (if str_eqb (p_state p) [49%N] then [49%N] else [48%N]) /\ told evs q).
  { intros p q Tp Ip (Iq & Wp & (it & Ir & A) & Lo & Ot). eapply (rules_link gw v r h h' its by_ log evs tss rules (p_where p) it f p q others); try eassumption.
    unfold place. rewrite Wp. reflexivity. }
  induction Dn as [pb Lk|pb pc Dn IH Lk].
  - destruct (L pa pb Ta Ia Lk) as (E & Tb). destruct Lk as (Ib & _). auto.
  - destruct IH as (E & Tb & Ib). destruct (L pb pc Tb Ib Lk) as (E2 & Tc). destruct Lk as (Ic' & _). split; [|auto]. rewrite E2, E.
    destruct (str_eqb (p_state pa) [49%N]); reflexivity.
Qed.

Theorem rules_chain gw v r h ls w rules f pa pb c : gateway_ok gw -> house_ok h -> distinct h -> (v < 13)%N ->
  wruns gw v r (by_rules rules) (quiet_house h) ls w -> at_rest v r w ->
  In f (r (K_light STATUS_CHANGE)) -> (forall g, In g (r (K_light STATUS_CHANGE)) -> cb_takes g 2 = true) ->
  (forall st, SpecHouse.react gw LIGHTING [49%N] st = [49%N]) -> (forall st, SpecHouse.react gw LIGHTING [48%N] st = [48%N]) ->
  In pa (w_house w) -> In c (pressed ls) -> reaches gw [pa] c -> downstream gw rules (pressed ls) (w_house w) pa pb ->
  p_state pb = (if str_eqb (p_state pa) [49%N] then [49%N] else [48%N]).
Proof.
  intros G H D Hv R Re If T R1 R0 Ia Ic Rc Dn. destruct (ordered _ _ _ _ _ _ _ G H Hv R) as (log & pre & post & tss & m & S & O & E & Es & F & _ & Z). cbv zeta in *.
  destruct (Z Re) as (-> & Cb). rewrite app_nil_r in E. subst pre. rewrite Es in Cb. eapply (rules_down gw v r h (w_house w) _ (w_by w) log (w_evs w) tss rules f pa c (pressed ls)); try eassumption.
Qed.
