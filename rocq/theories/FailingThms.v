(** * Callbacks that stop at the first command that fails: proofs *)
From Coq Require Import String List NArith ZArith Bool Lia PeanoNat.
From Verif Require Import PyStr Tags Messages SpecMsg Items Lighting SpecItem SpecLight LightThms2 Dispatch SpecDispatch DispatchThms SpecTag SpecHouse HouseThms HouseThms2
  SpecNotice NoticeThms SpecMirror MirrorThms Protocol Reflex SpecReflex ReflexThms ReflexThms2 ReflexThms3 ReflexThms5 Failing SpecFailing.
Import ListNotations.
Open Scope nat_scope.
Open Scope list_scope.

Lemma heard_order gw h c o : stands_for c o -> existsb (at_whom gw o) h = heard gw h c.
Proof. unfold heard. destruct 1; reflexivity. Qed.

Lemma heard_places gw h h1 c : map place h1 = map place h -> heard gw h1 c = heard gw h c.
Proof.
  unfold heard. revert h1. induction h as [|p h IH]; intros [|q h1] E; try discriminate; [reflexivity|].
  assert (P1 : place q = place p) by (cbn in E; congruence). assert (P2 : map place h1 = map place h) by (cbn in E; congruence).
  cbn [existsb]. rewrite (aimed_place gw _ _ q p P1), (IH _ P2). reflexivity.
Qed.

Lemma does_heard gw h c h' obs res evs : does gw h c h' obs res evs ->
  (res = Ok tt /\ heard gw h c = true) \/ (exists e, res = Err e /\ heard gw h c = false).
Proof. destruct 1; match goal with S : stands_for _ _ |- _ => rewrite (heard_order gw h _ _ S) in * end; eauto. Qed.

Lemma answer_cut gw h body its t : answer (cut_short gw h body) its t = until_unheard gw h (answer body its t).
Proof. destruct t as (f & [|[] args]); try reflexivity. cbn [answer]. match goal with |- context[nth_error its ?i] => destruct (nth_error its i) end; reflexivity. Qed.

Lemma answers_cut gw h v r body acts n : answers_of v r (cut_short gw h body) acts n = until_unheard gw h (answers_of v r body acts n).
Proof. unfold answers_of. destruct (nth_error _ n); [apply answer_cut|reflexivity]. Qed.

(** The world in which the callbacks stop of themselves. *)
Definition tamed (gw : gateway) (h : house) (w : world) : world :=
  with_lock w (w_locked w) (w_waiters w) (w_ready w) (match w_inside w with Calling n cs => Calling n (until_unheard gw h cs) | i => i end).

Lemma tamed_step gw v r body h w es l w' es' : map place (w_house w) = map place h -> fstep gw v r body w es l (w', es') ->
  wstep gw v r (cut_short gw h body) (tamed gw h w) l (tamed gw h w') /\ map place (w_house w') = map place h /\
  (es = unheard_of gw h (w_by w) -> es' = unheard_of gw h (w_by w')).
Proof.
  intros Pl S. unfold tamed. remember (w', es') as y eqn:Ey.
  destruct S as [c h' obs res evs D|f fs rest E|k whr T|m q E|E|j js E|n c cs h' obs evs E D|n c cs h' obs e evs E D|n E]; injection Ey as <- <-.
  - split; [exact (W_press gw v r (cut_short gw h body) (tamed gw h w) _ _ _ _ _ D)|]. split; [cbn; rewrite (does_places _ _ _ _ _ _ _ D); exact Pl|].
    intros ->. cbn. unfold unheard_of. rewrite map_app, concat_app. cbn. rewrite app_nil_r. reflexivity.
  - split; [exact (W_packet gw v r (cut_short gw h body) (tamed gw h w) _ _ _ E)|]. split; [exact Pl|auto].
  - split; [exact (W_lookup gw v r (cut_short gw h body) (tamed gw h w) _ _ T)|]. split; [exact Pl|auto].
  - split; [exact (W_wake gw v r (cut_short gw h body) (tamed gw h w) _ _ E)|]. split; [exact Pl|auto].
  - split; [exact (W_idle gw v r (cut_short gw h body) (tamed gw h w) E)|]. split; [exact Pl|auto].
  - split.
    + pose proof (W_run gw v r (cut_short gw h body) (tamed gw h w) _ _ E) as X.
      destruct j as [n|n|n]; cbn [run_job] in *.
      * cbn [tamed with_lock w_locked w_waiters] in X. destruct (_ && _); cbn [with_lock w_inside w_locked w_waiters w_ready] in *; [rewrite answers_cut in X|]; exact X.
      * rewrite answers_cut in X. exact X.
      * exact X.
    + assert (X : w_by (run_job v r body w j js) = w_by w /\ w_house (run_job v r body w j js) = w_house w).
      { destruct j; cbn [run_job]; [destruct (_ && _)| |]; split; reflexivity. }
      destruct X as (-> & ->). auto.
  - destruct (does_heard _ _ _ _ _ _ _ D) as [(_ & Hd)|(e & X & _)]; [|discriminate]. rewrite (heard_places _ _ _ _ Pl) in Hd.
    split.
    + assert (E' : w_inside (tamed gw h w) = Calling n (c :: until_unheard gw h cs)) by (cbn; rewrite E; cbn; rewrite Hd; reflexivity).
      exact (W_serve gw v r (cut_short gw h body) (tamed gw h w) _ _ _ _ _ _ _ E' D).
    + split; [cbn; rewrite (does_places _ _ _ _ _ _ _ D); exact Pl|]. intros ->. cbn. unfold unheard_of. rewrite map_app, concat_app. cbn. rewrite Hd, app_nil_r. reflexivity.
  - destruct (does_heard _ _ _ _ _ _ _ D) as [(X & _)|(e' & _ & Hd)]; [discriminate|]. rewrite (heard_places _ _ _ _ Pl) in Hd.
    split.
    + assert (E' : w_inside (tamed gw h w) = Calling n [c]) by (cbn; rewrite E; cbn; rewrite Hd; reflexivity).
      exact (W_serve gw v r (cut_short gw h body) (tamed gw h w) _ _ _ _ _ _ _ E' D).
    + split; [cbn; rewrite (does_places _ _ _ _ _ _ _ D); exact Pl|]. intros ->. cbn. unfold unheard_of. rewrite map_app, concat_app. cbn. rewrite Hd. reflexivity.
  - split.
    + assert (E' : w_inside (tamed gw h w) = Calling n []) by (cbn; rewrite E; reflexivity).
      exact (W_finish gw v r (cut_short gw h body) (tamed gw h w) _ E').
    + split; [exact Pl|auto].
Qed.

Lemma tamed_act gw v r body h w es w1 : map place (w_house w) = map place h ->
  wstep gw v r (cut_short gw h body) (tamed gw h w) Act w1 -> exists y, fstep gw v r body w es Act y.
Proof.
  intros Pl S. inversion S as [|f fs rest E| |m q E| |j js E|n c cs h' obs res evs E D|n E]; subst.
  - eexists. eapply F_packet, E.
  - eexists. eapply F_wake, E.
  - eexists. eapply F_run, E.
  - cbn in E. destruct (w_inside w) as [|n' cs'|] eqn:Ei; try discriminate. destruct cs' as [|c' cs']; [discriminate|]. cbn in E. injection E as <- <- _.
    cbn in D. destruct (does_heard _ _ _ _ _ _ _ D) as [(-> & _)|(e & -> & _)]; eexists; [eapply F_served|eapply F_failed]; eassumption.
  - cbn in E. destruct (w_inside w) as [|n' cs'|] eqn:Ei; try discriminate. destruct cs' as [|c' cs']; [|discriminate].
    eexists. eapply F_finish. exact Ei.
Qed.

Theorem tamed_runs gw v r body h ls w es : fruns gw v r body (quiet_house h, []) ls (w, es) ->
  wruns gw v r (cut_short gw h body) (quiet_house h) ls (tamed gw h w) /\ map place (w_house w) = map place h /\ es = unheard_of gw h (w_by w).
Proof.
  intros R. remember (w, es) as y eqn:Ey. revert w es Ey. induction R as [|ls l w1 es1 y R IH S]; intros w es Ey.
  - injection Ey as <- <-. split; [apply WR_nil|]. split; reflexivity.
  - subst y. destruct (IH _ _ eq_refl) as (R' & Pl & Es). destruct (tamed_step _ _ _ _ _ _ _ _ _ _ Pl S) as (S' & Pl' & X).
    split; [eapply WR_snoc; eassumption|]. split; [exact Pl'|auto].
Qed.

Lemma tamed_rest gw v r h w : at_rest v r (tamed gw h w) <-> at_rest v r w.
Proof.
  unfold at_rest, tamed. cbn. split; intros (A & B & C & D & E); repeat split; try assumption.
  - destruct (w_inside w); [reflexivity|discriminate|discriminate].
  - rewrite D. reflexivity.
Qed.

Lemma weighs_cut gw h r body wt wc : weighs_events r body wt wc -> weighs_events r (cut_short gw h body) wt wc.
Proof.
  intros W its p ts P N. etransitivity; [|exact (W its p ts P N)]. clear. induction ts as [|t ts IH]; [cbn; lia|].
  cbn [map concat]. rewrite !sum_app, answer_cut. apply Nat.add_le_mono; [|exact IH].
  generalize (answer body its t). intros cs. clear. induction cs as [|c cs IH]; [cbn; lia|]. cbn [until_unheard]. rewrite !sum_cons. destruct (heard gw h c); [lia|].
  cbn. lia.
Qed.

Theorem failing_rests gw v r body h wt wc : gateway_ok gw -> house_ok h -> (v < 13)%N ->
  weighs_calls gw h wt wc -> weighs_events r body wt wc -> (forall f k args, Forall call_ok (body f k args)) ->
  forall ls w es, fruns gw v r body (quiet_house h, []) ls (w, es) -> fsurely gw v r body (fun y => at_rest v r (fst y)) w es.
Proof.
  intros G H Hv C1 C2 Ok ls w es R. apply (weighs_cut gw h) in C2. destruct (tamed_runs _ _ _ _ _ _ _ _ R) as (R' & Pl & _).
  assert (Ok' : forall f k args, Forall call_ok (cut_short gw h body f k args)).
  { intros f k args. unfold cut_short. specialize (Ok f k args). clear - Ok. induction Ok as [|c cs O Os IH]; cbn; constructor; [exact O|]. destruct (heard gw h c); [exact IH|constructor]. }
  pose proof (comes_to_rest gw v r _ h wt wc G H Hv C1 C2 Ok' ls _ R') as Sr. clear R R'.
  remember (tamed gw h w) as w' eqn:Ew. revert w es Ew Pl. induction Sr as [w' X|w' Ex _ IH]; intros w es -> Pl.
  - apply FNow. apply tamed_rest in X. exact X.
  - apply FLater; [destruct Ex as (w1 & S); eapply tamed_act; eassumption|].
    intros w1 es1 S. destruct (tamed_step _ _ _ _ _ _ _ _ _ _ Pl S) as (S' & Pl' & _). eapply IH; [exact S'|reflexivity|exact Pl'].
Qed.

(** ** Which tasks end with an error *)

Lemma until_count gw h cs : length (filter (fun c => negb (heard gw h c)) (until_unheard gw h cs)) = if fails gw h cs then 1 else 0.
Proof. induction cs as [|c cs IH]; [reflexivity|]. cbn [until_unheard filter fails existsb]. destruct (heard gw h c) eqn:E; cbn [negb orb length]; [exact IH|reflexivity]. Qed.

Lemma unheard_count gw h l : length (unheard_of gw h l) = length (filter (fun c => negb (heard gw h c)) (of_callbacks l)).
Proof.
  induction l as [|(o & c) l IH]; [reflexivity|]. unfold unheard_of, of_callbacks in *. cbn [map concat fst snd]. rewrite filter_app, !app_length, IH.
  f_equal. destruct o; [|reflexivity]. cbn. destruct (heard gw h c); reflexivity.
Qed.

Lemma fails_count gw h body its ts : length (filter (fun c => negb (heard gw h c)) (concat (map (answer (cut_short gw h body) its) ts))) =
  length (filter (fun t => fails gw h (answer body its t)) ts).
Proof.
  induction ts as [|t ts IH]; [reflexivity|]. cbn [map concat filter]. rewrite filter_app, app_length, IH, answer_cut, until_count.
  destruct (fails gw h (answer body its t)); reflexivity.
Qed.

Theorem failing_order gw v r body h ls w es : gateway_ok gw -> house_ok h -> (v < 13)%N -> fruns gw v r body (quiet_house h, []) ls (w, es) ->
  exists log pre post tss m, let st := listener v r (w_acts w) in let answers := map (fun t => until_unheard gw h (answer body (st_items st) t)) (st_started st) in
    story gw h (map snd (w_by w)) log (w_evs w) (w_house w) /\ of_others (w_by w) = pressed ls /\
    w_evs w = pre ++ post /\ st_started st = concat tss /\ Forall2 (noticed (st_items st) r) pre tss /\
    of_callbacks (w_by w) = firstn m (concat answers) /\ es = unheard_of gw h (w_by w) /\
    (at_rest v r w -> post = [] /\ of_callbacks (w_by w) = concat answers /\
       length es = length (filter (fun t => fails gw h (answer body (st_items st) t)) (st_started st))).
Proof.
  intros G H Hv R. destruct (tamed_runs _ _ _ _ _ _ _ _ R) as (R' & _ & Es).
  destruct (ordered _ _ _ _ _ _ _ G H Hv R') as (log & pre & post & tss & m & S & O & E & T & F & C & Re).
  cbn [tamed with_lock w_by w_evs w_house w_acts] in *.
  exists log, pre, post, tss, m. cbn zeta.
  assert (X : map (answer (cut_short gw h body) (st_items (listener v r (w_acts w)))) (st_started (listener v r (w_acts w))) =
    map (fun t => until_unheard gw h (answer body (st_items (listener v r (w_acts w))) t)) (st_started (listener v r (w_acts w)))).
  { apply map_ext. intros t. apply answer_cut. }
  rewrite <- X. repeat (split; [assumption|]). intros Ar. apply (tamed_rest gw v r h w) in Ar. destruct (Re Ar) as (Pn & Cn).
  split; [exact Pn|]. split; [exact Cn|]. rewrite Es, unheard_count, Cn. apply fails_count.
Qed.

Theorem failing_bounded gw v r body h ls w es wt wc : gateway_ok gw -> house_ok h -> (v < 13)%N -> fruns gw v r body (quiet_house h, []) ls (w, es) ->
  weighs_calls gw h wt wc -> weighs_events r body wt wc -> length (w_by w) <= sum wc (pressed ls).
Proof.
  intros G H Hv R C1 C2. destruct (tamed_runs _ _ _ _ _ _ _ _ R) as (R' & _ & _).
  exact (bounded _ _ _ _ _ _ _ _ _ G H Hv R' C1 (weighs_cut gw h _ _ _ _ C2)).
Qed.

Lemma fruns_cons gw v r body w es l w1 es1 ls y : fstep gw v r body w es l (w1, es1) -> fruns gw v r body (w1, es1) ls y -> fruns gw v r body (w, es) (l :: ls) y.
Proof.
  intros S R. induction R as [|ls l' a b z R IH S']; [exact (FR_snoc _ _ _ _ _ [] _ _ _ _ (FR_nil _ _ _ _ _) S)|].
  exact (FR_snoc _ _ _ _ _ (l :: ls) _ _ _ _ IH S').
Qed.
