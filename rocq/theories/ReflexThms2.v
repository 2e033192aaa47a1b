(** * Callbacks that send commands: order, bounds, rest *)
From Coq Require Import String List NArith ZArith Bool Lia PeanoNat.
From Verif Require Import PyStr Tags Messages SpecMsg SpecTag SpecProto MessageThms3 Protocol IO Client SpecItem Items Lighting SpecLight ItemThms LightThms2
  SpecHouse HouseThms HouseThms2 Dispatch SpecDispatch DispatchThms DispatchThms2 DispatchThms3 SpecNotice NoticeThms SpecMirror MirrorThms Reflex SpecReflex ReflexThms.
Import ListNotations.
Open Scope nat_scope.
Open Scope list_scope.

Lemma nth_seq {A B} (f : A -> list B) : forall l, map (fun n => match nth_error l n with Some t => f t | None => [] end) (seq 0 (length l)) = map f l.
Proof.
  induction l as [|x l IH]; [reflexivity|]. cbn [length seq map nth_error]. f_equal. rewrite <- IH, <- seq_shift, map_map. reflexivity.
Qed.
Lemma answers_all v r body acts : concat (map (answers_of v r body acts) (seq 0 (length (st_started (listener v r acts))))) =
  concat (map (answer body (st_items (listener v r acts))) (st_started (listener v r acts))).
Proof. f_equal. unfold answers_of. apply nth_seq. Qed.

Lemma prefix_firstn {A} (a b l : list A) : l = a ++ b -> a = firstn (length a) l.
Proof. intros ->. rewrite firstn_app, Nat.sub_diag, firstn_all. cbn. symmetry. apply app_nil_r. Qed.

Lemma queue_prefix v r body w : queue_up (answers_of v r body (w_acts w)) (length (st_started (listener v r (w_acts w)))) w ->
  exists rest, concat (map (answer body (st_items (listener v r (w_acts w)))) (st_started (listener v r (w_acts w)))) = of_callbacks (w_by w) ++ rest /\
    (w_inside w = Nobody -> w_ready w = [] -> rest = []).
Proof.
  intros (k & Q & I). rewrite <- answers_all, Q, map_app, concat_app. set (todo := answers_of v r body (w_acts w)) in *.
  destruct (w_inside w) as [|n cs|n].
  - destruct I as (_ & Wk & _ & <-). eexists. split; [reflexivity|]. intros _ Er. rewrite Er in *. cbn in *.
    destruct (w_waiters w); [reflexivity|discriminate].
  - destruct I as (_ & _ & _ & _ & <-). rewrite <- app_assoc. eexists. split; [reflexivity|discriminate].
  - destruct I as (_ & _ & _ & _ & <-). eexists. split; [reflexivity|discriminate].
Qed.

Theorem ordered gw v r body h ls w : gateway_ok gw -> house_ok h -> (v < 13)%N -> wruns gw v r body (quiet_house h) ls w ->
  exists log pre post tss m, let st := listener v r (w_acts w) in
    story gw h (map snd (w_by w)) log (w_evs w) (w_house w) /\ of_others (w_by w) = pressed ls /\
    w_evs w = pre ++ post /\ st_started st = concat tss /\ Forall2 (noticed (st_items st) r) pre tss /\
    of_callbacks (w_by w) = firstn m (concat (map (answer body (st_items st)) (st_started st))) /\
    (at_rest v r w -> post = [] /\ of_callbacks (w_by w) = concat (map (answer body (st_items st)) (st_started st))).
Proof.
  intros G H Hv R. pose proof (sound_runs _ _ _ _ _ _ _ G H Hv R) as S.
  destruct (sound_listening _ _ _ _ _ _ _ G H Hv S) as (p1 & p2 & p3 & tss & E & Ew & _ & Es & Eq & F). cbv zeta in *.
  destruct S as ((log & S) & _ & O & Q). destruct (queue_prefix _ _ _ _ Q) as (rest & C & Z).
  exists log, (map frame_state p1), (map frame_state p2 ++ w_wire w), tss, (length (of_callbacks (w_by w))). cbv zeta.
  split; [exact S|]. split; [exact O|]. split; [rewrite E, map_app, <- app_assoc; reflexivity|]. split; [exact Es|]. split; [exact F|].
  split; [eapply prefix_firstn, C|]. intros (A1 & A2 & A3 & A4 & _). rewrite A1. rewrite A2 in Eq. destruct p2; [|discriminate]. split; [reflexivity|].
  rewrite C, (Z A4 A3), app_nil_r. reflexivity.
Qed.

(** ** Bounds *)

Lemma sum_app {A} (f : A -> nat) a b : sum f (a ++ b) = sum f a + sum f b.
Proof. unfold sum. rewrite map_app. apply list_sum_app. Qed.
Lemma sum_cons {A} (f : A -> nat) x l : sum f (x :: l) = f x + sum f l.
Proof. reflexivity. Qed.
Lemma sum_firstn {A} (f : A -> nat) n l : sum f (firstn n l) <= sum f l.
Proof. rewrite <- (firstn_skipn n l) at 2. rewrite sum_app. lia. Qed.
Lemma sum_by f l : sum f (map snd l) = sum f (of_others l) + sum f (of_callbacks l).
Proof.
  induction l as [|[o c] l IH]; [reflexivity|]. cbn [map]. rewrite sum_cons. cbn [snd].
  unfold of_others, of_callbacks in *. cbn [map concat fst snd]. rewrite !sum_app, IH.
  destruct o; cbn [sum map list_sum fold_right app]; unfold sum; cbn; lia.
Qed.

Lemma does_places gw h c h' obs res evs : does gw h c h' obs res evs -> map place h' = map place h.
Proof.
  intros D. destruct (does_step _ _ _ _ _ _ _ D) as (o & _ & ->). rewrite map_map. apply map_ext. intros p. apply step_place.
Qed.

Lemma story_weight gw wt wc h0 : gateway_ok gw -> weighs_calls gw h0 wt wc ->
  forall h cs log evs h', story gw h cs log evs h' -> house_ok h -> map place h = map place h0 ->
  forall ps, evs = map frame_state ps -> Forall point_ok ps -> length cs + sum (fun p => wt (place p)) ps <= sum wc cs.
Proof.
  intros G C h cs log evs h' S. induction S as [h|h c cs h1 obs r evs log evs' h' D S IH]; intros H Pl ps E F.
  - destruct ps; [cbn; lia|discriminate].
  - symmetry in E. apply map_eq_app in E as (p1 & p2 & -> & E1 & E2). apply Forall_app in F as (F1 & F2). subst evs evs'.
    pose proof (C _ _ _ _ _ _ H Pl D F1). rewrite <- (does_places _ _ _ _ _ _ _ D) in Pl. specialize (IH (does_ok _ _ _ _ _ _ _ G H D) Pl _ eq_refl F2).
    rewrite sum_app, sum_cons. cbn [length]. lia.
Qed.

Lemma noticed_weight r its wt wc body : weighs_events r body wt wc ->
  forall ps tss, Forall point_ok ps -> Forall2 (noticed its r) (map frame_state ps) tss ->
  sum wc (concat (map (answer body its) (concat tss))) <= sum (fun p => wt (place p)) ps.
Proof.
  intros C ps. induction ps as [|p ps IH]; intros tss P F; inversion F as [|x ts l t3 N F3]; subst; [cbn; lia|]. inversion P; subst.
  cbn [concat]. rewrite map_app, concat_app, sum_app, sum_cons. specialize (C _ _ _ ltac:(eassumption) N). specialize (IH _ ltac:(assumption) F3). lia.
Qed.

Theorem bounded gw v r body h ls w wt wc : gateway_ok gw -> house_ok h -> (v < 13)%N -> wruns gw v r body (quiet_house h) ls w ->
  weighs_calls gw h wt wc -> weighs_events r body wt wc -> length (w_by w) <= sum wc (pressed ls).
Proof.
  intros G H Hv R C1 C2. destruct (ordered _ _ _ _ _ _ _ G H Hv R) as (log & pre & post & tss & m & S & O & E & Es & F & Cb & _). cbv zeta in *.
  destruct (story_events _ _ _ _ _ _ S G H) as (ps & Sp & Ep). assert (Fp : Forall point_ok ps) by (eapply Forall_impl; [|exact Sp]; intros p (X & _); exact X).
  pose proof (story_weight gw wt wc h G C1 _ _ _ _ _ S H eq_refl _ Ep Fp) as A. rewrite map_length, sum_by, O, Cb in A.
  rewrite E in Ep. symmetry in Ep. apply map_eq_app in Ep as (p1 & p2 & -> & E1 & E2). subst pre. apply Forall_app in Fp as (F1 & F2).
  pose proof (noticed_weight r _ wt wc body C2 _ _ F1 F) as B. rewrite <- Es in B.
  pose proof (sum_firstn wc m (concat (map (answer body (st_items (listener v r (w_acts w)))) (st_started (listener v r (w_acts w)))))).
  rewrite sum_app in A. lia.
Qed.

(** ** Rest *)

Lemma woken_queue gw v r body h ls w : gateway_ok gw -> house_ok h -> (v < 13)%N -> sound_world gw v r body h ls w ->
  st_queue (listener v r (w_acts w ++ [Wake])) = [].
Proof.
  intros G H Hv ((log & S) & (fs & E & D) & _). destruct (story_events _ _ _ _ _ _ S G H) as (ps & F & Ep).
  rewrite E in Ep. symmetry in Ep. apply map_eq_app in Ep as (pa & pb & -> & <- & _). apply Forall_app in F as (Fa & _).
  destruct (events_noticed v r _ pa Hv Fa D) as (its & tss & _ & _ & _ & _ & X & _). exact X.
Qed.

Lemma story_house gw h cs log evs h' : story gw h cs log evs h' -> gateway_ok gw -> house_ok h -> house_ok h'.
Proof. induction 1 as [h|h c cs h1 obs r evs log evs' h' D S IH]; intros G H; [exact H|]. apply IH; [exact G|]. eapply does_ok; eassumption. Qed.

Lemma call_does gw h c : gateway_ok gw -> house_ok h -> call_ok c -> exists h' obs res evs, does gw h c h' obs res evs.
Proof.
  intros G H C. destruct (session_exists gw G [c] h H) as (ms & log & evs & h' & S); [constructor; [exact C|constructor]|].
  destruct (session_story _ _ _ _ _ _ _ _ _ S G H ltac:(constructor; [exact C|constructor]) eq_refl) as (St & _ & _).
  inversion St; subst. do 4 eexists. eassumption.
Qed.

Theorem progress gw v r body h ls w : gateway_ok gw -> house_ok h -> (v < 13)%N -> wruns gw v r body (quiet_house h) ls w ->
  (forall f k args, Forall call_ok (body f k args)) ->
  at_rest v r w \/ exists w', wstep gw v r body w Act w'.
Proof.
  intros G H Hv R Ok. pose proof (sound_runs _ _ _ _ _ _ _ G H Hv R) as ((log & S) & _ & _ & (k & Q & I)).
  destruct (w_ready w) as [|j js] eqn:Er; [|right; eexists; eapply W_run, Er].
  destruct (w_inside w) as [|n cs|n] eqn:Ei.
  - destruct I as (_ & Wk & _ & _). destruct (w_waiters w) eqn:Ew; [|discriminate].
    destruct (st_queue (listener v r (w_acts w))) as [|m q] eqn:Eq; [|right; eexists; eapply W_wake, Eq].
    destruct (w_wire w) as [|f fs] eqn:Ewi; [left; repeat split; assumption|]. right. eexists. eapply (W_packet _ _ _ _ _ f fs []). rewrite app_nil_r. exact Ewi.
  - destruct cs as [|c cs]; [right; eexists; eapply W_finish, Ei|].
    destruct I as (_ & _ & _ & _ & C).
    assert (Oc : call_ok c).
    { assert (A : Forall call_ok (concat (map (answers_of v r body (w_acts w)) (seq 0 k)))).
      { apply Forall_concat, Forall_map, Forall_forall. intros x _. unfold answers_of, answer. destruct (nth_error _ x) as [(f & [|[] args])|]; try constructor.
        destruct (nth_error _ n0); [apply Ok|constructor]. }
      rewrite <- C in A. apply Forall_app in A as (_ & A). inversion A. assumption. }
    destruct (call_does gw (w_house w) c G (story_house _ _ _ _ _ _ S G H) Oc) as (h' & obs & res & evs & D).
    right. eexists. eapply W_serve; eassumption.
  - destruct I as (_ & _ & X & _). discriminate X.
Qed.

(** The jobs that the tasks still make. *)
Definition jobs (w : world) : nat := 5 * length (begins (w_ready w)) + 4 * length (w_waiters w) + length (wokens (w_ready w)) +
  match w_inside w with Nobody => 0 | Calling _ _ => 3 | Finishing _ => 2 end.

Lemma run_jobs v r body w j js todo n0 : w_ready w = j :: js -> queue_up todo n0 w -> jobs (run_job v r body w j js) < jobs w.
Proof.
  intros E (k & Q & I). unfold jobs. rewrite E in *. destruct j as [n|n|n]; cbn [run_job].
  - change (begins (Begin n :: js)) with (n :: begins js). change (wokens (Begin n :: js)) with (wokens js) in *. change (resumes (Begin n :: js)) with (resumes js) in *.
    destruct (negb (w_locked w) && _) eqn:B; cbn [with_lock w_ready w_waiters w_inside length].
    + apply andb_true_iff in B as (B1 & _). apply negb_true_iff in B1. destruct (w_inside w) as [|m cs|m]; try (destruct I as (X & _); congruence). lia.
    + rewrite app_length. cbn [length]. lia.
  - change (begins (Woken n :: js)) with (begins js) in *. change (wokens (Woken n :: js)) with (n :: wokens js) in *.
    destruct (w_inside w) as [|m cs|m]; try (destruct I as (_ & X & _); discriminate X). destruct I as (L & Wk & Rs & C).
    destruct (w_waiters w) as [|x l] eqn:Ew; [discriminate|]. cbn in Wk. injection Wk as <- Wk.
    cbn [with_lock w_ready w_waiters w_inside]. rewrite remove_first by (eapply seq_nodup, Q). cbn [length]. lia.
  - change (begins (Resume n :: js)) with (begins js) in *. change (wokens (Resume n :: js)) with (wokens js) in *. change (resumes (Resume n :: js)) with (n :: resumes js) in *.
    destruct (w_inside w) as [|m cs|m]; try (destruct I as (_ & _ & X & _); discriminate X).
    cbn [with_lock w_ready w_waiters w_inside]. rewrite begins_app, wokens_app, !app_length. destruct (w_waiters w); cbn; lia.
Qed.

Theorem ends gw v r body h wt wc : gateway_ok gw -> house_ok h -> (v < 13)%N ->
  weighs_calls gw h wt wc -> weighs_events r body wt wc ->
  forall ls w, wruns gw v r body (quiet_house h) ls w -> Acc (fun b a => wstep gw v r body a Act b) w.
Proof.
  intros G H Hv C1 C2.
  assert (M : forall p a b c ls w, wruns gw v r body (quiet_house h) ls w -> sum wc (pressed ls) - length (w_by w) = p -> length (w_wire w) = a ->
    length (st_queue (listener v r (w_acts w))) = b -> jobs w = c -> Acc (fun b a => wstep gw v r body a Act b) w).
  { induction p as [p IHp] using (well_founded_induction Nat.lt_wf_0).
    induction a as [a IHa] using (well_founded_induction Nat.lt_wf_0).
    induction b as [b IHb] using (well_founded_induction Nat.lt_wf_0).
    induction c as [c IHc] using (well_founded_induction Nat.lt_wf_0).
    intros ls w R Ep Ea Eb Ec. constructor. intros w' St.
    pose proof (sound_runs _ _ _ _ _ _ _ G H Hv R) as Sw. pose proof Sw as (_ & _ & _ & Q).
    pose proof (WR_snoc _ _ _ _ _ _ _ _ _ R St) as R'.
    assert (P' : sum wc (pressed (ls ++ [Act])) = sum wc (pressed ls)) by (rewrite pressed_app; cbn; rewrite app_nil_r; reflexivity).
    inversion St as [|f fs rest Ew| |m q Eq| |j js Er|n x cs h' obs res evs Ei Do|n Ei]; subst.
    - eapply (IHa (length rest)); [rewrite Ew, app_length; cbn; lia|exact R'|rewrite P'; reflexivity|reflexivity|reflexivity|reflexivity].
    - eapply (IHb 0); [rewrite Eq; cbn; lia|exact R'|rewrite P'; reflexivity|reflexivity| |reflexivity].
      cbn [with_acts w_acts]. rewrite (woken_queue _ _ _ _ _ _ _ G H Hv Sw). reflexivity.
    - assert (X : w_by (run_job v r body w j js) = w_by w /\ w_wire (run_job v r body w j js) = w_wire w /\ w_acts (run_job v r body w j js) = w_acts w).
      { destruct j; cbn [run_job]; [destruct (_ && _)| |]; repeat split. }
      destruct X as (X1 & X2 & X3). eapply (IHc _); [eapply run_jobs; eassumption|exact R'|rewrite P', X1; reflexivity|rewrite X2; reflexivity|rewrite X3; reflexivity|reflexivity].
    - pose proof (bounded gw v r body h _ _ wt wc G H Hv R' C1 C2) as B. rewrite P' in B. cbn [with_call w_by] in B. rewrite app_length in B. cbn [length] in B.
      eapply (IHp _); [|exact R'|reflexivity|reflexivity|reflexivity|reflexivity]. rewrite P'. cbn [with_call w_by]. rewrite app_length. cbn [length]. lia.
    - eapply (IHc _); [|exact R'|rewrite P'; reflexivity|reflexivity|reflexivity|reflexivity].
      unfold jobs. cbn [with_lock w_ready w_waiters w_inside]. rewrite Ei, begins_app, wokens_app. cbn [begins wokens map concat]. rewrite !app_length. cbn [length]. lia. }
  intros ls w R. eapply M; [exact R|reflexivity|reflexivity|reflexivity|reflexivity].
Qed.
