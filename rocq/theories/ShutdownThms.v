(** * The end of the program: proofs *)
From Coq Require Import String List NArith ZArith Bool Lia.
From Verif Require Import PyStr Tags Messages SpecMsg SpecTag MessageThms MessageThms2 Protocol Queue QueueThms IO Client Items Dispatch SpecDispatch DispatchThms DispatchThms2 Tasks SpecTasks TasksThms Shutdown SpecShutdown.
Import ListNotations.
Open Scope N_scope.
Open Scope list_scope.

Lemma nth_each {A B} (f : nat -> A -> B) l : forall n g, nth_error (each f n l) g = option_map (f (n + g)%nat) (nth_error l g).
Proof.
  induction l as [|x l IH]; intros n [|g]; cbn [each nth_error option_map]; try reflexivity.
  - rewrite Nat.add_0_r. reflexivity.
  - rewrite IH. f_equal. f_equal. lia.
Qed.
Lemma each_length {A B} (f : nat -> A -> B) l : forall n, length (each f n l) = length l.
Proof. induction l as [|x l IH]; intros n; cbn; [reflexivity|]. rewrite IH. reflexivity. Qed.

(** ** The history as the dispatcher sees it *)

Lemma begun_add w b g g' : begun {| p_world := w; p_begun := b ++ [g] |} g' = begun {| p_world := w; p_begun := b |} g' || Nat.eqb g' g.
Proof. unfold begun. cbn [p_begun]. rewrite existsb_app. cbn. rewrite orb_false_r. reflexivity. Qed.

Lemma prun_thin v acts : forall p, exists bs, thinned bs (bare acts) /\ p_world (prun v p acts) = trun v (p_world p) bs.
Proof.
  induction acts as [|a acts IH]; intros p; [exists []; split; [constructor|reflexivity]|].
  change (prun v p (a :: acts)) with (prun v (pstep v p a) acts). destruct (IH (pstep v p a)) as (bs & T & E). rewrite E. clear E IH.
  destruct a as [r it m|g|g i o|g]; cbn [pstep bare].
  - exists (Event r it m :: bs). split; [constructor; exact T|reflexivity].
  - exists bs. split; [exact T|]. destruct (_ && _); reflexivity.
  - destruct (begun p g); [exists (Finish g i o :: bs); split; [constructor; exact T|reflexivity]|exists bs; split; [constructor; exact T|reflexivity]].
  - destruct (begun p g); [exists (Check g :: bs); split; [constructor; exact T|reflexivity]|exists bs; split; [constructor; exact T|reflexivity]].
Qed.

Theorem same_world v acts : exists bs, thinned bs (bare acts) /\ p_world (prun v launched acts) = trun v nothing bs.
Proof. exact (prun_thin v acts launched). Qed.

Lemma thinned_events l l' : thinned l l' -> events l = events l'.
Proof. induction 1 as [|a l l' _ IH|g i o l l' _ IH|g l l' _ IH]; cbn; [reflexivity| |exact IH|exact IH]. destruct a; rewrite ?IH; reflexivity. Qed.

Lemma program_honest v acts : honest (p_world (prun v launched acts)).
Proof. destruct (same_world v acts) as (bs & _ & ->). apply run_honest, nothing_honest. Qed.

(** ** What has not begun is as it was made *)

Definition untouched (p : program) : Prop :=
  (forall g, begun p g = true -> (g < length (w_groups (p_world p)))%nat) /\
  (forall g gr, nth_error (w_groups (p_world p)) g = Some gr -> begun p g = false -> Forall (fun x => snd x = None) (g_tasks gr) /\ g_watch gr <> Over).

Lemma tstep_length v w a : (length (w_groups w) <= length (w_groups (tstep v w a)))%nat.
Proof.
  destruct a as [r it m|g i o|g]; cbn [tstep].
  - cbn [w_groups]. rewrite app_length. lia.
  - destruct (nth_error _ g); cbn [w_groups]; [rewrite setnth_length|]; lia.
  - destruct (nth_error _ g) as [gr|]; [|lia]. destruct (g_watch gr); try lia. destruct (all_done _); cbn [w_groups]; [rewrite setnth_length|]; lia.
Qed.

(** A step about one group leaves the others. *)
Lemma tstep_other v w a g g' : (exists i o, a = Finish g i o) \/ a = Check g -> g <> g' ->
  nth_error (w_groups (tstep v w a)) g' = nth_error (w_groups w) g'.
Proof.
  intros [(i & o & ->)| ->] N; cbn [tstep].
  - destruct (nth_error (w_groups w) g); [|reflexivity]. cbn [w_groups]. apply setnth_other, N.
  - destruct (nth_error (w_groups w) g) as [gr|]; [|reflexivity]. destruct (g_watch gr); try reflexivity. destruct (all_done _); [|reflexivity].
    cbn [w_groups]. apply setnth_other, N.
Qed.

Lemma step_untouched v p a : untouched p -> untouched (pstep v p a).
Proof.
  intros (H1 & H2). destruct a as [r it m|g|g i o|g]; cbn [pstep].
  - split; cbn [p_world].
    + intros g B. specialize (H1 g B). pose proof (tstep_length v (p_world p) (Event r it m)). lia.
    + intros g gr G B. cbn [tstep w_groups] in G. change (begun _ g) with (begun p g) in B.
      destruct (Nat.ltb_spec g (length (w_groups (p_world p)))) as [L|L].
      * rewrite nth_error_app1 in G by exact L. exact (H2 g gr G B).
      * rewrite nth_error_app2 in G by exact L. apply nth_error_In, in_map_iff in G as (q & <- & _). unfold spawn. cbn. split.
        -- apply Forall_forall. intros x Hx. apply in_map_iff in Hx as (t & <- & _). reflexivity.
        -- destruct (snd q); discriminate.
  - destruct ((g <? length (w_groups (p_world p)))%nat && negb (begun p g)) eqn:E; [|split; assumption].
    apply andb_true_iff in E as (E & _). apply Nat.ltb_lt in E. split; cbn [p_world].
    + intros g' B. rewrite begun_add in B. apply orb_true_iff in B as [B|B]; [exact (H1 g' B)|]. apply Nat.eqb_eq in B as ->. exact E.
    + intros g' gr G B. rewrite begun_add in B. apply orb_false_iff in B as (B & _). exact (H2 g' gr G B).
  - destruct (begun p g) eqn:E; [|split; assumption]. split; cbn [p_world].
    + intros g' B. specialize (H1 g' B). pose proof (tstep_length v (p_world p) (Finish g i o)). lia.
    + intros g' gr G B. change (begun _ g') with (begun p g') in B. assert (N : g <> g') by (intros ->; congruence).
      rewrite (tstep_other v (p_world p) (Finish g i o) g g') in G; [exact (H2 g' gr G B)|eauto|exact N].
  - destruct (begun p g) eqn:E; [|split; assumption]. split; cbn [p_world].
    + intros g' B. specialize (H1 g' B). pose proof (tstep_length v (p_world p) (Check g)). lia.
    + intros g' gr G B. change (begun _ g') with (begun p g') in B. assert (N : g <> g') by (intros ->; congruence).
      rewrite (tstep_other v (p_world p) (Check g) g g') in G; [exact (H2 g' gr G B)|auto|exact N].
Qed.
Lemma run_untouched v acts : untouched (prun v launched acts).
Proof.
  assert (H : forall p, untouched p -> untouched (prun v p acts)).
  { induction acts as [|a acts IH]; intros p H; [exact H|]. apply IH, step_untouched, H. }
  apply H. split; [intros g B; discriminate B|intros [|g] gr G; discriminate G].
Qed.

(** ** The calls at the end *)

Lemma stopped_fst rx b g l : forall i, map fst (stopped rx b g i l) = map fst l.
Proof. induction l as [|[t [o|]] l IH]; intros i; cbn; [reflexivity|f_equal; apply IH|f_equal; apply IH]. Qed.

Lemma stopped_nth rx b g l : forall i j, nth_error (stopped rx b g i l) j =
  option_map (fun x => (fst x, match snd x with Some o => o | None => if b then rx g (i + j)%nat else Cancelled end)) (nth_error l j).
Proof.
  induction l as [|[t [o|]] l IH]; intros i [|j]; cbn [stopped nth_error option_map fst snd]; try reflexivity; rewrite ?Nat.add_0_r, ?IH; try reflexivity;
    (destruct (nth_error l j) as [[t' [o'|]]|]; cbn; try reflexivity; replace (i + S j)%nat with (S (i + j)) by lia; reflexivity).
Qed.

Lemma shut_calls rx p g gr : nth_error (w_groups (p_world p)) g = Some gr ->
  nth_error (f_calls (shut_down rx p)) g = Some (stopped rx (begun p g) g 0 (g_tasks gr)).
Proof. intros G. unfold shut_down. cbn [f_calls]. rewrite nth_each, G. reflexivity. Qed.
Lemma shut_handled rx p g gr : nth_error (w_groups (p_world p)) g = Some gr ->
  nth g (f_handled (shut_down rx p)) [] = handled rx (begun p g) (g_watch gr) g 0 (g_tasks gr).
Proof. intros G. apply nth_error_nth. unfold shut_down. cbn [f_handled]. rewrite nth_each, G. reflexivity. Qed.

Theorem all_end v acts rx : map (map fst) (f_calls (shut_down rx (prun v launched acts))) = made_calls (trun v nothing (events (bare acts))).
Proof.
  destruct (same_world v acts) as (bs & T & E). rewrite <- (thinned_events _ _ T), <- calls_independent, <- E.
  unfold shut_down, made_calls. cbn [f_calls]. set (p := prun v launched acts).
  assert (H : forall l n, map (map fst) (each (fun g gr => stopped rx (begun p g) g 0 (g_tasks gr)) n l) = map (fun g => map fst (g_tasks g)) l).
  { induction l as [|gr l IH]; intros n; cbn; [reflexivity|]. rewrite stopped_fst, IH. reflexivity. }
  apply H.
Qed.

Theorem each_ends v acts rx g gr : nth_error (w_groups (p_world (prun v launched acts))) g = Some gr ->
  exists l, nth_error (f_calls (shut_down rx (prun v launched acts))) g = Some l /\ length l = length (g_tasks gr) /\
    forall i t s, nth_error (g_tasks gr) i = Some (t, s) ->
      nth_error l i = Some (t, match s with Some o => o | None => if begun (prun v launched acts) g then rx g i else Cancelled end).
Proof.
  intros G. eexists. split; [apply shut_calls, G|]. split.
  - rewrite <- (map_length fst), stopped_fst, map_length. reflexivity.
  - intros i t s I. rewrite stopped_nth, I. reflexivity.
Qed.

(** ** Errors *)

Lemma errors_fun os : forall xs ys, errors os xs -> errors os ys -> xs = ys.
Proof.
  induction os as [|o os IH]; intros xs ys H1 H2; inversion H1; inversion H2; subst; try discriminate; try reflexivity; try (apply IH; assumption).
  match goal with H : Raised _ = Raised _ |- _ => injection H as -> end. f_equal. apply IH; assumption.
Qed.

(** Without a watcher. *)
Lemma handled_unwatched rx g l : forall i, errors (map snd (stopped rx true g i l)) (handled rx true Unwatched g i l).
Proof.
  induction l as [|[t [[|x|]|]] l IH]; intros i; cbn [stopped handled map snd]; try (constructor; apply IH).
  destruct (rx g i); constructor; apply IH.
Qed.
(** With a watcher that waits. *)
Lemma handled_watching rx g l : forall i, errors (unfinished l (stopped rx true g i l)) (handled rx true Watching g i l).
Proof.
  unfold unfinished. induction l as [|[t [[|x|]|]] l IH]; intros i; cbn [stopped handled map combine filter fst snd]; try apply IH; [constructor|].
  destruct (rx g i); constructor; apply IH.
Qed.
Lemma handled_done rx b wt g l : all_done l = true -> wt <> Unwatched -> forall i, handled rx b wt g i l = [].
Proof.
  intros D W. induction l as [|[t [o|]] l IH]; intros i; cbn [handled all_done] in *; [reflexivity| |discriminate].
  destruct o; try (apply IH, D). destruct wt; try congruence; apply IH, D.
Qed.
Lemma handled_new rx wt g l : Forall (fun x => snd x = None) l -> forall i, handled rx false wt g i l = [].
Proof. induction 1 as [|[t s] l H _ IH]; intros i; cbn; [reflexivity|]. cbn in H. subst s. apply IH. Qed.
Lemma stopped_done rx b g l os : ends l os -> forall i, map snd (stopped rx b g i l) = os.
Proof.
  unfold ends. revert os. induction l as [|[t s] l IH]; intros [|o os] E i; try discriminate E; [reflexivity|].
  cbn in E. injection E as -> E. cbn. f_equal. apply IH, E.
Qed.

Lemma lines_waiting v acts g gr : nth_error (w_groups (p_world (prun v launched acts))) g = Some gr -> g_watch gr <> Over ->
  lines g (w_log (p_world (prun v launched acts))) = [].
Proof. intros G W. pose proof (proj1 (program_honest v acts) g gr G) as T. unfold told in T. destruct (g_watch gr); congruence. Qed.

(** What is reported of a group. *)
Theorem group_reports v acts rx g gr : nth_error (w_groups (p_world (prun v launched acts))) g = Some gr -> let p := prun v launched acts in
  exists l, nth_error (f_calls (shut_down rx p)) g = Some l /\
  (begun p g = false -> reported (shut_down rx p) g = [] /\ Forall (fun x => snd x = Cancelled) l) /\
  (begun p g = true -> g_watch gr <> Watching -> errors_of l (reported (shut_down rx p) g)) /\
  (begun p g = true -> g_watch gr = Watching -> errors (unfinished (g_tasks gr) l) (reported (shut_down rx p) g)).
Proof.
  intros G p. exists (stopped rx (begun p g) g 0 (g_tasks gr)). split; [apply shut_calls, G|]. unfold reported. rewrite (shut_handled rx p g gr G).
  change (f_log (shut_down rx p)) with (w_log (p_world p)). split; [|split].
  - intros B. rewrite B. destruct (run_untouched v acts) as (_ & U). destruct (U g gr G B) as (F & W). rewrite (handled_new _ _ _ _ F).
    unfold p. rewrite (lines_waiting v acts g gr G W). split; [reflexivity|]. clear -F. generalize 0%nat. induction F as [|[t s] l H _ IH]; intros i; cbn; [constructor|].
    cbn in H. subst s. constructor; [reflexivity|apply IH].
  - intros B W. rewrite B. unfold errors_of. destruct (g_watch gr) eqn:Ew; [|congruence|].
    + unfold p. rewrite (lines_waiting v acts g gr G) by congruence. apply handled_unwatched.
    + pose proof (proj1 (program_honest v acts) g gr G) as T. unfold told in T. rewrite Ew in T. destruct T as (os & E & X).
      rewrite (handled_done rx true Over g (g_tasks gr)); [|apply all_done_ends; eauto|discriminate]. rewrite app_nil_r, (stopped_done _ _ _ _ _ E). exact X.
  - intros B W. rewrite B, W. unfold p. rewrite (lines_waiting v acts g gr G) by congruence. apply handled_watching.
Qed.

(** When all errors are reported. *)
Lemma watching_short rx g l : forall i ys, errors (map snd (stopped rx true g i l)) ys ->
  (length (handled rx true Watching g i l) <= length ys)%nat /\
  ((exists t x, In (t, Some (Raised x)) l) -> (length (handled rx true Watching g i l) < length ys)%nat) /\
  (~ (exists t x, In (t, Some (Raised x)) l) -> handled rx true Watching g i l = ys).
Proof.
  induction l as [|[t [[|x|]|]] l IH]; intros i ys E; cbn [stopped map snd handled] in *.
  - inversion E; subst. split; [cbn; lia|]. split; [intros (? & ? & [])|reflexivity].
  - inversion E; subst. destruct (IH (S i) ys H0) as (A & B & C). split; [exact A|]. split.
    + intros (t' & y & [X|I]); [discriminate X|apply B; eauto].
    + intros N. apply C. intros (t' & y & I). apply N. exists t', y. right. exact I.
  - inversion E as [| | |? ? zs H0]; subst. destruct (IH (S i) zs H0) as (A & B & C). split; [cbn; lia|]. split; [intros _; cbn; lia|].
    intros N. exfalso. apply N. exists t, x. left. reflexivity.
  - inversion E; subst. destruct (IH (S i) ys H0) as (A & B & C). split; [exact A|]. split.
    + intros (t' & y & [X|I]); [discriminate X|apply B; eauto].
    + intros N. apply C. intros (t' & y & I). apply N. exists t', y. right. exact I.
  - destruct (rx g i) as [|x|]; inversion E as [| | |? ? zs H0]; subst.
    + destruct (IH (S i) ys H) as (A & B & C). split; [exact A|]. split.
      * intros (t' & y & [X|I]); [discriminate X|apply B; eauto].
      * intros N. apply C. intros (t' & y & I). apply N. exists t', y. right. exact I.
    + destruct (IH (S i) zs H0) as (A & B & C). split; [cbn; lia|]. split.
      * intros (t' & y & [X|I]); [discriminate X|]. assert ((length (handled rx true Watching g (S i) l) < length zs)%nat) by (apply B; eauto). cbn. lia.
      * intros N. f_equal. apply C. intros (t' & y & I). apply N. exists t', y. right. exact I.
    + destruct (IH (S i) ys H) as (A & B & C). split; [exact A|]. split.
      * intros (t' & y & [X|I]); [discriminate X|apply B; eauto].
      * intros N. apply C. intros (t' & y & I). apply N. exists t', y. right. exact I.
Qed.

Lemma errors_total os : exists xs, errors os xs.
Proof. induction os as [|[|x|] os (xs & IH)]; eexists; constructor; eassumption. Qed.

Theorem reported_iff v acts rx g gr l : nth_error (w_groups (p_world (prun v launched acts))) g = Some gr -> let p := prun v launched acts in
  begun p g = true -> nth_error (f_calls (shut_down rx p)) g = Some l ->
  (errors_of l (reported (shut_down rx p) g) <-> ~ (g_watch gr = Watching /\ has_raised gr)).
Proof.
  intros G p B L. destruct (group_reports v acts rx g gr G) as (l' & L' & _ & R2 & R3). fold p in L', R2, R3. assert (l' = l) as -> by congruence.
  assert (D : g_watch gr = Watching \/ g_watch gr <> Watching) by (destruct (g_watch gr); auto; right; discriminate).
  destruct D as [W|W]; [|split; [intros _ (X & _); contradiction|intros _; exact (R2 B W)]].
  assert (El : l = stopped rx true g 0 (g_tasks gr)) by (rewrite (shut_calls rx p g gr G), B in L; congruence). clear L' L R2 R3.
  unfold reported. rewrite (shut_handled rx p g gr G), B, W. change (f_log (shut_down rx p)) with (w_log (p_world p)).
  unfold p. rewrite (lines_waiting v acts g gr G) by congruence. cbn [app]. rewrite El. unfold errors_of.
  destruct (errors_total (map snd (stopped rx true g 0 (g_tasks gr)))) as (ys & Y).
  destruct (watching_short rx g (g_tasks gr) 0%nat ys Y) as (_ & S2 & S3). split.
  - intros E (_ & H). pose proof (errors_fun _ _ _ E Y) as X. specialize (S2 H). rewrite X in S2. lia.
  - intros N. rewrite S3; [exact Y|]. intros H. apply N. split; [reflexivity|exact H].
Qed.

(** Nothing happens at the end of a program in which everything is settled. *)
Theorem all_settled v acts rx : let p := prun v launched acts in
  (forall g gr, nth_error (w_groups (p_world p)) g = Some gr -> begun p g = true /\ settled gr) ->
  forall g gr l, nth_error (w_groups (p_world p)) g = Some gr -> nth_error (f_calls (shut_down rx p)) g = Some l ->
  ends (g_tasks gr) (map snd l) /\ errors_of l (reported (shut_down rx p) g) /\ (forall rx', nth_error (f_calls (shut_down rx' p)) g = Some l).
Proof.
  intros p Q g gr l G L. destruct (Q g gr G) as (B & (os & E) & W). destruct (group_reports v acts rx g gr G) as (l' & L' & _ & R2 & _). fold p in L', R2.
  assert (l' = l) as -> by congruence.
  assert (X : forall rx', nth_error (f_calls (shut_down rx' p)) g = Some l).
  { intros rx'. rewrite (shut_calls rx' p g gr G). rewrite (shut_calls rx p g gr G) in L. rewrite <- L. f_equal. clear -E. unfold ends in E.
    revert os E. generalize 0%nat. induction (g_tasks gr) as [|[t s] k IH]; intros i [|o os] E; try discriminate E; [reflexivity|]. cbn in E. injection E as -> E. cbn. f_equal. eapply IH, E. }
  split; [|split; [exact (R2 B W)|exact X]]. rewrite (shut_calls rx p g gr G) in L. injection L as <-. rewrite (stopped_done _ _ _ _ _ E). exact E.
Qed.

(** ** Every callback of an event raises, and the program ends *)

Lemma prun_app v p a b : prun v p (a ++ b) = prun v (prun v p a) b.
Proof. apply fold_left_app. Qed.

Lemma raise_all v g xs : forall i p done ts wt, nth_error (w_groups (p_world p)) g = Some {| g_tasks := done ++ map (fun t => (t, None)) ts; g_watch := wt |} ->
  begun p g = true -> length done = i -> length ts = length xs ->
  let p' := prun v p (all_raise g i xs) in begun p' g = true /\
  nth_error (w_groups (p_world p')) g = Some {| g_tasks := done ++ map (fun q => (fst q, Some (Raised (snd q)))) (combine ts xs); g_watch := wt |}.
Proof.
  induction xs as [|x xs IH]; intros i p done ts wt G B Li Lt; destruct ts as [|t ts]; try discriminate Lt.
  - split; [exact B|]. cbn. rewrite G. reflexivity.
  - cbn [all_raise]. change (prun v p (?a :: ?l)) with (prun v (pstep v p a) l). cbn [pstep]. rewrite B. cbn [tstep]. rewrite G.
    assert (L : (g < length (w_groups (p_world p)))%nat) by (apply nth_error_Some; congruence).
    set (p1 := {| p_world := _; p_begun := p_begun p |}).
    assert (G1 : nth_error (w_groups (p_world p1)) g = Some {| g_tasks := (done ++ [(t, Some (Raised x))]) ++ map (fun t => (t, None)) ts; g_watch := wt |}).
    { unfold p1. cbn [p_world w_groups]. rewrite setnth_same by exact L. f_equal. cbn [g_tasks g_watch]. f_equal. unfold finish_task.
      rewrite nth_error_app2 by lia. rewrite Li, Nat.sub_diag. cbn [map nth_error]. rewrite <- app_assoc. cbn [app]. rewrite <- Li. clear; induction done as [|d done IHd]; cbn; [reflexivity|f_equal; exact IHd]. }
    destruct (IH (S i) p1 (done ++ [(t, Some (Raised x))]) ts wt G1 B) as (B2 & G2); [rewrite app_length; cbn; lia|cbn in Lt; lia|].
    split; [exact B2|]. rewrite G2, <- app_assoc. reflexivity.
Qed.

Theorem errors_lost v r it m k args acts xs rx : v < 13 -> built m -> reports m k args ->
  (forall f, In f (r k) -> cb_takes f (S (length args)) = true) -> length xs = length (r k) ->
  let g := length (w_groups (p_world (prun v launched acts))) in
  let p := prun v launched (acts ++ PEvent r it m :: PBegin g :: all_raise g 0 xs) in
  nth_error (f_calls (shut_down rx p)) g = Some (map (fun q => ((cb_id (fst q), VItem it :: args), Raised (snd q))) (combine (r k) xs)) /\
  reported (shut_down rx p) g = [].
Proof.
  intros Hv Bm R A Lx g p.
  assert (P : exists gr, nth_error (w_groups (p_world p)) g = Some gr /\ begun p g = true /\ g_watch gr = Watching /\
    g_tasks gr = map (fun q => ((cb_id (fst q), VItem it :: args), Some (Raised (snd q)))) (combine (r k) xs)).
  { unfold p. rewrite prun_app. set (p0 := prun v launched acts) in *. change (prun v p0 (?a :: ?b :: ?l)) with (prun v (pstep v (pstep v p0 a) b) l).
    set (p1 := pstep v p0 (PEvent r it m)).
    assert (G1 : nth_error (w_groups (p_world p1)) g = Some {| g_tasks := [] ++ map (fun t => (t, None)) (map (fun f => (cb_id f, VItem it :: args)) (r k)); g_watch := Watching |}).
    { destruct (same_world v acts) as (bs & _ & E). fold p0 in E. destruct (event_group v r it m k args bs [] Hv Bm R) as (gr & ts & G & M & C & W).
      rewrite trun_app, <- E in G. change (trun v (p_world p0) [Event r it m]) with (p_world p1) in G. fold g in G.
      assert (Ets : ts = map (fun f => (cb_id f, VItem it :: args)) (r k)) by (eapply calls_unique; [exact C|apply calls_all; exact A]).
      assert (N : begun p1 g = false).
      { destruct (begun p1 g) eqn:X; [|reflexivity]. change (begun p1 g) with (begun p0 g) in X. apply (proj1 (run_untouched v acts)) in X. fold p0 in X. unfold g in X. lia. }
      pose proof (step_untouched v p0 (PEvent r it m) (run_untouched v acts)) as (_ & U). fold p1 in U. destruct (U g gr G N) as (F & NO).
      rewrite G. f_equal. destruct gr as [l wt]. cbn [g_tasks g_watch] in *. f_equal.
      - cbn [app]. rewrite <- Ets, <- M. clear -F. induction F as [|[t s] l H _ IH]; cbn; [reflexivity|]. cbn in H. subst s. f_equal. exact IH.
      - destruct wt; [|reflexivity|congruence]. destruct (proj1 W eq_refl) as (f & I & X). rewrite (A f I) in X. discriminate. }
    assert (L : (g < length (w_groups (p_world p1)))%nat) by (apply nth_error_Some; congruence).
    assert (N : begun p1 g = false).
    { destruct (begun p1 g) eqn:X; [|reflexivity]. change (begun p1 g) with (begun p0 g) in X. apply (proj1 (run_untouched v acts)) in X. fold p0 in X. unfold g in X. lia. }
    set (p2 := pstep v p1 (PBegin g)).
    assert (E2 : p2 = {| p_world := p_world p1; p_begun := p_begun p1 ++ [g] |}).
    { unfold p2. cbn [pstep]. apply Nat.ltb_lt in L. rewrite L, N. reflexivity. }
    assert (B2 : begun p2 g = true) by (rewrite E2, begun_add, Nat.eqb_refl; apply orb_true_r).
    assert (G2 : nth_error (w_groups (p_world p2)) g = Some {| g_tasks := [] ++ map (fun t => (t, None)) (map (fun f => (cb_id f, VItem it :: args)) (r k)); g_watch := Watching |}) by (rewrite E2; exact G1).
    destruct (raise_all v g xs 0 p2 [] _ Watching G2 B2 eq_refl) as (B3 & G3); [rewrite map_length; lia|].
    eexists. split; [exact G3|]. split; [exact B3|]. split; [reflexivity|]. cbn [g_tasks app]. clear.
    revert xs. induction (r k) as [|f fs IH]; intros [|x xs]; cbn; [reflexivity|reflexivity|reflexivity|]. f_equal. apply IH. }
  destruct P as (gr & G & B & W & T). split.
  - rewrite (shut_calls rx p g gr G), B, T.
    assert (H : forall (l : list (callback * N)) i, stopped rx true g i (map (fun q => ((cb_id (fst q), VItem it :: args), Some (Raised (snd q)))) l) = map (fun q => ((cb_id (fst q), VItem it :: args), Raised (snd q))) l).
    { induction l as [|q l IH]; intros i; cbn; [reflexivity|]. rewrite IH. reflexivity. }
    rewrite H. reflexivity.
  - destruct (group_reports v (acts ++ PEvent r it m :: PBegin g :: all_raise g 0 xs) rx g gr G) as (l & L & _ & _ & R3). specialize (R3 B W). fold p in L, R3.
    rewrite (shut_calls rx p g gr G), B, T in L. injection L as <-. rewrite T in R3.
    assert (H : forall (l : list (callback * N)) i, unfinished (map (fun q => ((cb_id (fst q), VItem it :: args), Some (Raised (snd q)))) l)
      (stopped rx true g i (map (fun q => ((cb_id (fst q), VItem it :: args), Some (Raised (snd q)))) l)) = []).
    { unfold unfinished. induction l as [|q l IH]; intros i; cbn [map stopped combine filter fst snd]; [reflexivity|]. apply IH. }
    rewrite H in R3. inversion R3; reflexivity.
Qed.
