(** * Proofs about callback tasks *)
From Coq Require Import String List NArith ZArith Bool Lia.
From Verif Require Import PyStr Tags Messages SpecMsg SpecTag Protocol Queue QueueThms IO Client Items Dispatch SpecDispatch
  DispatchThms DispatchThms2 DispatchThms3 Tasks SpecTasks.
Import ListNotations.
Open Scope N_scope.
Open Scope list_scope.

Lemma lines_app g a b : lines g (a ++ b) = lines g a ++ lines g b.
Proof. unfold lines. rewrite filter_app, map_app. reflexivity. Qed.

Lemma lines_own g l os : ends l os -> errors os (lines g (error_lines g l)).
Proof.
  revert os. induction l as [|[t o] l IH]; intros [|o' os] H; try discriminate H; [constructor|].
  injection H as -> H. specialize (IH os H). destruct o' as [|x|]; cbn; [constructor; exact IH| |constructor; exact IH].
  unfold lines. cbn [filter fst]. rewrite Nat.eqb_refl. cbn. constructor. exact IH.
Qed.

Lemma lines_other g g' l : g <> g' -> lines g (error_lines g' l) = [].
Proof.
  intros H. induction l as [|[t [[|x|]|]] l IH]; cbn; try assumption; [reflexivity|].
  unfold lines. cbn [filter fst]. destruct (Nat.eqb_spec g' g) as [E|E]; [congruence|exact IH].
Qed.

Lemma all_done_ends l : all_done l = true <-> exists os, ends l os.
Proof.
  split.
  - induction l as [|[t [o|]] l IH]; cbn; intros H; [exists []; reflexivity| |discriminate].
    destruct (IH H) as [os E]. exists (o :: os). unfold ends in *. cbn. rewrite E. reflexivity.
  - intros [os H]. revert os H. induction l as [|[t o] l IH]; intros os H; [reflexivity|].
    destruct os as [|o' os]; [discriminate|]. injection H as -> H. cbn. apply (IH os H).
Qed.

Lemma finish_done i o l : all_done l = true -> finish_task i o l = l.
Proof.
  intros H. unfold finish_task. destruct (nth_error l i) as [[t [x|]]|] eqn:E; try reflexivity. exfalso.
  apply all_done_ends in H. destruct H as [os H]. pose proof (map_nth_error snd i l E) as M. unfold ends in H. rewrite H in M. cbn in M.
  destruct (nth_error os i) as [y|] eqn:Y.
  - rewrite (map_nth_error Some i os Y) in M. discriminate.
  - apply nth_error_None in Y. assert (nth_error (map Some os) i = None) by (apply nth_error_None; rewrite map_length; exact Y). congruence.
Qed.

Lemma map_setnth {A B} (f : A -> B) i x l : map f (setnth i x l) = setnth i (f x) (map f l).
Proof. revert i. induction l as [|y l IH]; intros [|i]; cbn; congruence. Qed.
Lemma setnth_id {A} i (x : A) l : nth_error l i = Some x -> setnth i x l = l.
Proof. revert i. induction l as [|y l IH]; intros [|i] H; cbn in *; try congruence. rewrite IH; auto. Qed.

Lemma finish_fst i o l : map fst (finish_task i o l) = map fst l.
Proof.
  unfold finish_task. destruct (nth_error l i) as [[t [x|]]|] eqn:E; try reflexivity.
  rewrite map_setnth. apply setnth_id. apply (map_nth_error fst i l E).
Qed.

(** What the log says about a group. *)
Definition told (w : world) (g : nat) (gr : group) : Prop :=
  match g_watch gr with
  | Over => exists os, ends (g_tasks gr) os /\ errors os (lines g (w_log w))
  | _ => lines g (w_log w) = []
  end.
Definition honest (w : world) : Prop :=
  (forall g gr, nth_error (w_groups w) g = Some gr -> told w g gr) /\
  (forall g, (length (w_groups w) <= g)%nat -> lines g (w_log w) = []).

Lemma step_honest v w a : honest w -> honest (tstep v w a).
Proof.
  intros [H1 H2]. destruct a as [r it m|g i o|g]; cbn [tstep].
  - split; cbn [w_groups w_log].
    + intros g gr Hg. destruct (Nat.ltb_spec g (length (w_groups w))) as [L|L].
      * rewrite nth_error_app1 in Hg by exact L. apply (H1 g gr Hg).
      * rewrite nth_error_app2 in Hg by exact L. unfold told. cbn [w_log].
        destruct (nth_error (dispatch_groups v r subclasses it m) (g - length (w_groups w))) as [p|] eqn:E.
        -- rewrite (map_nth_error spawn _ _ E) in Hg. injection Hg as <-. unfold spawn. cbn. destruct (snd p); apply H2; exact L.
        -- apply nth_error_None in E. assert (nth_error (map spawn (dispatch_groups v r subclasses it m)) (g - length (w_groups w)) = None)
             by (apply nth_error_None; rewrite map_length; exact E). congruence.
    + intros g L. rewrite app_length in L. apply H2. lia.
  - destruct (nth_error (w_groups w) g) as [gr|] eqn:G; [|split; assumption]. split; cbn [w_groups w_log].
    + assert (L : (g < length (w_groups w))%nat) by (apply nth_error_Some; congruence).
      intros g' gr' Hg. destruct (Nat.eq_dec g g') as [<-|N].
      * rewrite setnth_same in Hg by exact L. injection Hg as <-. specialize (H1 g gr G). unfold told in *. cbn [g_watch g_tasks w_log].
        destruct (g_watch gr); try exact H1. destruct H1 as (os & E & X). exists os. rewrite finish_done; [auto|]. apply all_done_ends. eauto.
      * rewrite setnth_other in Hg by exact N. apply (H1 g' gr' Hg).
    + intros g' L. rewrite setnth_length in L. apply H2, L.
  - destruct (nth_error (w_groups w) g) as [gr|] eqn:G; [|split; assumption].
    destruct (g_watch gr) eqn:W; try (split; assumption). destruct (all_done (g_tasks gr)) eqn:D; [|split; assumption].
    assert (L : (g < length (w_groups w))%nat) by (apply nth_error_Some; congruence). split; cbn [w_groups w_log].
    + intros g' gr' Hg. destruct (Nat.eq_dec g g') as [<-|N].
      * rewrite setnth_same in Hg by exact L. injection Hg as <-. unfold told. cbn [g_watch g_tasks w_log].
        apply all_done_ends in D. destruct D as [os E]. exists os. split; [exact E|]. rewrite lines_app.
        specialize (H1 g gr G). unfold told in H1. rewrite W in H1. rewrite H1. apply lines_own, E.
      * rewrite setnth_other in Hg by exact N. specialize (H1 g' gr' Hg). unfold told in *. cbn [w_log].
        rewrite lines_app, lines_other, app_nil_r by congruence. exact H1.
    + intros g' L'. rewrite setnth_length in L'. rewrite lines_app, lines_other, app_nil_r by lia. apply H2, L'.
Qed.

Lemma run_honest v acts : forall w, honest w -> honest (trun v w acts).
Proof. induction acts as [|a acts IH]; intros w H; [exact H|]. apply IH, step_honest, H. Qed.
Lemma nothing_honest : honest nothing.
Proof. split; [intros [|g] gr H; discriminate H|reflexivity]. Qed.

(** Nothing but the errors of a group whose calls have all ended, once. *)
Theorem log_honest v acts g gr : nth_error (w_groups (trun v nothing acts)) g = Some gr ->
  lines g (w_log (trun v nothing acts)) = [] \/
  exists os, ends (g_tasks gr) os /\ errors os (lines g (w_log (trun v nothing acts))).
Proof.
  intros G. destruct (run_honest v acts nothing nothing_honest) as [H _]. specialize (H g gr G). unfold told in H.
  destruct (g_watch gr); auto.
Qed.

(** A watched group whose calls have all ended gets its lines. *)
Theorem log_complete v acts g gr os : let w := trun v nothing acts in
  nth_error (w_groups w) g = Some gr -> g_watch gr <> Unwatched -> ends (g_tasks gr) os ->
  errors os (lines g (w_log (tstep v w (Check g)))).
Proof.
  intros w G W E. pose proof (run_honest v acts nothing nothing_honest) as H. fold w in H. pose proof (proj1 H g gr G) as T.
  pose proof (proj1 (step_honest v w (Check g) H) g) as T'. cbn [tstep] in *. rewrite G in *. unfold told in T, T'.
  destruct (g_watch gr) eqn:Ew; [congruence| |].
  - assert (D : all_done (g_tasks gr) = true) by (apply all_done_ends; eauto). rewrite D in *. cbn [w_groups w_log] in *.
    rewrite lines_app, T. apply lines_own, E.
  - destruct T as (os' & E' & X). assert (os' = os) as ->; [|exact X].
    unfold ends in *. rewrite E in E'. clear -E'. revert os' E'. induction os as [|o os IH]; intros [|o' os'] E; try discriminate; [reflexivity|].
    injection E as <- E. f_equal. apply IH, E.
Qed.

(** As long as one call goes on, the errors of the others are not reported. *)
Theorem log_delayed v acts g gr i t : nth_error (w_groups (trun v nothing acts)) g = Some gr ->
  nth_error (g_tasks gr) i = Some (t, None) -> lines g (w_log (trun v nothing acts)) = [].
Proof.
  intros G I. destruct (log_honest v acts g gr G) as [H|(os & E & _)]; [exact H|]. exfalso.
  pose proof (map_nth_error snd i _ I) as M. unfold ends in E. rewrite E in M. cbn in M.
  clear -M. revert i M. induction os as [|o os IH]; intros [|i] M; cbn in M; try discriminate. apply (IH i M).
Qed.

(** ** Which groups are watched *)

Lemma trun_app v w a b : trun v w (a ++ b) = trun v (trun v w a) b.
Proof. apply fold_left_app. Qed.

(** A group keeps its calls, and stays unwatched if it is. *)
Lemma step_kept v w a g gr : nth_error (w_groups w) g = Some gr ->
  exists gr', nth_error (w_groups (tstep v w a)) g = Some gr' /\ map fst (g_tasks gr') = map fst (g_tasks gr) /\
              (g_watch gr = Unwatched <-> g_watch gr' = Unwatched).
Proof.
  intros G. assert (L : (g < length (w_groups w))%nat) by (apply nth_error_Some; congruence).
  destruct a as [r it m|g0 i o|g0]; cbn [tstep].
  - exists gr. cbn [w_groups]. rewrite nth_error_app1 by exact L. tauto.
  - destruct (nth_error (w_groups w) g0) as [gr0|] eqn:G0; [|exists gr; tauto]. cbn [w_groups].
    destruct (Nat.eq_dec g0 g) as [->|N]; [|rewrite setnth_other by exact N; exists gr; tauto].
    rewrite G in G0. injection G0 as <-. rewrite setnth_same by exact L. eexists. split; [reflexivity|]. cbn [g_tasks g_watch].
    rewrite finish_fst. tauto.
  - destruct (nth_error (w_groups w) g0) as [gr0|] eqn:G0; [|exists gr; tauto].
    destruct (g_watch gr0) eqn:W; try (exists gr; tauto). destruct (all_done (g_tasks gr0)) eqn:D; [|exists gr; tauto].
    destruct (Nat.eq_dec g0 g) as [->|N]; cbn [w_groups]; [|rewrite setnth_other by exact N; exists gr; tauto].
    rewrite G in G0. injection G0 as <-. rewrite setnth_same by exact L. eexists. split; [reflexivity|]. cbn [g_tasks g_watch].
    rewrite W. split; [reflexivity|]. split; discriminate.
Qed.

Lemma run_kept v acts : forall w g gr, nth_error (w_groups w) g = Some gr ->
  exists gr', nth_error (w_groups (trun v w acts)) g = Some gr' /\ map fst (g_tasks gr') = map fst (g_tasks gr) /\
              (g_watch gr = Unwatched <-> g_watch gr' = Unwatched).
Proof.
  induction acts as [|a acts IH]; intros w g gr G; [exists gr; tauto|]. cbn [trun fold_left].
  destruct (step_kept v w a g gr G) as (gr1 & G1 & M1 & W1). destruct (IH _ g gr1 G1) as (gr2 & G2 & M2 & W2).
  exists gr2. split; [exact G2|]. split; [congruence|tauto].
Qed.

Lemma dispatch_groups_class r it m w c : msg_who m = Some w -> class_who c = w -> forall v, v < 13 ->
  dispatch_groups v r subclasses it m = [(fst (call_callbacks r c it m), is_ok (snd (call_callbacks r c it m)))].
Proof.
  intros Hm Hc v Hv. unfold dispatch_groups, subclasses, item_who. rewrite (proj2 (N.ltb_lt v 13) Hv), Hm.
  subst w. destruct c; cbn [class_who who_eqb who_str str_eqb].
  all: repeat match goal with |- context [who_eqb ?a ?b] => let y := eval vm_compute in (who_eqb a b) in change (who_eqb a b) with y end; cbv iota.
  all: destruct (call_callbacks r _ it m) as [ts [|]]; reflexivity.
Qed.

Lemma groups_dispatch v r cs it m : concat (map fst (dispatch_groups v r cs it m)) = dispatch v r cs it m.
Proof.
  induction cs as [|c cs IH]; [reflexivity|]. cbn [dispatch_groups dispatch].
  destruct (item_who v c) as [w|]; [|exact IH]. destruct (msg_who m) as [w'|]; [|exact IH].
  destruct (who_eqb w' w); [|exact IH]. destruct (call_callbacks r c it m) as [ts [x|e]]; cbn; [reflexivity|]. rewrite IH. reflexivity.
Qed.

Lemma create_ok args fs : is_ok (snd (create_tasks fs args)) = forallb (fun f => cb_takes f (length args)) fs.
Proof.
  induction fs as [|f fs IH]; [reflexivity|]. cbn [create_tasks forallb]. destruct (cb_takes f (length args)); [|reflexivity].
  destruct (create_tasks fs args) as [ts x]. exact IH.
Qed.

(** The group made for a reported event. *)
Lemma event_group v r it m k args acts1 acts2 : v < 13 -> built m -> reports m k args ->
  let g := length (w_groups (trun v nothing acts1)) in
  exists gr ts, nth_error (w_groups (trun v nothing (acts1 ++ Event r it m :: acts2))) g = Some gr /\
    map fst (g_tasks gr) = ts /\ calls (VItem it :: args) (r k) ts /\
    (g_watch gr = Unwatched <-> exists f, In f (r k) /\ cb_takes f (S (length args)) = false).
Proof.
  intros Hv B R g. destruct (reports_supported m k args R) as (w & Hw & Sw). destruct (supported_class w Sw) as (c & Hc & NC).
  assert (Hc' : msg_who m = Some (class_who c)) by congruence.
  pose proof (proj2 (reports_iff c m k args B Hc' NC) R) as CC.
  pose proof (dispatch_groups_class r it m w c Hw Hc v Hv) as DG. unfold call_callbacks in DG. rewrite CC in DG.
  rewrite trun_app. cbn [trun fold_left]. fold (trun v nothing acts1).
  set (w1 := trun v nothing acts1) in *.
  assert (G : nth_error (w_groups (tstep v w1 (Event r it m))) g = Some (spawn (fst (create_tasks (r k) (VItem it :: args)), is_ok (snd (create_tasks (r k) (VItem it :: args)))))).
  { cbn [tstep w_groups]. rewrite nth_error_app2 by (unfold g; lia). unfold g. rewrite Nat.sub_diag, DG. reflexivity. }
  destruct (run_kept v acts2 _ g _ G) as (gr & G' & M & W). exists gr, (fst (create_tasks (r k) (VItem it :: args))).
  split; [exact G'|]. split; [rewrite M; cbn; rewrite map_map; cbn; apply map_id|]. split; [apply calls_create|].
  rewrite <- W. cbn [spawn g_watch snd]. rewrite create_ok. cbn [length].
  destruct (forallb (fun f => cb_takes f (S (length args))) (r k)) eqn:F.
  - split; [discriminate|]. intros (f & I & E). rewrite forallb_forall in F. rewrite (F f I) in E. discriminate.
  - split; [intros _|reflexivity]. clear -F. induction (r k) as [|f fs IH]; [discriminate|]. cbn in F.
    destruct (cb_takes f (S (length args))) eqn:E; [destruct (IH F) as (f' & I & E'); exists f'; split; [right; exact I|exact E']|exists f; split; [left; reflexivity|exact E]].
Qed.

(** If one callback refuses the arguments, the errors of those called before it
    are never reported. *)
Theorem refused_unreported v r it m k args f acts1 acts2 : v < 13 -> built m -> reports m k args ->
  In f (r k) -> cb_takes f (S (length args)) = false ->
  let w := trun v nothing (acts1 ++ Event r it m :: acts2) in
  let g := length (w_groups (trun v nothing acts1)) in
  exists gr ts, nth_error (w_groups w) g = Some gr /\ map fst (g_tasks gr) = ts /\ calls (VItem it :: args) (r k) ts /\
    lines g (w_log w) = [].
Proof.
  intros Hv B R I E w g. destruct (event_group v r it m k args acts1 acts2 Hv B R) as (gr & ts & G & M & C & W).
  exists gr, ts. split; [exact G|]. split; [exact M|]. split; [exact C|].
  destruct (run_honest v (acts1 ++ Event r it m :: acts2) nothing nothing_honest) as [H _]. specialize (H g gr G). unfold told in H.
  rewrite (proj2 W) in H by eauto. exact H.
Qed.

(** Otherwise the event makes one call for each callback, and they are watched. *)
Theorem accepted_watched v r it m k args acts1 acts2 : v < 13 -> built m -> reports m k args ->
  (forall f, In f (r k) -> cb_takes f (S (length args)) = true) ->
  let w := trun v nothing (acts1 ++ Event r it m :: acts2) in
  let g := length (w_groups (trun v nothing acts1)) in
  exists gr, nth_error (w_groups w) g = Some gr /\ map fst (g_tasks gr) = map (fun f => (cb_id f, VItem it :: args)) (r k) /\
    forall os, ends (g_tasks gr) os -> errors os (lines g (w_log (tstep v w (Check g)))).
Proof.
  intros Hv B R A w g. destruct (event_group v r it m k args acts1 acts2 Hv B R) as (gr & ts & G & M & C & W).
  exists gr. split; [exact G|]. split.
  - rewrite M. eapply calls_unique; [exact C|]. apply calls_all. exact A.
  - intros os E. apply (log_complete v (acts1 ++ Event r it m :: acts2) g gr os G); [|exact E].
    intros U. destruct (proj1 W U) as (f & I & X). rewrite (A f I) in X. discriminate.
Qed.

(** ** The calls do not depend on what became of earlier ones *)

Lemma made_calls_step v w a : made_calls (tstep v w a) =
  made_calls w ++ match a with Event r it m => map fst (dispatch_groups v r subclasses it m) | _ => [] end.
Proof.
  unfold made_calls. destruct a as [r it m|g i o|g]; cbn [tstep].
  - cbn [w_groups]. rewrite map_app, map_map. f_equal. apply map_ext. intros [ts b]. cbn. rewrite map_map. cbn. apply map_id.
  - rewrite app_nil_r. destruct (nth_error (w_groups w) g) as [gr|] eqn:G; [|reflexivity]. cbn [w_groups]. rewrite map_setnth. apply setnth_id.
    rewrite (map_nth_error _ _ _ G). cbn. rewrite finish_fst. reflexivity.
  - rewrite app_nil_r. destruct (nth_error (w_groups w) g) as [gr|] eqn:G; [|reflexivity].
    destruct (g_watch gr); try reflexivity. destruct (all_done (g_tasks gr)); [|reflexivity].
    cbn [w_groups]. rewrite map_setnth. apply setnth_id. rewrite (map_nth_error _ _ _ G). reflexivity.
Qed.

Lemma calls_events v acts : forall w w', made_calls w = made_calls w' -> made_calls (trun v w acts) = made_calls (trun v w' (events acts)).
Proof.
  induction acts as [|a acts IH]; intros w w' E; [exact E|]. destruct a as [r it m|g i o|g]; cbn [events trun fold_left]; apply IH.
  - rewrite !made_calls_step, E. reflexivity.
  - rewrite made_calls_step, app_nil_r. exact E.
  - rewrite made_calls_step, app_nil_r. exact E.
Qed.

Theorem calls_independent v acts : made_calls (trun v nothing acts) = made_calls (trun v nothing (events acts)).
Proof. apply calls_events. reflexivity. Qed.
