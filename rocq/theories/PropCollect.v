(** * C135: callbacks and the garbage collector *)
From Coq Require Import String List NArith ZArith Bool Lia.
From Verif Require Import PyStr Tags Messages SpecMsg Protocol Queue QueueThms IO Client Items Dispatch SpecDispatch DispatchThms DispatchThms2 DispatchThms3
  Tasks SpecTasks TasksThms PropTasks Errors Log Handler SpecHandler HandlerThms Collect SpecCollect CollectThms CollectThms2.
Import ListNotations.
Open Scope N_scope.
Open Scope list_scope.

(** Collections change nothing for the callbacks: the same history without them
    leads to the same tasks and log, and whatever could follow without them can
    follow after them. *)
Theorem C135_no_loss v h l c : objects_only h -> crun v (fresh_world h) l c ->
  crun v (fresh_world h) (uncollected l) {| c_w := c_w c; c_heap := c_heap c; c_gone := []; c_told := [] |} /\
  c_w c = trun v nothing (acts l) /\
  forall l' d, crun v {| c_w := c_w c; c_heap := c_heap c; c_gone := []; c_told := [] |} l' d -> l' = uncollected l' ->
    exists d', crun v c l' d' /\ c_w d' = c_w d /\ c_heap d' = c_heap d.
Proof.
  intros O R. split; [rewrite uncollected_filter; apply (run_forget v h l c R)|]. split; [apply (run_world v _ _ _ R)|].
  intros l' d R' U. pose proof (inv_run v _ l c (inv_fresh v h O) R) as I.
  exists (unforget d (c_gone c) (c_told c)). split; [|split; reflexivity]. apply (run_again v c l' d I R').
  rewrite uncollected_filter in U. rewrite U. apply forallb_forall. intros a J. apply filter_In in J. apply J.
Qed.
Print Assumptions C135_no_loss.

(** The calls for one event stand and fall together: as long as one that goes on
    can be resumed none of them is collected, nor is the task that will report
    their errors; and if one of these is collected, then every one that goes on,
    which then never ends. *)
Theorem C135_together v h l c g gr i t : objects_only h -> crun v (fresh_world h) l c ->
  nth_error (w_groups (c_w c)) g = Some gr -> g_watch gr = Watching -> nth_error (g_tasks gr) i = Some (t, None) ->
  (reach (c_w c) (c_heap c) (NTask g i) ->
   ~ In (NWatch g) (c_gone c) /\ forall j, (j < length (g_tasks gr))%nat -> ~ In (NTask g j) (c_gone c)) /\
  (In (NWatch g) (c_gone c) \/ (exists j, (j < length (g_tasks gr))%nat /\ In (NTask g j) (c_gone c)) ->
   In (NWatch g) (c_gone c) /\ In (NTask g i) (c_gone c) /\
   forall l' d, crun v c l' d -> exists gr', nth_error (w_groups (c_w d)) g = Some gr' /\ nth_error (g_tasks gr') i = Some (t, None)).
Proof.
  intros O R G W T. pose proof (inv_run v _ l c (inv_fresh v h O) R) as I. split.
  - intros RT. split.
    + intros J. apply (i_gone v c I _ J). eapply reach_group; try eassumption. left; reflexivity.
    + intros j L J. apply (i_gone v c I _ J). eapply reach_group; try eassumption. right.
      destruct (nth_error (g_tasks gr) j) as [p|] eqn:Q; [eauto|apply nth_error_None in Q; lia].
  - intros D. assert (In (NWatch g) (c_gone c) /\ In (NTask g i) (c_gone c)) as [A B].
    { destruct D as [D|(j & L & D)]; [eapply (gone_group v c g gr i t (NWatch g)); eauto|].
      eapply (gone_group v c g gr i t (NTask g j)); try eassumption. right.
      destruct (nth_error (g_tasks gr) j) as [p|] eqn:Q; [eauto|apply nth_error_None in Q; lia]. }
    split; [exact A|]. split; [exact B|]. intros l' d R'. apply (gone_pending v c l' d g gr i t R' G T B).
Qed.
Print Assumptions C135_together.

(** An exception of a callback is reported once: in the log of the client when
    all calls for the event have ended and the watcher has run, and then never to
    the loop's exception handler; otherwise not in the log, and to the handler
    once the call is collected. *)
Theorem C135_once v h l c g gr i t x : objects_only h -> crun v (fresh_world h) l c ->
  nth_error (w_groups (c_w c)) g = Some gr -> nth_error (g_tasks gr) i = Some (t, Some (Raised x)) ->
  (g_watch gr = Over /\ (exists os, SpecTasks.ends (g_tasks gr) os /\ errors os (lines g (w_log (c_w c)))) /\
   count_occ report_eq_dec (c_told c) (Unretrieved g i x) = O) \/
  (g_watch gr <> Over /\ lines g (w_log (c_w c)) = [] /\
   ((In (NTask g i) (c_gone c) /\ count_occ report_eq_dec (c_told c) (Unretrieved g i x) = 1%nat) \/
    (~ In (NTask g i) (c_gone c) /\ count_occ report_eq_dec (c_told c) (Unretrieved g i x) = O))).
Proof. intros O R. apply (once v). apply (inv_run v _ l c (inv_fresh v h O) R). Qed.
Print Assumptions C135_once.

(** Nothing false is reported. *)
Theorem C135_true v h l c r : objects_only h -> crun v (fresh_world h) l c -> In r (c_told c) ->
  match r with
  | Destroyed (NTask g i) => exists gr t, nth_error (w_groups (c_w c)) g = Some gr /\ nth_error (g_tasks gr) i = Some (t, None)
  | Destroyed (NWatch g) => exists gr, nth_error (w_groups (c_w c)) g = Some gr /\ g_watch gr = Watching
  | Destroyed _ => False
  | Unretrieved g i x => exists gr t, nth_error (w_groups (c_w c)) g = Some gr /\ nth_error (g_tasks gr) i = Some (t, Some (Raised x)) /\ g_watch gr <> Over
  end.
Proof. intros O R J. apply (report_true v c r (inv_run v _ l c (inv_fresh v h O) R) J). Qed.
Print Assumptions C135_true.

(** If one callback cannot take the arguments, the errors of those called before
    it, which the log never has (C83), are reported to the handler when Python
    collects the call. *)
Theorem C135_refused v h l c r it m k args f acts1 acts2 i gr t x : v < 13 -> built m -> reports m k args ->
  In f (r k) -> cb_takes f (S (length args)) = false ->
  objects_only h -> crun v (fresh_world h) l c -> acts l = acts1 ++ Event r it m :: acts2 ->
  let g := length (w_groups (trun v nothing acts1)) in
  nth_error (w_groups (c_w c)) g = Some gr -> nth_error (g_tasks gr) i = Some (t, Some (Raised x)) ->
  ~ In (NTask g i) (c_gone c) -> island (c_heap c) [NTask g i] ->
  exists c', cstep v c (Gc [NTask g i]) c' /\ c_told c' = c_told c ++ [Unretrieved g i x] /\ c_w c' = c_w c /\ lines g (w_log (c_w c')) = [].
Proof.
  intros Hv B Rp F E O R A g G T NG Is. pose proof (inv_run v _ l c (inv_fresh v h O) R) as I.
  pose proof (run_world v _ _ _ R) as Wd. cbn in Wd. rewrite A in Wd.
  destruct (event_group v r it m k args acts1 acts2 Hv B Rp) as (gr' & ts & G' & _ & _ & W). fold g in G'. rewrite <- Wd, G in G'. injection G' as <-.
  assert (U : g_watch gr = Unwatched) by (apply W; eauto).
  eexists. split; [eapply collect_one; eassumption|]. split; [reflexivity|]. split; [reflexivity|]. cbn [c_w].
  pose proof (proj1 (i_honest v c I) g gr G) as Hn. unfold TasksThms.told in Hn. rewrite U in Hn. exact Hn.
Qed.
Print Assumptions C135_refused.

(** While the library's handler is the loop's, there is one line for each such
    error, and none for a call or a watcher that was destroyed. *)
Theorem C135_seen cb h fut text name l rs : after_client l -> exists s, lines_for text rs s /\
  v_out (hrun cb h fut new_loop (l ++ map (fun r => HReport (context_of text name r)) rs)) = v_out (hrun cb h fut new_loop l) ++ map line s.
Proof. apply report_line. Qed.
Print Assumptions C135_seen.

(** The claim "a callback whose call disappears is told of in the log" is false:
    if nothing that can run refers to the calls for an event and one of them goes
    on, Python may collect them all; the log of the client stays as it is, asyncio
    reports each call that goes on, the watcher, and the errors of those that
    raised, and with the library's handler only the latter are seen. *)
Theorem C135_pending_refuted v h l c g gr i t : objects_only h -> crun v (fresh_world h) l c ->
  nth_error (w_groups (c_w c)) g = Some gr -> g_watch gr = Watching -> nth_error (g_tasks gr) i = Some (t, None) ->
  ~ In (NWatch g) (c_gone c) -> island (c_heap c) (family g (length (g_tasks gr))) ->
  exists c' r, cstep v c (Gc (family g (length (g_tasks gr)))) c' /\ farewell g 0 (g_tasks gr) r /\
    c_w c' = c_w c /\ c_told c' = c_told c ++ Destroyed (NWatch g) :: r /\
    forall cb hh fut text name hist, after_client hist -> exists s, lines_for text r s /\
      v_out (hrun cb hh fut new_loop (hist ++ map (fun r => HReport (context_of text name r)) (Destroyed (NWatch g) :: r))) =
      v_out (hrun cb hh fut new_loop hist) ++ map line s.
Proof.
  intros O R G W T NW Is. pose proof (inv_run v _ l c (inv_fresh v h O) R) as I.
  destruct (collect_family v c g gr i t I G W T NW) as (r & F & S); [|exact Is|].
  - intros J. destruct (gone_group v c g gr i t (NTask g i) I G W T J) as [A _]; [right; eauto|contradiction].
  - eexists _, r. split; [exact S|]. split; [exact F|]. split; [reflexivity|]. split; [reflexivity|].
    intros cb hh fut text name hist A. destruct (report_line cb hh fut text name hist (Destroyed (NWatch g) :: r) A) as (s & L & E).
    exists s. split; [|exact E]. inversion L. assumption.
Qed.
Print Assumptions C135_pending_refuted.

(** Two callbacks: the first raises 11, the second waits for a future (object 5)
    that only it knows. *)
Definition nothing_known : heap := {| h_root := fun _ => False; h_ref := fun _ _ => False |}.
Definition waits_alone : heap :=
  {| h_root := fun _ => False; h_ref := fun a b => (a = NTask 0 1 /\ b = NObj 5) \/ (a = NObj 5 /\ b = NTask 0 1) |}.
Definition two : tact := Event (regs [g2 1; g2 2]) 0 on12.

Lemma two_run : crun 12 (fresh_world nothing_known) [Act two; Act (Finish 0 0 (Raised 11)); Mutate waits_alone]
  {| c_w := trun 12 nothing [two; Finish 0 0 (Raised 11)]; c_heap := waits_alone; c_gone := []; c_told := [] |}.
Proof.
  assert (T : forall i, (i < 2)%nat -> there (tstep 12 nothing two) (NTask 0 i) /\ ~ there nothing (NTask 0 i)).
  { intros i L. split; [|intros (gr & p & G & _); discriminate G].
    assert (E : exists gr, nth_error (w_groups (tstep 12 nothing two)) 0 = Some gr /\ length (g_tasks gr) = 2%nat) by (eexists; split; vm_compute; reflexivity).
    destruct E as (gr & G & E). exists gr. destruct (nth_error (g_tasks gr) i) as [p|] eqn:P; [eauto|]. apply nth_error_None in P. lia. }
  apply (Cr_snoc 12 _ [Act two; Act (Finish 0 0 (Raised 11))] {| c_w := trun 12 nothing [two; Finish 0 0 (Raised 11)];
    c_heap := scheduled nothing (tstep 12 nothing two) nothing_known; c_gone := []; c_told := [] |}).
  - apply (Cr_snoc 12 _ [Act two] {| c_w := tstep 12 nothing two; c_heap := scheduled nothing (tstep 12 nothing two) nothing_known; c_gone := []; c_told := [] |}).
    + apply (Cr_snoc 12 _ [] (fresh_world nothing_known)); [constructor|]. apply (C_event 12 (fresh_world nothing_known)).
    + apply (C_finish 12 {| c_w := tstep 12 nothing two; c_heap := scheduled nothing (tstep 12 nothing two) nothing_known; c_gone := []; c_told := [] |} 0 0 (Raised 11)
        {| g_tasks := [((1, [VItem 0; VBool true]), None); ((2, [VItem 0; VBool true]), None)]; g_watch := Watching |} (1, [VItem 0; VBool true])); [vm_compute; reflexivity|reflexivity| |intros []].
      apply R_root. right. destruct (T 0%nat) as [A B]; [lia|]. auto.
  - apply C_mutate; cbn [c_heap c_w].
    + intros n [].
    + assert (RT : reach (trun 12 nothing [two; Finish 0 0 (Raised 11)]) (scheduled nothing (tstep 12 nothing two) nothing_known) (NTask 0 1)).
      { apply R_root. right. destruct (T 1%nat) as [A B]; [lia|]. auto. }
      assert (FO : fresh (scheduled nothing (tstep 12 nothing two) nothing_known) (NObj 5)).
      { split; [eauto|]. split; [intros [[]|(_ & _ & [])]|]. intros m. split; intros []. }
      intros a b [[-> ->]|[-> ->]]; right; auto.
Qed.

Lemma two_island : island waits_alone (family 0 2).
Proof.
  exists (fun n => n = NObj 5 \/ In n (family 0 2)). split; [intros n _ []|]. split; [|split; [auto|intros n [->|J]; eauto]].
  intros a b [[-> ->]|[-> ->]] _; [right; cbn; auto 6|left; reflexivity].
Qed.

Example C135_ex : exists c,
  crun 12 (fresh_world nothing_known) [Act two; Act (Finish 0 0 (Raised 11)); Mutate waits_alone; Gc (family 0 2)] c /\
  c_told c = [Destroyed (NWatch 0); Unretrieved 0 0 11; Destroyed (NTask 0 1)] /\ w_log (c_w c) = [] /\
  ~ reach (c_w c) (c_heap c) (NTask 0 1) /\ objects_only nothing_known.
Proof.
  assert (O : objects_only nothing_known) by (split; [intros n []|intros a b []]).
  pose proof (inv_run 12 _ _ _ (inv_fresh 12 _ O) two_run) as I.
  set (c0 := {| c_w := trun 12 nothing [two; Finish 0 0 (Raised 11)]; c_heap := waits_alone; c_gone := []; c_told := [] |}) in *.
  destruct (collect_family 12 c0 0 {| g_tasks := [((1, [VItem 0; VBool true]), Some (Raised 11)); ((2, [VItem 0; VBool true]), None)]; g_watch := Watching |}
    1 (2, [VItem 0; VBool true]) I) as (r & F & S); [vm_compute; reflexivity|reflexivity|reflexivity|intros []|intros []|apply two_island|].
  cbn [g_tasks length] in S, F. inversion F as [| |i0 t0 x0 l0 r0 F1|i0 t0 o0 l0 r0 [Q|Q] F1]; subst; try discriminate.
  inversion F1 as [|i1 t1 l1 r1 F2| |]; subst. inversion F2; subst.
  eexists. split; [apply (Cr_snoc 12 _ [Act two; Act (Finish 0 0 (Raised 11)); Mutate waits_alone] c0); [exact two_run|exact S]|].
  split; [reflexivity|]. split; [vm_compute; reflexivity|]. split; [|exact O].
  pose proof (inv_step 12 c0 _ _ I S) as I'. apply (i_gone 12 _ I' (NTask 0 1)). cbn. auto 6.
Qed.

(** Its second call would be kept by a timer that refers to the future. *)
Example C135_kept :
  reach (trun 12 nothing [two; Finish 0 0 (Raised 11)]) {| h_root := fun n => n = NObj 5; h_ref := h_ref waits_alone |} (NWatch 0).
Proof.
  eapply (reach_group _ _ 0 {| g_tasks := [((1, [VItem 0; VBool true]), Some (Raised 11)); ((2, [VItem 0; VBool true]), None)]; g_watch := Watching |} 1);
    [vm_compute; reflexivity|reflexivity|reflexivity| |left; reflexivity].
  eapply R_ref; [apply R_root; reflexivity|]. right. auto.
Qed.

(** The handler's lines. *)
Example C135_lines :
  v_out (hrun [] [] [] new_loop (HNew :: map (fun r => HReport (context_of (fun _ => Fault (lit "KeyError") (lit "'x'")) (fun _ => lit "<Task>") r))
    [Destroyed (NWatch 0); Unretrieved 0 0 11; Destroyed (NTask 0 1)])) =
  [line (lit "Exception occurred: Task exception was never retrieved ('x')")].
Proof. vm_compute. reflexivity. Qed.

(** The second of two callbacks cannot take the arguments; the first raises 11. *)
Definition refusing : tact := Event (regs [g2 1; g1 2]) 0 on12.
Example C135_refused_ex : exists c,
  crun 12 (fresh_world nothing_known) [Act refusing; Act (Finish 0 0 (Raised 11)); Mutate nothing_known; Gc [NTask 0 0]] c /\
  c_told c = [Unretrieved 0 0 11] /\ w_log (c_w c) = [].
Proof.
  assert (O : objects_only nothing_known) by (split; [intros n []|intros a b []]).
  set (h1 := scheduled nothing (tstep 12 nothing refusing) nothing_known).
  set (c0 := {| c_w := trun 12 nothing [refusing; Finish 0 0 (Raised 11)]; c_heap := nothing_known; c_gone := []; c_told := [] |}).
  assert (R : crun 12 (fresh_world nothing_known) [Act refusing; Act (Finish 0 0 (Raised 11)); Mutate nothing_known] c0).
  { apply (Cr_snoc 12 _ [Act refusing; Act (Finish 0 0 (Raised 11))] {| c_w := c_w c0; c_heap := h1; c_gone := []; c_told := [] |});
      [|apply C_mutate; [intros n []|intros a b []]].
    apply (Cr_snoc 12 _ [Act refusing] {| c_w := tstep 12 nothing refusing; c_heap := h1; c_gone := []; c_told := [] |}).
    - apply (Cr_snoc 12 _ [] (fresh_world nothing_known)); [constructor|]. apply (C_event 12 (fresh_world nothing_known)).
    - apply (C_finish 12 {| c_w := tstep 12 nothing refusing; c_heap := h1; c_gone := []; c_told := [] |} 0 0 (Raised 11)
        {| g_tasks := [((1, [VItem 0; VBool true]), None)]; g_watch := Unwatched |} (1, [VItem 0; VBool true])); [vm_compute; reflexivity|reflexivity| |intros []].
      apply R_root. right. split; [|split; [|exact Logic.I]].
      + eexists _, _. split; vm_compute; reflexivity.
      + intros (gr & p & G & _). discriminate G. }
  pose proof (inv_run 12 _ _ _ (inv_fresh 12 _ O) R) as I.
  eexists. split; [apply (Cr_snoc 12 _ [Act refusing; Act (Finish 0 0 (Raised 11)); Mutate nothing_known] c0); [exact R|]|].
  - apply (collect_one 12 c0 0 {| g_tasks := [((1, [VItem 0; VBool true]), Some (Raised 11))]; g_watch := Unwatched |} 0 (1, [VItem 0; VBool true]) 11 I);
      [vm_compute; reflexivity|reflexivity|reflexivity|intros []|].
    exists (fun n => In n [NTask 0 0]). split; [intros n _ []|]. split; [intros a b []|]. split; auto.
  - split; [reflexivity|]. vm_compute. reflexivity.
Qed.
