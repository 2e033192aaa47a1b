(** * Property C141: the end of the program *)
From Coq Require Import String List NArith ZArith Bool Lia.
From Verif Require Import PyStr Tags Messages SpecMsg SpecTag MessageThms MessageThms2 Protocol Queue IO Client Items Dispatch SpecDispatch
  Tasks SpecTasks TasksThms PropTasks Shutdown SpecShutdown ShutdownThms.
Import ListNotations.
Open Scope N_scope.
Open Scope list_scope.

(** ** C141 Nothing of a callback is lost when the program ends *)

(** Until then the program is as C42 and C83 describe it. *)
Theorem C141_same : forall v acts, exists bs, thinned bs (bare acts) /\ p_world (prun v launched acts) = trun v nothing bs.
Proof. exact same_world. Qed.
Print Assumptions C141_same.

(** When asyncio.run() returns, exactly the calls that the events made are over,
    all of them: as they were if they had ended, otherwise as they chose to when
    they were cancelled, and cancelled if they had not begun. *)
Theorem C141_over : forall v acts rx, map (map fst) (f_calls (shut_down rx (prun v launched acts))) = made_calls (trun v nothing (events (bare acts))).
Proof. exact all_end. Qed.
Print Assumptions C141_over.
Theorem C141_ends : forall v acts rx g gr, nth_error (w_groups (p_world (prun v launched acts))) g = Some gr ->
  exists l, nth_error (f_calls (shut_down rx (prun v launched acts))) g = Some l /\ length l = length (g_tasks gr) /\
    forall i t s, nth_error (g_tasks gr) i = Some (t, s) ->
      nth_error l i = Some (t, match s with Some o => o | None => if begun (prun v launched acts) g then rx g i else Cancelled end).
Proof. exact each_ends. Qed.
Print Assumptions C141_ends.

(** The errors of the callbacks of an event that had begun are all reported, each
    once, in the log or to the loop's handler, exactly if not one of them had
    raised while the watcher was still waiting. *)
Theorem C141_errors_partial : forall v acts rx g gr l, nth_error (w_groups (p_world (prun v launched acts))) g = Some gr ->
  let p := prun v launched acts in
  begun p g = true -> nth_error (f_calls (shut_down rx p)) g = Some l ->
  (errors_of l (reported (shut_down rx p) g) <-> ~ (g_watch gr = Watching /\ has_raised gr)).
Proof. exact reported_iff. Qed.
Print Assumptions C141_errors_partial.

(** What is reported in that case: the errors of the callbacks that were still
    running, nothing of the others. *)
Theorem C141_late : forall v acts rx g gr l, nth_error (w_groups (p_world (prun v launched acts))) g = Some gr ->
  let p := prun v launched acts in
  begun p g = true -> g_watch gr = Watching -> nth_error (f_calls (shut_down rx p)) g = Some l ->
  errors (unfinished (g_tasks gr) l) (reported (shut_down rx p) g).
Proof.
  intros v acts rx g gr l G p B W L. destruct (group_reports v acts rx g gr G) as (l' & L' & _ & _ & R). fold p in L', R.
  assert (l' = l) as -> by congruence. exact (R B W).
Qed.
Print Assumptions C141_late.

(** Refuted: when every callback of an event has raised and the program ends
    before the watcher had its turn, no error is reported anywhere: for any event,
    any callbacks that take it and whatever happened before. *)
Theorem C141_lost_refuted : forall v r it m k args acts xs rx, v < 13 -> built m -> reports m k args ->
  (forall f, In f (r k) -> cb_takes f (S (length args)) = true) -> length xs = length (r k) ->
  let g := length (w_groups (p_world (prun v launched acts))) in
  let p := prun v launched (acts ++ PEvent r it m :: PBegin g :: all_raise g 0 xs) in
  nth_error (f_calls (shut_down rx p)) g = Some (map (fun q => ((cb_id (fst q), VItem it :: args), Raised (snd q))) (combine (r k) xs)) /\
  reported (shut_down rx p) g = [].
Proof. exact errors_lost. Qed.
Print Assumptions C141_lost_refuted.

(** Refuted: the callbacks of an event that was dispatched in the last turn never
    run, and nothing tells of it. *)
Theorem C141_unbegun_refuted : forall v acts rx g gr, nth_error (w_groups (p_world (prun v launched acts))) g = Some gr ->
  let p := prun v launched acts in begun p g = false ->
  exists l, nth_error (f_calls (shut_down rx p)) g = Some l /\ Forall (fun x => snd x = Cancelled) l /\ reported (shut_down rx p) g = [].
Proof.
  intros v acts rx g gr G p B. destruct (group_reports v acts rx g gr G) as (l & L & R & _). exists l. destruct (R B) as (R1 & R2). auto.
Qed.
Print Assumptions C141_unbegun_refuted.

(** A program that waits until everything is settled loses nothing: no callback is
    cut short, and each error is reported once. *)
Theorem C141_settled : forall v acts rx, let p := prun v launched acts in
  (forall g gr, nth_error (w_groups (p_world p)) g = Some gr -> begun p g = true /\ settled gr) ->
  forall g gr l, nth_error (w_groups (p_world p)) g = Some gr -> nth_error (f_calls (shut_down rx p)) g = Some l ->
  ends (g_tasks gr) (map snd l) /\ errors_of l (reported (shut_down rx p) g) /\ (forall rx', nth_error (f_calls (shut_down rx' p)) g = Some l).
Proof. exact all_settled. Qed.
Print Assumptions C141_settled.

Definition three : registry := regs [g2 1; g2 2; g2 3].
Definition obeys : reaction := fun _ _ => Cancelled.
Definition angry : reaction := fun _ i => Raised (90 + N.of_nat i).

Example C141_ex :
  (* the second raises, the others go on; they obey, or raise when cancelled *)
  (let p := prun 12 launched [PEvent three 0 on12; PBegin 0; PFinish 0 1 (Raised 22)] in
   map (map snd) (f_calls (shut_down obeys p)) = [[Cancelled; Raised 22; Cancelled]] /\ reported (shut_down obeys p) 0 = [] /\
   reported (shut_down angry p) 0 = [90; 92]) /\
  (* everything done, and the watcher had its turn *)
  (let p := prun 12 launched [PEvent three 0 on12; PBegin 0; PFinish 0 1 (Raised 22); PFinish 0 0 Finished; PFinish 0 2 (Raised 33); PCheck 0] in
   map (map snd) (f_calls (shut_down angry p)) = [[Finished; Raised 22; Raised 33]] /\ reported (shut_down angry p) 0 = [22; 33]) /\
  (* everything done, and it had not *)
  (let p := prun 12 launched [PEvent three 0 on12; PBegin 0; PFinish 0 1 (Raised 22); PFinish 0 0 Finished; PFinish 0 2 (Raised 33)] in
   reported (shut_down angry p) 0 = []) /\
  (* not begun: what cannot begin cannot end *)
  (let p := prun 12 launched [PEvent three 0 on12; PFinish 0 1 (Raised 22)] in
   map (map snd) (f_calls (shut_down angry p)) = [[Cancelled; Cancelled; Cancelled]] /\ reported (shut_down angry p) 0 = []) /\
  (* the third takes no such arguments, so that nobody watches the others *)
  (let p := prun 12 launched [PEvent (regs [g2 1; g2 2; g1 3]) 0 on12; PBegin 0; PFinish 0 1 (Raised 22)] in
   map (map snd) (f_calls (shut_down angry p)) = [[Raised 90; Raised 22]] /\ reported (shut_down angry p) 0 = [90; 22]).
Proof. vm_compute. repeat split. Qed.

Example C141_lost_ex : 12 < 13 /\ built on12 /\ reports on12 (K_light STATUS_CHANGE) [VBool true] /\
  (forall f, In f (three (K_light STATUS_CHANGE)) -> cb_takes f 2 = true) /\ length [21; 22; 23] = length (three (K_light STATUS_CHANGE)).
Proof.
  split; [reflexivity|]. split; [exact (proj2 C83_hyp)|]. split; [exact (proj1 C83_hyp)|]. split; [|reflexivity].
  intros f H. vm_compute in H. destruct H as [<-|[<-|[<-|[]]]]; reflexivity.
Qed.
