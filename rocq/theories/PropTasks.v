(** * Property C83: errors of callbacks *)
From Coq Require Import String List NArith ZArith Bool Lia.
From Verif Require Import PyStr Tags Messages SpecMsg SpecTag MessageThms MessageThms2 MessageThms3 TagThms Protocol Queue IO Client
  Items Dispatch SpecDispatch DispatchThms DispatchThms2 DispatchThms3 Tasks SpecTasks TasksThms.
Import ListNotations.
Open Scope N_scope.
Open Scope list_scope.

(** ** C83 Errors of callbacks are reported *)

(** When every callback takes the arguments, the event makes one call each, and
    once all have ended exactly their exceptions are logged, in order. *)
Theorem C83_reported_partial : forall v r it m k args acts1 acts2, v < 13 -> built m -> reports m k args ->
  (forall f, In f (r k) -> cb_takes f (S (length args)) = true) ->
  let w := trun v nothing (acts1 ++ Event r it m :: acts2) in
  let g := length (w_groups (trun v nothing acts1)) in
  exists gr, nth_error (w_groups w) g = Some gr /\ map fst (g_tasks gr) = map (fun f => (cb_id f, VItem it :: args)) (r k) /\
    forall os, ends (g_tasks gr) os -> errors os (lines g (w_log (tstep v w (Check g)))).
Proof. exact accepted_watched. Qed.
Print Assumptions C83_reported_partial.

(** In every history the log has nothing else, and nothing twice. *)
Theorem C83_nothing_else : forall v acts g gr, nth_error (w_groups (trun v nothing acts)) g = Some gr ->
  lines g (w_log (trun v nothing acts)) = [] \/
  exists os, ends (g_tasks gr) os /\ errors os (lines g (w_log (trun v nothing acts))).
Proof. exact log_honest. Qed.
Print Assumptions C83_nothing_else.

(** As long as one call goes on, no error of the other callbacks of the same
    event is reported. *)
Theorem C83_delayed_refuted : forall v acts g gr i t, nth_error (w_groups (trun v nothing acts)) g = Some gr ->
  nth_error (g_tasks gr) i = Some (t, None) -> lines g (w_log (trun v nothing acts)) = [].
Proof. exact log_delayed. Qed.
Print Assumptions C83_delayed_refuted.

(** If one callback cannot take the arguments, the errors of the callbacks that
    were called before it are never reported by _check_task_result (by the loop's
    handler, once Python collects the calls: C135). *)
Theorem C83_refused_refuted : forall v r it m k args f acts1 acts2, v < 13 -> built m -> reports m k args ->
  In f (r k) -> cb_takes f (S (length args)) = false ->
  let w := trun v nothing (acts1 ++ Event r it m :: acts2) in
  let g := length (w_groups (trun v nothing acts1)) in
  exists gr ts, nth_error (w_groups w) g = Some gr /\ map fst (g_tasks gr) = ts /\ calls (VItem it :: args) (r k) ts /\
    lines g (w_log w) = [].
Proof. exact refused_unreported. Qed.
Print Assumptions C83_refused_refuted.

(** What the callbacks do changes nothing about the calls made: the calls of a
    history are those of its events alone. *)
Theorem C83_independent : forall v acts, made_calls (trun v nothing acts) = made_calls (trun v nothing (events acts)).
Proof. exact calls_independent. Qed.
Print Assumptions C83_independent.

(** These are the calls of C42. *)
Theorem C83_same_calls : forall v r cs it m, concat (map fst (dispatch_groups v r cs it m)) = dispatch v r cs it m.
Proof. exact groups_dispatch. Qed.
Print Assumptions C83_same_calls.

Definition g2 (i : N) : callback := {| cb_id := i; cb_takes := fun n => (n =? 2)%nat |}.
Definition g1 (i : N) : callback := {| cb_id := i; cb_takes := fun n => (n =? 1)%nat |}.
Definition on12 : msg := MNormal LIGHTING (lit "1") (lit "12").
Definition regs (l : list callback) : registry := fold_left (fun r c => register r (K_light STATUS_CHANGE) c) l no_callbacks.

Example C83_hyp : reports on12 (K_light STATUS_CHANGE) [VBool true] /\ built on12.
Proof. split; [apply Rep_status; tauto|]. split; [|discriminate]. repeat (constructor; [apply tagtext_valid; reflexivity|]). constructor. Qed.

Example C83_ex :
  (* three callbacks: the second and the third raise, the first takes its time *)
  w_log (trun 12 nothing [Event (regs [g2 1; g2 2; g2 3]) 0 on12; Finish 0 2 (Raised 33); Finish 0 1 (Raised 22); Check 0]) = [] /\
  w_log (trun 12 nothing [Event (regs [g2 1; g2 2; g2 3]) 0 on12; Finish 0 2 (Raised 33); Finish 0 1 (Raised 22); Finish 0 0 Finished; Check 0; Check 0])
    = [(0%nat, 22); (0%nat, 33)] /\
  (* the third cannot take two arguments *)
  w_log (trun 12 nothing [Event (regs [g2 1; g2 2; g1 3]) 0 on12; Finish 0 0 (Raised 11); Finish 0 1 (Raised 22); Check 0]) = [] /\
  made_calls (trun 12 nothing [Event (regs [g2 1; g2 2; g1 3]) 0 on12]) = [[(1, [VItem 0; VBool true]); (2, [VItem 0; VBool true])]].
Proof. vm_compute. repeat split. Qed.
