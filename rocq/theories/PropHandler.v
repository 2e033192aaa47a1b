(** * C133: the event loop's exception handler *)
From Coq Require Import String List NArith ZArith Bool Lia.
From Verif Require Import PyStr Messages Protocol Errors Log Handler SpecHandler HandlerThms.
Import ListNotations.
Open Scope N_scope.
Open Scope list_scope.

(** What a report to the loop leads to, after any history: if a client was
    created after the application last set a handler, the lines of the library
    and nothing else; otherwise the application's handler is called with it, or
    asyncio reports it itself. *)
Theorem C133_reports cb h fut l x : x_message x <> None ->
  exists o, v_out (hrun cb h fut new_loop (l ++ [HReport x])) = v_out (hrun cb h fut new_loop l) ++ o /\
  (after_client l -> handled x o) /\
  (forall k, after_app (Some k) l -> o = [Told k x]) /\
  (after_app None l \/ untouched l -> o = [Usual x]).
Proof.
  intros M. eexists. split; [apply report_out|]. split; [|split].
  - intros A. rewrite (slot_client cb h fut _ l A). apply handled_fun; exact M.
  - intros k A. rewrite (slot_app cb h fut _ _ l A). reflexivity.
  - intros [A|A]; [rewrite (slot_app cb h fut _ _ l A); reflexivity|]. rewrite (run_slot cb h fut l new_loop A). reflexivity.
Qed.
Print Assumptions C133_reports.

(** The claim "the handler that the application has set is told of every
    report" is false: it is told exactly as long as no client is created. *)
Theorem C133_app_refuted cb h fut a k b x : x_message x <> None -> no_set b ->
  (v_out (hrun cb h fut new_loop (a ++ HSet (Some k) :: b ++ [HReport x])) =
   v_out (hrun cb h fut new_loop (a ++ HSet (Some k) :: b)) ++ [Told k x] <-> no_new b).
Proof.
  intros M S. replace (a ++ HSet (Some k) :: b ++ [HReport x]) with ((a ++ HSet (Some k) :: b) ++ [HReport x]) by (rewrite <- app_assoc; reflexivity).
  split.
  - intros E I. apply in_split in I. destruct I as (c & d & ->).
    rewrite report_out in E. apply app_inv_head in E. revert E. rewrite slot_client.
    + intros E. cbn in E. pose proof (handled_fun x M) as H. rewrite E in H. inversion H.
    + exists (a ++ HSet (Some k) :: c), d. split; [rewrite <- app_assoc; reflexivity|]. intros k' I. apply (S k'), in_or_app. right; right; exact I.
  - intros NN. rewrite report_out. f_equal. rewrite (slot_app cb h fut _ (Some k)); [reflexivity|]. exists a, b. auto.
Qed.
Print Assumptions C133_app_refuted.

(** The claim "every report to the loop is seen by somebody" is false: lost are
    exactly the reports without an exception once a client holds the handler. *)
Theorem C133_seen_refuted cb h fut l x :
  (v_out (hrun cb h fut new_loop (l ++ [HReport x])) = v_out (hrun cb h fut new_loop l) <-> after_client l /\ x_exception x = None).
Proof.
  rewrite report_out. split.
  - intros E. rewrite <- app_nil_r in E. apply app_inv_head in E.
    destruct (three l) as [A|[[k A]|A]].
    + split; [exact A|]. rewrite (slot_client cb h fut _ l A) in E. cbn in E. unfold exception_handler in E. destruct (x_exception x); [discriminate|reflexivity].
    + rewrite (slot_app cb h fut _ _ l A) in E. destruct k; discriminate.
    + rewrite (run_slot cb h fut l new_loop A) in E. discriminate.
  - intros [A X]. rewrite (slot_client cb h fut _ l A). cbn. unfold exception_handler. rewrite X. apply app_nil_r.
Qed.
Print Assumptions C133_seen_refuted.

(** The claim "a report names the class of the exception" is false: the library
    says the same of two exceptions with the same text. *)
Theorem C133_class_refuted cb h fut l m c1 c2 s t p tr r1 r2 : after_client l ->
  v_out (hrun cb h fut new_loop (l ++ [HReport {| x_message := m; x_exception := Some (Fault c1 s); x_task := t; x_protocol := p; x_transport := tr; x_rest := r1 |}])) =
  v_out (hrun cb h fut new_loop (l ++ [HReport {| x_message := m; x_exception := Some (Fault c2 s); x_task := t; x_protocol := p; x_transport := tr; x_rest := r2 |}])).
Proof. intros A. rewrite !report_out, (slot_client cb h fut _ l A). reflexivity. Qed.
Print Assumptions C133_class_refuted.

(** The claim "using a client again and again logs no error while nothing goes
    wrong" is false: with one client, every connection after the first makes one
    line of its beginning and one of its end; when the client is collected there
    is one more exactly if its first connection ended by an exception. *)
Theorem C133_again_refuted cb h fut l : Forall of_client l ->
  v_out (hrun cb h fut new_loop (HNew :: l)) =
    repeat (line (lit "Exception occurred: Exception in callback " ++ cb ++ lit " (invalid state)")) ((made l - 1) + (lost l - 1)) /\
  v_out (hrun cb h fut new_loop (HNew :: l ++ [HGone 0])) =
    v_out (hrun cb h fut new_loop (HNew :: l)) ++
    match first_end l with Some e => [line (lit "Exception occurred: Future exception was never retrieved (" ++ f_text e ++ lit ")")] | None => [] end.
Proof.
  intros F. change (HNew :: l ++ [HGone 0]) with ((HNew :: l) ++ [HGone 0]). rewrite hrun_app, (client_life cb h fut l F). split; [reflexivity|].
  assert (Z : lost l = O -> first_end l = None) by (clear; induction l as [|[] l IH]; cbn; auto; discriminate).
  cbn [hrun fold_left hstep one v_clients nth_error e_gone e_end e_start].
  destruct (lost l) eqn:L; [rewrite (Z eq_refl); cbn; rewrite app_nil_r; reflexivity|].
  destruct (first_end l) as [e|]; cbn; [reflexivity|rewrite app_nil_r; reflexivity].
Qed.
Print Assumptions C133_again_refuted.

(** With any number of clients on the loop, each is reported for itself: of client
    [i], for as long as it was not collected, a second connection, and a second
    end, is reported as a future set twice, the first of each is not; when it is
    collected, the exception that ended its first connection is reported, and
    nothing otherwise. *)
Theorem C133_each cb h fut i l b : since i l b ->
  let out l := v_out (hrun cb h fut new_loop l) in
  (In (HMade i) b -> out (l ++ [HMade i]) = out (l ++ [HReport (twice cb h)])) /\
  (~ In (HMade i) b -> out (l ++ [HMade i]) = out l) /\
  (forall why, end_of i b <> None -> out (l ++ [HLost i why]) = out (l ++ [HReport (twice cb h)])) /\
  (forall why, end_of i b = None -> out (l ++ [HLost i why]) = out l) /\
  (forall e, end_of i b = Some (Some e) -> out (l ++ [HGone i]) = out (l ++ [HReport (unasked e fut)])) /\
  ((forall e, end_of i b <> Some (Some e)) -> out (l ++ [HGone i]) = out l).
Proof. apply each. Qed.
Print Assumptions C133_each.

(** The lines that C109 has for a packet that data_received refuses are those of
    this handler for asyncio's report of it (selector_events.py, _fatal_error),
    whoever created the client. *)
Theorem C133_packet cb h fut other self tr data r l : packet_messages_x data = Raise r -> after_client l ->
  v_out (hrun cb h fut new_loop (l ++ [HReport {| x_message := Some (lit "Fatal error: protocol.data_received() call failed."); x_exception := Some (Fault [] (exn_text other r data));
    x_task := None; x_protocol := Some self; x_transport := Some tr; x_rest := [] |}])) =
  v_out (hrun cb h fut new_loop l) ++ map Said (handler_log other self data).
Proof. intros P A. rewrite report_out, (slot_client cb h fut _ l A). unfold handler_log. rewrite P. reflexivity. Qed.
Print Assumptions C133_packet.

(** A program with a handler of its own, number 7; asyncio's report of a task
    that was destroyed has no exception. *)
Definition destroyed : context :=
  {| x_message := Some (lit "Task was destroyed but it is pending!"); x_exception := None;
     x_task := Some (lit "<Task pending name='Task-3'>"); x_protocol := None; x_transport := None; x_rest := [] |}.
Definition failed : context :=
  {| x_message := Some (lit "Task exception was never retrieved"); x_exception := Some (Fault (lit "KeyError") (lit "'x'"));
     x_task := None; x_protocol := None; x_transport := None; x_rest := [(lit "future", lit "<Task finished>")] |}.

Example C133_ex cb h fut :
  v_out (hrun cb h fut new_loop [HSet (Some 7); HReport destroyed; HReport failed]) = [Told 7 destroyed; Told 7 failed] /\
  v_out (hrun cb h fut new_loop [HSet (Some 7); HNew; HMade 0; HClose 0; HLost 0 None; HReport destroyed; HReport failed]) =
    [line (lit "Exception occurred: Task exception was never retrieved ('x')")] /\
  v_out (hrun (lit "cb") h fut new_loop [HNew; HMade 0; HClose 0; HLost 0 None; HMade 0; HClose 0; HLost 0 None]) =
    [line (lit "Exception occurred: Exception in callback cb (invalid state)"); line (lit "Exception occurred: Exception in callback cb (invalid state)")] /\
  v_out (hrun cb h fut new_loop [HNew; HMade 0; HLost 0 (Some (Fault (lit "ConnectionResetError") (lit "[Errno 104]"))); HGone 0]) =
    [line (lit "Exception occurred: Future exception was never retrieved ([Errno 104])")] /\
  after_client [HSet (Some 7); HNew; HMade 0] /\ Forall of_client [HMade 0; HClose 0; HLost 0 None].
Proof.
  repeat split; try reflexivity.
  - exists [HSet (Some 7)], [HMade 0]. split; [reflexivity|]. intros k I. cbn in I. intuition discriminate.
  - repeat constructor.
Qed.

(** Two clients: the second one loses its first connection by an exception, the
    first one is connected again. *)
Example C133_each_ex : since 1 [HNew; HMade 0; HNew; HMade 1; HLost 1 (Some (Fault (lit "OSError") (lit "x"))); HLost 0 None] [HMade 1; HLost 1 (Some (Fault (lit "OSError") (lit "x"))); HLost 0 None] /\
  end_of 1 [HMade 1; HLost 1 (Some (Fault (lit "OSError") (lit "x"))); HLost 0 None] = Some (Some (Fault (lit "OSError") (lit "x"))) /\
  since 0 [HNew; HMade 0; HNew; HMade 1] [HMade 0; HNew; HMade 1].
Proof.
  split; [exists [HNew; HMade 0]; split; [reflexivity|]; split; [reflexivity|]; cbn; intuition discriminate|]. split; [reflexivity|].
  exists []. split; [reflexivity|]. split; [reflexivity|]. cbn. intuition discriminate.
Qed.
