(** * Property C99: what one task sees of a shared client *)
From Coq Require Import String List NArith ZArith Bool Lia.
From Verif Require Import PyStr Tags Messages SpecMsg Protocol Queue IO Client SpecItem Items ItemThms Conc SpecConc SpecSingle SingleThms.
Import ListNotations.
Open Scope list_scope.

(** Any number of tasks, any schedule of calls, packets, wakeups and timeouts:
    the calls a task has made behave as if made one after the other on a script
    of its own.  The messages of that script are those handed to the task; the
    frames of the task are written in the order of its calls; a script has a
    silence only if a call of the task was timed out. *)
Theorem C99_task : forall n es s i, crun (cinit n) es = Some s -> (i < n)%nat ->
  exists cs pend t p read,
    calls i es = cs ++ pend /\ sequential cs t (own i (k_done s)) /\ own i (k_writes s) = map snd (calls i es) /\
    own i (q_out (k_q s)) = somes t ++ read /\ nth_error (k_pc s) i = Some p /\ in_progress p read pend /\
    (In None t -> In (KTimeout i) es).
Proof. exact task_view. Qed.
Print Assumptions C99_task.

(** The messages handed to the tasks together are those that arrived, in order,
    but for the ones still queued: none is lost or given to two tasks. *)
Theorem C99_all : forall n es s, crun (cinit n) es = Some s ->
  map snd (q_out (k_q s)) ++ c_queue (q_conn (k_q s)) = SpecConc.answers es.
Proof. exact all_views. Qed.
Print Assumptions C99_all.

(** A client used by one task: the script is what the gateway sent. *)
Theorem C99_alone : forall es s, crun (cinit 1) es = Some s ->
  exists cs pend t p read, calls 0 es = cs ++ pend /\ sequential cs t (own 0 (k_done s)) /\ own 0 (k_writes s) = map snd (calls 0 es) /\
    SpecConc.answers es = somes t ++ read ++ c_queue (q_conn (k_q s)) /\ k_pc s = [p] /\ in_progress p read pend /\ (In None t -> In (KTimeout 0) es).
Proof. exact alone. Qed.
Print Assumptions C99_alone.

(** A call whose time is over ends with TimeoutError when its task next runs,
    whatever arrived in between; what arrived stays for the others. *)
Theorem C99_timeout : forall n es fs i s,
  (i < n)%nat -> crun (cinit n) (es ++ KTimeout i :: fs ++ [KRun i]) = Some s -> ~ In (KRun i) fs ->
  exists s0, crun (cinit n) (es ++ KTimeout i :: fs) = Some s0 /\
    k_done s = k_done s0 ++ [(i, Err TimeoutError)] /\ q_out (k_q s) = q_out (k_q s0) /\ nth_error (k_pc s) i = Some PIdle /\
    c_queue (q_conn (k_q s)) = c_queue (q_conn (k_q s0)).
Proof. exact timed_out. Qed.
Print Assumptions C99_timeout.

(** The calls are those of the items. *)
Theorem C99_calls : forall it (s : script), ready it -> placed it ->
  (forall what, tagtext what -> send_normal_message it what s = prog PCommand (frame_cmd (it_who it) what (it_where it)) s) /\
  (forall dim v vs, tagtext dim -> Forall tagtext (v :: vs) ->
     send_dimension_writing it dim (v :: vs) s = prog PCommand (frame_dimwri (it_who it) (it_where it) dim (v :: vs)) s) /\
  send_status_request it (fun _ => Ok []) s = prog (PRequest is_normal) (frame_status (it_who it) (it_where it)) s /\
  (forall dim, tagtext dim -> send_dimension_request it dim (fun _ => Ok []) s = prog (PRequest is_dimres) (frame_dimreq (it_who it) (it_where it) dim) s).
Proof. exact item_calls. Qed.
Print Assumptions C99_calls.

(** Task 0 makes a request and, after it, a command; task 1 a command that times out
    although an answer arrives before it runs. *)
Definition pkt (t : string) : list N := lit t.
Definition run2 : list kevent :=
  [KCall 0 (PRequest is_normal) [1%N]; KPacket (pkt "*1*1*12##"); KRun 0; KCall 1 PCommand [2%N]; KPacket (pkt "*#*1##"); KRun 0;
   KTimeout 1; KPacket (pkt "*#*0##"); KRun 1; KCall 0 PCommand [3%N]].
Example C99_ex : exists s, crun (cinit 2) run2 = Some s /\
  k_done s = [(0%nat, Ok tt); (1%nat, Err TimeoutError); (0%nat, Err ResponseError)] /\
  own 0 (q_out (k_q s)) = [MNormal LIGHTING (lit "1") (lit "12"); MAck; MNack] /\ own 1 (q_out (k_q s)) = [] /\
  calls 0 run2 = [(PRequest is_normal, [1%N]); (PCommand, [3%N])].
Proof. eexists. split; [vm_compute; reflexivity|]. repeat split. Qed.
