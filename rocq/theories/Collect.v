(** * Which callback tasks Python may collect: pyown/client/client.py:168, 173-178,
      pyown/items/base.py:83-85

    Neither [_create_tasks] nor [_dispatch_callbacks] leaves a reference to the
    tasks behind: the list of tasks goes to [_check_task_result] and the task that
    runs it goes nowhere.  The event loop knows a task only while a handle for it
    is scheduled; the set of all tasks in asyncio/tasks.py is a WeakSet.  Here the
    references between the tasks of Tasks.v, and what happens when Python
    collects what nobody can reach. *)
From Coq Require Import String List NArith ZArith Bool Lia.
From Verif Require Import PyStr Tags Messages Protocol Queue IO Client Items Dispatch Tasks Errors Log Handler.
Import ListNotations.
Open Scope N_scope.
Open Scope list_scope.

(** Objects: the task of a call (number [i] of group [g]), the task of
    _check_task_result for a group, the future that gather() made for it, and
    everything else (futures, locks, the objects of the application). *)
Inductive node := NTask (g i : nat) | NWatch (g : nat) | NGather (g : nat) | NObj (x : nat).

Lemma node_eq_dec (a b : node) : {a = b} + {a <> b}.
Proof. decide equality; apply Nat.eq_dec. Qed.

(** What the loop and the application hold: [h_root], the objects that the ready
    queue, the timers, the sockets, the running code and the globals refer to;
    [h_ref], the references of objects to objects, in particular of a waiting
    task to what it awaits and back. *)
Record heap := { h_root : node -> Prop; h_ref : node -> node -> Prop }.

(** The references made by client.py:173-174 and asyncio/tasks.py gather, while
    the watcher waits: its argument [tasks]; it awaits the future of gather(),
    whose callbacks hold it; that future holds the children, and each child that
    is not done holds the future through its _done_callback. *)
Inductive lib (w : world) : node -> node -> Prop :=
| L_argument g gr i p : nth_error (w_groups w) g = Some gr -> g_watch gr = Watching -> nth_error (g_tasks gr) i = Some p ->
    lib w (NWatch g) (NTask g i)
| L_awaits g gr : nth_error (w_groups w) g = Some gr -> g_watch gr = Watching -> lib w (NWatch g) (NGather g)
| L_wakes g gr : nth_error (w_groups w) g = Some gr -> g_watch gr = Watching -> lib w (NGather g) (NWatch g)
| L_child g gr i p : nth_error (w_groups w) g = Some gr -> g_watch gr = Watching -> nth_error (g_tasks gr) i = Some p ->
    lib w (NGather g) (NTask g i)
| L_done g gr i t : nth_error (w_groups w) g = Some gr -> g_watch gr = Watching -> nth_error (g_tasks gr) i = Some (t, None) ->
    lib w (NTask g i) (NGather g).

(** When the last child is done gather() sets its result and the watcher is
    scheduled.  (The callback of each child is taken to run at once.) *)
Definition woken (w : world) (n : node) : Prop :=
  exists g gr, n = NWatch g /\ nth_error (w_groups w) g = Some gr /\ g_watch gr = Watching /\ all_done (g_tasks gr) = true.

Inductive reach (w : world) (h : heap) : node -> Prop :=
| R_root n : h_root h n -> reach w h n
| R_woken n : woken w n -> reach w h n
| R_ref a b : reach w h a -> h_ref h a b -> reach w h b
| R_lib a b : reach w h a -> lib w a b -> reach w h b.

(** The tasks and futures that exist. *)
Definition there (w : world) (n : node) : Prop :=
  match n with
  | NTask g i => exists gr p, nth_error (w_groups w) g = Some gr /\ nth_error (g_tasks gr) i = Some p
  | NWatch g | NGather g => (g < length (w_groups w))%nat
  | NObj _ => True
  end.

(** asyncio/tasks.py Task.__del__ and asyncio/futures.py Future.__del__: a task
    that goes while it is pending, and one whose exception nobody retrieved
    (gather retrieves them when all children are done). *)
Inductive report := Destroyed (n : node) | Unretrieved (g i : nat) (x : N).

Definition last_word (w : world) (n : node) : list report :=
  match n with
  | NTask g i =>
      match nth_error (w_groups w) g with
      | Some gr =>
          match nth_error (g_tasks gr) i, g_watch gr with
          | Some (_, None), _ => [Destroyed n]
          | Some (_, Some (Raised x)), (Unwatched | Watching) => [Unretrieved g i x]
          | _, _ => []
          end
      | None => []
      end
  | NWatch g =>
      match nth_error (w_groups w) g with
      | Some gr => match g_watch gr with Watching => [Destroyed n] | _ => [] end
      | None => []
      end
  | _ => []
  end.

(** [c_gone]: what was collected; [c_told]: the reports to the loop's exception
    handler. *)
Record cworld := { c_w : world; c_heap : heap; c_gone : list node; c_told : list report }.

(** An object that nothing refers to yet. *)
Definition fresh (h : heap) (n : node) : Prop :=
  (exists x, n = NObj x) /\ ~ h_root h n /\ forall m, ~ h_ref h n m /\ ~ h_ref h m n.

Definition in_pyown (n : node) : Prop := match n with NObj _ => False | _ => True end.

(** create_task schedules the new tasks. *)
Definition scheduled (w w' : world) (h : heap) : heap :=
  {| h_root := fun n => h_root h n \/ (there w' n /\ ~ there w n /\ match n with NTask _ _ | NWatch _ => True | _ => False end); h_ref := h_ref h |}.

(** An event is dispatched; a task ends; a watcher goes on; the application
    runs; Python collects.  Only what the loop can reach runs; running code can
    only refer to what it can reach and to new objects, and may drop references.
    (asyncio.all_tasks(), with which asyncio.run() cancels the tasks left at its
    end, is not modelled here but in Shutdown.v: it reads the WeakSet.)  What is collected cannot be
    reached, and no task or future that is left refers to it; of what goes only
    the tasks and futures of the library are named. *)
Inductive clab := Act (a : tact) | Mutate (h : heap) | Gc (dead : list node).

Inductive cstep (v : N) (c : cworld) : clab -> cworld -> Prop :=
| C_event r it m :
    cstep v c (Act (Event r it m))
      {| c_w := tstep v (c_w c) (Event r it m); c_heap := scheduled (c_w c) (tstep v (c_w c) (Event r it m)) (c_heap c);
         c_gone := c_gone c; c_told := c_told c |}
| C_finish g i o gr t : nth_error (w_groups (c_w c)) g = Some gr -> nth_error (g_tasks gr) i = Some (t, None) ->
    reach (c_w c) (c_heap c) (NTask g i) -> ~ In (NTask g i) (c_gone c) ->
    cstep v c (Act (Finish g i o)) {| c_w := tstep v (c_w c) (Finish g i o); c_heap := c_heap c; c_gone := c_gone c; c_told := c_told c |}
| C_check g gr : nth_error (w_groups (c_w c)) g = Some gr -> g_watch gr = Watching -> all_done (g_tasks gr) = true ->
    reach (c_w c) (c_heap c) (NWatch g) -> ~ In (NWatch g) (c_gone c) ->
    cstep v c (Act (Check g)) {| c_w := tstep v (c_w c) (Check g); c_heap := c_heap c; c_gone := c_gone c; c_told := c_told c |}
| C_mutate h :
    (forall n, h_root h n -> h_root (c_heap c) n \/ reach (c_w c) (c_heap c) n \/ fresh (c_heap c) n) ->
    (forall a b, h_ref h a b -> h_ref (c_heap c) a b \/
       ((reach (c_w c) (c_heap c) a \/ fresh (c_heap c) a) /\ (reach (c_w c) (c_heap c) b \/ fresh (c_heap c) b))) ->
    cstep v c (Mutate h) {| c_w := c_w c; c_heap := h; c_gone := c_gone c; c_told := c_told c |}
| C_gc dead : NoDup dead ->
    (forall n, In n dead -> in_pyown n /\ there (c_w c) n /\ ~ In n (c_gone c) /\ ~ reach (c_w c) (c_heap c) n) ->
    (forall a b, in_pyown a -> h_ref (c_heap c) a b \/ lib (c_w c) a b -> In b dead -> In a dead \/ In a (c_gone c)) ->
    cstep v c (Gc dead)
      {| c_w := c_w c; c_heap := c_heap c; c_gone := c_gone c ++ dead; c_told := c_told c ++ concat (map (last_word (c_w c)) dead) |}.

Inductive crun (v : N) : cworld -> list clab -> cworld -> Prop :=
| Cr_nil c : crun v c [] c
| Cr_snoc c l c1 a c2 : crun v c l c1 -> cstep v c1 a c2 -> crun v c (l ++ [a]) c2.

(** Nothing yet: no tasks, and some objects of the application. *)
Definition objects_only (h : heap) : Prop :=
  (forall n, h_root h n -> exists x, n = NObj x) /\ (forall a b, h_ref h a b -> (exists x, a = NObj x) /\ exists x, b = NObj x).
Definition fresh_world (h : heap) : cworld := {| c_w := nothing; c_heap := h; c_gone := []; c_told := [] |}.

(** asyncio/tasks.py Task.__del__, asyncio/futures.py Future.__del__: the context
    of a report; [text] is what an exception says, [name] the text of the task. *)
Definition context_of (text : N -> fault) (name : node -> str) (r : report) : context :=
  match r with
  | Destroyed n =>
      {| x_message := Some (lit "Task was destroyed but it is pending!"); x_exception := None;
         x_task := Some (name n); x_protocol := None; x_transport := None; x_rest := [] |}
  | Unretrieved g i x =>
      {| x_message := Some (lit "Task exception was never retrieved"); x_exception := Some (text x);
         x_task := None; x_protocol := None; x_transport := None; x_rest := [(lit "future", name (NTask g i))] |}
  end.
