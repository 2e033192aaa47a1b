(** * Callback tasks and the task that watches them: pyown/client/client.py *)
From Coq Require Import String List NArith ZArith Bool Lia.
From Verif Require Import PyStr Tags Messages Protocol Queue IO Client Items Dispatch.
Import ListNotations.
Open Scope N_scope.
Open Scope list_scope.

(** How the body of a callback ends: normally, with an exception ([x] names it),
    or cancelled.  CancelledError is not an Exception. *)
Inductive outcome := Finished | Raised (x : N) | Cancelled.

(** client.py:145-171 _dispatch_callbacks, with the lists of tasks kept apart:
    one for each class asked, and whether call_callbacks returned, in which case
    the list is given to _check_task_result.  When it raises, the tasks already
    created are in no list. *)
Fixpoint dispatch_groups (v : N) (r : registry) (cs : list item_class) (it : nat) (m : msg) : list (list task * bool) :=
  match cs with
  | [] => []
  | c :: cs =>
      match item_who v c, msg_who m with
      | Some w, Some w' =>
          if who_eqb w' w then
            let (ts, x) := call_callbacks r c it m in
            (ts, is_ok x) :: (if is_ok x then [] else dispatch_groups v r cs it m)
          else dispatch_groups v r cs it m
      | _, _ => dispatch_groups v r cs it m
      end
  end.

(** The tasks of one call of call_callbacks with what became of them so far, and
    the task that runs _check_task_result on them: there is none, it waits in
    gather, or it is over. *)
Inductive watcher := Unwatched | Watching | Over.
Record group := { g_tasks : list (task * option outcome); g_watch : watcher }.

(** [w_log]: the lines written by _check_task_result, each with the number of
    its group. *)
Record world := { w_groups : list group; w_log : list (nat * N) }.
Definition nothing : world := {| w_groups := []; w_log := [] |}.

Definition spawn (g : list task * bool) : group :=
  {| g_tasks := map (fun t => (t, None)) (fst g); g_watch := if snd g then Watching else Unwatched |}.

Fixpoint all_done (l : list (task * option outcome)) : bool :=
  match l with [] => true | (_, Some _) :: l => all_done l | (_, None) :: _ => false end.

(** client.py:173-178: gather( *tasks, return_exceptions=True) gives the results
    in the order of the tasks once all of them are done; then the results that
    are Exceptions are logged. *)
Fixpoint error_lines (g : nat) (l : list (task * option outcome)) : list (nat * N) :=
  match l with
  | [] => []
  | (_, Some (Raised x)) :: l => (g, x) :: error_lines g l
  | _ :: l => error_lines g l
  end.

Definition finish_task (i : nat) (o : outcome) (l : list (task * option outcome)) : list (task * option outcome) :=
  match nth_error l i with
  | Some (t, None) => setnth i (t, Some o) l
  | _ => l
  end.

(** An event reaches the dispatcher, a task ends, or the watcher of a group is
    resumed.  A step that is not possible changes nothing. *)
Inductive tact :=
| Event (r : registry) (it : nat) (m : msg)
| Finish (g i : nat) (o : outcome)
| Check (g : nat).

Definition tstep (v : N) (w : world) (a : tact) : world :=
  match a with
  | Event r it m => {| w_groups := w_groups w ++ map spawn (dispatch_groups v r subclasses it m); w_log := w_log w |}
  | Finish g i o =>
      match nth_error (w_groups w) g with
      | Some gr => {| w_groups := setnth g {| g_tasks := finish_task i o (g_tasks gr); g_watch := g_watch gr |} (w_groups w);
                      w_log := w_log w |}
      | None => w
      end
  | Check g =>
      match nth_error (w_groups w) g with
      | Some gr =>
          match g_watch gr with
          | Watching =>
              if all_done (g_tasks gr) then
                {| w_groups := setnth g {| g_tasks := g_tasks gr; g_watch := Over |} (w_groups w);
                   w_log := w_log w ++ error_lines g (g_tasks gr) |}
              else w
          | _ => w
          end
      | None => w
      end
  end.

Definition trun (v : N) (w : world) (acts : list tact) : world := fold_left (tstep v) acts w.
