(** * What a program that is over owes to its callbacks *)
From Coq Require Import String List NArith ZArith Bool Lia.
From Verif Require Import PyStr Tags Messages Dispatch Tasks SpecTasks Shutdown.
Import ListNotations.
Open Scope N_scope.
Open Scope list_scope.

(** The history without the beginnings, as the dispatcher sees it. *)
Fixpoint bare (acts : list pact) : list tact :=
  match acts with
  | [] => []
  | PEvent r it m :: acts => Event r it m :: bare acts
  | PFinish g i o :: acts => Finish g i o :: bare acts
  | PCheck g :: acts => Check g :: bare acts
  | PBegin _ :: acts => bare acts
  end.

(** The errors of the callbacks of group [g] that were reported at all: in the log
    or to the loop's handler. *)
Definition reported (f : finished) (g : nat) : list N := lines g (f_log f) ++ nth g (f_handled f) [].

(** The errors of a list of calls that are over. *)
Definition errors_of (l : list (task * outcome)) (xs : list N) : Prop := errors (map snd l) xs.

(** A group with nothing left to do: every callback is done and so is the watcher,
    if there is one. *)
Definition settled (gr : group) : Prop := (exists os, ends (g_tasks gr) os) /\ g_watch gr <> Watching.

(** [thinned l l']: [l] is [l'] without some ends of callbacks and some turns of
    watchers; no event is left out. *)
Inductive thinned : list tact -> list tact -> Prop :=
| Th_nil : thinned [] []
| Th_keep a l l' : thinned l l' -> thinned (a :: l) (a :: l')
| Th_finish g i o l l' : thinned l l' -> thinned l (Finish g i o :: l')
| Th_check g l l' : thinned l l' -> thinned l (Check g :: l').

(** How the callbacks ended that were not done when the program was over. *)
Definition unfinished (l : list (task * option outcome)) (l' : list (task * outcome)) : list outcome :=
  map (fun p => snd (snd p)) (filter (fun p => match snd (fst p) with None => true | Some _ => false end) (combine l l')).

(** A callback that is done has raised. *)
Definition has_raised (gr : group) : Prop := exists t x, In (t, Some (Raised x)) (g_tasks gr).

(** The callbacks of group [g], from the [i]th on, raise one after the other. *)
Fixpoint all_raise (g i : nat) (xs : list N) : list pact :=
  match xs with [] => [] | x :: xs => PFinish g i (Raised x) :: all_raise g (S i) xs end.
