(** * What the log owes to the user's callbacks *)
From Coq Require Import String List NArith ZArith Bool Lia.
From Verif Require Import PyStr Tags Messages Dispatch Tasks.
Import ListNotations.
Open Scope N_scope.
Open Scope list_scope.

(** The exceptions among the ends of the calls for an event, in the order of
    registration; a cancellation is none. *)
Inductive errors : list outcome -> list N -> Prop :=
| E_nil : errors [] []
| E_finished os xs : errors os xs -> errors (Finished :: os) xs
| E_cancelled os xs : errors os xs -> errors (Cancelled :: os) xs
| E_raised x os xs : errors os xs -> errors (Raised x :: os) (x :: xs).

(** [ends l os]: all calls of [l] have ended, as [os] says. *)
Definition ends (l : list (task * option outcome)) (os : list outcome) : Prop := map snd l = map Some os.

(** The lines about the calls of group [g]. *)
Definition lines (g : nat) (log : list (nat * N)) : list N := map snd (filter (fun e => Nat.eqb (fst e) g) log).

(** The events of a history. *)
Fixpoint events (acts : list tact) : list tact :=
  match acts with [] => [] | Event r it m :: acts => Event r it m :: events acts | _ :: acts => events acts end.

(** The calls made so far, whatever became of them. *)
Definition made_calls (w : world) : list (list task) := map (fun g => map fst (g_tasks g)) (w_groups w).
