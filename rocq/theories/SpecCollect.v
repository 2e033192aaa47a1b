(** * What C135 says, without the model's functions *)
From Coq Require Import String List NArith ZArith Bool Lia.
From Verif Require Import PyStr Tags Messages Protocol Queue IO Client Items Dispatch Tasks Errors Log Handler Collect.
Import ListNotations.
Open Scope N_scope.
Open Scope list_scope.

(** A history without its collections; what the dispatcher and its tasks do in
    it. *)
Fixpoint uncollected (l : list clab) : list clab :=
  match l with [] => [] | Gc _ :: l => uncollected l | a :: l => a :: uncollected l end.
Fixpoint acts (l : list clab) : list tact := match l with [] => [] | Act a :: l => a :: acts l | _ :: l => acts l end.

(** The objects for the calls of one event, if they are watched. *)
Definition family (g n : nat) : list node := NWatch g :: NGather g :: map (NTask g) (seq 0 n).

(** Nothing that can run refers to [l]: [P] are these objects and others of the
    application (say, a future that one of the calls waits for), none of which
    the loop knows and which only refer to each other. *)
Definition island (h : heap) (l : list node) : Prop :=
  exists P : node -> Prop, (forall n, P n -> ~ h_root h n) /\ (forall a b, h_ref h a b -> P b -> P a) /\
    (forall n, In n l -> P n) /\ (forall n, P n -> (exists x, n = NObj x) \/ In n l).

(** asyncio's words about calls that go before all of them have ended. *)
Inductive farewell (g : nat) : nat -> list (task * option Tasks.outcome) -> list report -> Prop :=
| F_nil i : farewell g i [] []
| F_waits i t l r : farewell g (Datatypes.S i) l r -> farewell g i ((t, None) :: l) (Destroyed (NTask g i) :: r)
| F_raised i t x l r : farewell g (Datatypes.S i) l r -> farewell g i ((t, Some (Raised x)) :: l) (Unretrieved g i x :: r)
| F_other i t o l r : o = Finished \/ o = Cancelled -> farewell g (Datatypes.S i) l r -> farewell g i ((t, Some o) :: l) r.

(** The lines of the library's exception handler for such words. *)
Inductive lines_for (text : N -> fault) : list report -> list str -> Prop :=
| LF_nil : lines_for text [] []
| LF_silent n l s : lines_for text l s -> lines_for text (Destroyed n :: l) s
| LF_line g i x l s : lines_for text l s ->
    lines_for text (Unretrieved g i x :: l) ((lit "Exception occurred: Task exception was never retrieved (" ++ f_text (text x) ++ lit ")") :: s).
