(** * Calls that do not overlap, and a gateway that answers each of them *)
From Coq Require Import String List NArith ZArith Bool Lia.
From Verif Require Import PyStr Tags Messages Protocol Queue IO Conc SpecConc.
Import ListNotations.
Open Scope list_scope.

(** All calls of a history: the task, the kind of call, the frame. *)
Fixpoint all_calls (es : list kevent) : list (nat * (pc * list N)) :=
  match es with [] => [] | KCall i p b :: r => (i, (p, b)) :: all_calls r | _ :: r => all_calls r end.

(** A call starts only when no call is in progress (a lock around the calls). *)
Definition serial (n : nat) (es : list kevent) : Prop :=
  forall pre i p b post s, es = pre ++ KCall i p b :: post -> crun (cinit n) pre = Some s -> Forall (eq PIdle) (k_pc s).

(** A whole answer to a call and what it means.  A command is answered by one
    message.  A request is answered by replies of the kind it asks for, and an
    ACK or something else that ends it. *)
Inductive whole_answer : pc -> list msg -> res unit -> Prop :=
| W_ack : whole_answer PCommand [MAck] (Ok tt)
| W_other m : m <> MAck -> whole_answer PCommand [m] (Err ResponseError)
| W_replies keep ms : Forall (fun m => keep m = true /\ m <> MAck /\ m <> MNack) ms -> whole_answer (PRequest keep) (ms ++ [MAck]) (Ok tt)
| W_refused keep ms m : Forall (fun m => keep m = true /\ m <> MAck /\ m <> MNack) ms -> m <> MAck -> (m = MNack \/ keep m = false) ->
    whole_answer (PRequest keep) (ms ++ [m]) (Err ResponseError).

(** [dialogue cs as]: one whole answer for each call. *)
Definition dialogue (cs : list (nat * (pc * list N))) (ans : list (list msg * res unit)) : Prop :=
  Forall2 (fun c a => whole_answer (fst (snd c)) (fst a) (snd a)) cs ans.
