(** * Several connections, some of which were given up after a timeout *)
From Coq Require Import String List NArith ZArith Bool Lia.
From Verif Require Import PyStr Tags Messages Protocol Queue Sender Conc SpecConc SpecSerial SpecHouse HouseThms SpecTogether TogetherThms Line SpecLine SpecCrowd SpecLate.
Import ListNotations.
Open Scope list_scope.

(** As [behaves] and [told], with timeouts. *)
Definition behaves_late (high low : nat) (ns : nat -> nat) (es : list (nat * levent)) (css : nat -> list call) (j : nat) : Prop :=
  Forall call_ok (css j) /\ locked high low (ns j) (of_client j es) /\ calm (of_client j es) /\ made (started (of_client j es)) (css j).

Definition told_late (es : list (nat * levent)) (css : nat -> list call) (j : nat) (ord : list nat) (l : lstate) (inn out : list (list N))
    (log : list (list (str * seen) * res unit)) (heard : list (list msg)) : Prop :=
  dialogue (firstn (count j ord) (started (of_client j es))) (combine (mine j ord heard) (map snd (mine j ord log))) /\
  (inn = [] -> Forall (eq SIdle) (s_tasks (l_s l)) -> count j ord = length (css j)) /\
  exists k stream read later, (k <= length (css j) <= k + 1)%nat /\
    (Forall (eq SIdle) (s_tasks (l_s l)) -> Forall (eq PIdle) (k_pc (l_c l)) -> k = length (css j) /\ read = []) /\
    map fst (k_done (l_c l)) = firstn k (map fst (started (of_client j es))) /\
    takes (map (fun c => fst (snd c)) (firstn k (started (of_client j es)))) stream (map snd (k_done (l_c l))) /\
    map snd (q_out (k_q (l_c l))) = stream ++ read /\
    concat (mine j ord heard) = stream ++ read ++ c_queue (q_conn (k_q (l_c l))) ++ later /\ (out = [] -> later = []).

(** Call [i] ended with the verdict [r], and no call before it timed out. *)
Definition in_time (rs : list (res unit)) (i : nat) (r : res unit) : Prop := nth_error rs i = Some r /\ timed_out r = false /\ timeouts (firstn i rs) = 0%nat.
