(** * Connections that are lost and calls that are cancelled before they are sent *)
From Coq Require Import String List NArith ZArith Bool Lia.
From Verif Require Import PyStr Tags Messages Protocol Queue Sender IO Conc SpecConc SpecSerial SpecHouse HouseThms SpecTogether TogetherThms Line SpecLine SpecCrowd SpecLate SpecAgain.
Import ListNotations.
Open Scope list_scope.

(** What became of the messages of a connection, in the order of the calls. *)
Definition outcomes (l : lstate) : list outcome := map snd (s_done (l_s l)).
(** The transport took it; and: the caller went on to read the answer. *)
Definition went_out (o : outcome) : bool := match o with OWritten => true | _ => false end.
Definition went_on (o : outcome) : bool := match o with OWritten | ODropped => true | _ => false end.
Definition among {A} (ok : outcome -> bool) (os : list outcome) (xs : list A) : list A := map fst (filter (fun x => ok (snd x)) (combine xs os)).

Definition encodable (es : list levent) : Prop :=
  Forall (fun e => match e with LCall _ _ m _ => msg_bytes m = Ok (msg_str m) | _ => True end) es.

(** As [behaves_late] and [told_late], with connections that may be lost and
    calls that may be cancelled while the transport is paused. *)
Definition behaves_any (high low : nat) (ns : nat -> nat) (es : list (nat * levent)) (css : nat -> list call) (j : nat) : Prop :=
  Forall call_ok (css j) /\ locked high low (ns j) (of_client j es) /\ encodable (of_client j es) /\ made (started (of_client j es)) (css j).

Definition told_any (es : list (nat * levent)) (j : nat) (ord : list nat) (l : lstate) (out : list (list N))
    (log : list (list (str * seen) * res unit)) (heard : list (list msg)) : Prop :=
  let reading := among went_on (outcomes l) (started (of_client j es)) in
  dialogue (firstn (count j ord) reading) (combine (mine j ord heard) (map snd (mine j ord log))) /\
  exists k stream read later, (k <= length reading <= k + 1)%nat /\ (Forall (eq PIdle) (k_pc (l_c l)) -> k = length reading /\ read = []) /\
    map fst (k_done (l_c l)) = firstn k (map fst reading) /\
    takes (map (fun c => fst (snd c)) (firstn k reading)) stream (map snd (k_done (l_c l))) /\
    map snd (q_out (k_q (l_c l))) = stream ++ read /\
    concat (mine j ord heard) = stream ++ read ++ c_queue (q_conn (k_q (l_c l))) ++ later /\ (out = [] -> later = []).
