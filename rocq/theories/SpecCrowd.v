(** * Several clients, each with its own connection, in front of one house *)
From Coq Require Import String List NArith ZArith Bool Lia.
From Verif Require Import PyStr Tags Messages Protocol Queue Sender Conc SpecConc SpecSerial SpecHouse HouseThms SpecTogether TogetherThms Line SpecLine.
Import ListNotations.
Open Scope list_scope.

Definition put {A} (f : nat -> A) (j : nat) (x : A) : nat -> A := fun i => if Nat.eqb i j then x else f i.

(** The events of one client; the part of a list that belongs to one client, when
    [ord] says whose each element is. *)
Definition of_client (j : nat) (es : list (nat * levent)) : list levent := map snd (filter (fun x => Nat.eqb (fst x) j) es).
Definition mine {A} (j : nat) (ord : list nat) (xs : list A) : list A := map snd (filter (fun x => Nat.eqb (fst x) j) (combine ord xs)).

(** [ls j], [inn j], [out j]: the line of client [j], the frames of its that the
    gateway has not dealt with, the answers on their way to it.  The gateway deals
    with the frames of one client in order and serves the clients in any order
    [ord]. *)
Inductive crowd (gw : gateway) (high low : nat) : (nat -> lstate) -> house -> (nat -> list (list N)) -> (nat -> list (list N)) ->
  list (nat * levent) -> list nat -> (nat -> lstate) -> house -> (nat -> list (list N)) -> (nat -> list (list N)) -> list (list N) -> Prop :=
| Cr_nil ls h inn out : crowd gw high low ls h inn out [] [] ls h inn out []
| Cr_obey ls h inn out j b rest h1 ans ev1 es ord ls' h' inn' out' evs : inn j = b :: rest -> serves gw h b h1 ans ev1 ->
    crowd gw high low ls h1 (put inn j rest) (put out j (out j ++ ans)) es ord ls' h' inn' out' evs ->
    crowd gw high low ls h inn out es (j :: ord) ls' h' inn' out' (ev1 ++ evs)
| Cr_step ls h inn out j e l1 es ord ls' h' inn' out' evs : (forall d, e <> LPacket d) -> lstep high low (ls j) e = Some l1 ->
    crowd gw high low (put ls j l1) h (put inn j (inn j ++ taken (ls j) l1)) out es ord ls' h' inn' out' evs ->
    crowd gw high low ls h inn out ((j, e) :: es) ord ls' h' inn' out' evs
| Cr_packet ls h inn out j fs rest l1 es ord ls' h' inn' out' evs : out j = fs ++ rest -> lstep high low (ls j) (LPacket (concat fs)) = Some l1 ->
    crowd gw high low (put ls j l1) h inn (put out j rest) es ord ls' h' inn' out' evs ->
    crowd gw high low ls h inn out ((j, LPacket (concat fs)) :: es) ord ls' h' inn' out' evs.

(** How many of the calls obeyed are of client [j], and which of all is the
    [n]-th of client [j]. *)
Definition count (j : nat) (ord : list nat) : nat := length (filter (fun i => Nat.eqb i j) ord).
Fixpoint turn (j n : nat) (ord : list nat) : option nat :=
  match ord with
  | [] => None
  | i :: r => if Nat.eqb i j then match n with O => Some O | Datatypes.S n' => option_map Datatypes.S (turn j n' r) end else option_map Datatypes.S (turn j n r) end.

(** Client [j] makes the calls [css j], one after the other. *)
Definition behaves (high low : nat) (ns : nat -> nat) (es : list (nat * levent)) (css : nat -> list call) (j : nat) : Prop :=
  Forall call_ok (css j) /\ locked high low (ns j) (of_client j es) /\ undisturbed (of_client j es) /\ made (started (of_client j es)) (css j).

(** What client [j], whose line is [l], has got of calls that ended like [log] when
    the messages [heard] were read: all of it but for at most one call, the last. *)
Definition told (es : list (nat * levent)) (css : nat -> list call) (j : nat) (ord : list nat) (l : lstate) (inn out : list (list N))
    (log : list (list (str * seen) * res unit)) (heard : list (list msg)) : Prop :=
  exists k pend read, (k <= count j ord <= length (css j))%nat /\ (length (css j) <= k + 1)%nat /\
    k_done (l_c l) = firstn k (combine (map fst (started (of_client j es))) (map snd (mine j ord log))) /\
    q_out (k_q (l_c l)) = concat (map tagged_with (firstn k (combine (map fst (started (of_client j es))) (mine j ord heard)))) ++ map (pair pend) read /\
    (Forall (eq SIdle) (s_tasks (l_s l)) -> Forall (eq PIdle) (k_pc (l_c l)) -> k = length (css j) /\ inn = []) /\
    (inn = [] -> out = [] -> Forall (eq SIdle) (s_tasks (l_s l)) -> (forall i, cstep (l_c l) (KRun i) = None) ->
       count j ord = length (css j) /\ k_done (l_c l) = combine (map fst (started (of_client j es))) (map snd (mine j ord log)) /\
       q_out (k_q (l_c l)) = concat (map tagged_with (combine (map fst (started (of_client j es))) (mine j ord heard))) /\ c_queue (q_conn (k_q (l_c l))) = []).
