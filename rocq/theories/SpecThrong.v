(** * Several clients, each with its own connection, in front of any gateway *)
From Coq Require Import String List NArith ZArith Bool Lia.
From Verif Require Import PyStr Tags Messages SpecProto Protocol Queue IO Sender Conc SpecConc SpecSerial SpecItem SpecHouse Line SpecLine SpecTogether Energy SpecMeter MeterThms SpecCrowd SpecServer.
Import ListNotations.
Open Scope list_scope.

Section throng.
(** Anything that deals with one frame at a time, as in [SpecServer]. *)
Variable State : Type.
Variable replies : State -> list N -> State -> list (list N) -> Prop.

(** Clients [0], [1], ... with a line each: [inn j] are the frames of client [j]
    that were not dealt with, [out j] what is on its way to client [j].  The gateway
    deals with the frames of one client in order and serves the clients in any
    order [ord]; an answer goes to the client whose frame it answers. *)
Inductive throng (high low : nat) : (nat -> lstate) -> State -> (nat -> list (list N)) -> (nat -> list (list N)) ->
  list (nat * levent) -> list nat -> (nat -> lstate) -> State -> (nat -> list (list N)) -> (nat -> list (list N)) -> Prop :=
| Th_nil ls s inn out : throng high low ls s inn out [] [] ls s inn out
| Th_reply ls s inn out j b rest s1 ans es ord ls' s' inn' out' : inn j = b :: rest -> replies s b s1 ans ->
    throng high low ls s1 (put inn j rest) (put out j (out j ++ ans)) es ord ls' s' inn' out' ->
    throng high low ls s inn out es (j :: ord) ls' s' inn' out'
| Th_step ls s inn out j e l1 es ord ls' s' inn' out' : (forall d, e <> LPacket d) -> lstep high low (ls j) e = Some l1 ->
    throng high low (put ls j l1) s (put inn j (inn j ++ taken (ls j) l1)) out es ord ls' s' inn' out' ->
    throng high low ls s inn out ((j, e) :: es) ord ls' s' inn' out'
| Th_packet ls s inn out j fs rest l1 es ord ls' s' inn' out' : out j = fs ++ rest -> lstep high low (ls j) (LPacket (concat fs)) = Some l1 ->
    throng high low (put ls j l1) s inn (put out j rest) es ord ls' s' inn' out' ->
    throng high low ls s inn out ((j, LPacket (concat fs)) :: es) ord ls' s' inn' out'.
End throng.

(** Client [j] makes one call of this kind after the other, none of them cut off. *)
Definition orderly (kind : pc -> list N -> Prop) (high low : nat) (ns : nat -> nat) (es : list (nat * levent)) (j : nat) : Prop :=
  Forall (fun k => kind (fst (snd k)) (snd (snd k))) (started (of_client j es)) /\ locked high low (ns j) (of_client j es) /\ undisturbed (of_client j es).

(** What client [j], whose line is [l], has got of calls that read the messages
    [heard] and ended like [ends]: all of it but for at most one call, the last;
    and all of it when there is nothing left to do. *)
Definition informed (es : list (nat * levent)) (j : nat) (ord : list nat) (l : lstate) (inn out : list (list N)) (heard : list (list msg)) (ends : list (res unit)) : Prop :=
  exists k pend read, (k <= count j ord <= length (started (of_client j es)))%nat /\ (length (started (of_client j es)) <= k + 1)%nat /\
    k_done (l_c l) = firstn k (combine (map fst (started (of_client j es))) (mine j ord ends)) /\
    q_out (k_q (l_c l)) = concat (map heard_by (firstn k (combine (map fst (started (of_client j es))) (mine j ord heard)))) ++ map (pair pend) read /\
    (Forall (eq SIdle) (s_tasks (l_s l)) -> Forall (eq PIdle) (k_pc (l_c l)) -> k = length (started (of_client j es)) /\ inn = []) /\
    (inn = [] -> out = [] -> Forall (eq SIdle) (s_tasks (l_s l)) -> (forall i, cstep (l_c l) (KRun i) = None) ->
       count j ord = length (started (of_client j es)) /\ k_done (l_c l) = combine (map fst (started (of_client j es))) (mine j ord ends) /\
       q_out (k_q (l_c l)) = concat (map heard_by (combine (map fst (started (of_client j es))) (mine j ord heard))) /\ c_queue (q_conn (k_q (l_c l))) = []).

(** The calls of client [j], some of them to the gateway item and to energy items. *)
Definition gbehaves (high low : nat) (ns : nat -> nat) (es : list (nat * levent)) (css : nat -> list gcall) (j : nat) : Prop :=
  Forall gcall_ok (css j) /\ locked high low (ns j) (of_client j es) /\ undisturbed (of_client j es) /\ gmade (started (of_client j es)) (css j).
