(** * Property C102: calls that do not overlap get their own answers *)
From Coq Require Import String List NArith ZArith Bool Lia.
From Verif Require Import PyStr Tags Messages Protocol Queue IO Items Conc SpecConc SpecSingle SpecSerial SerialThms.
Import ListNotations.
Open Scope list_scope.

(** Tasks that make one call at a time between them, and a gateway that answers
    every call with a whole answer, in order, in whatever packets: at every moment
    the calls that ended are the first ones, each with the meaning of its own
    answer, and at most one call is in progress; once everything has arrived and
    nothing is scheduled all calls have ended so, and nothing is unread. *)
Theorem C102_own_answers : forall n es s ans later,
  crun (cinit n) es = Some s -> serial n es -> (forall i, ~ In (KTimeout i) es) -> dialogue (all_calls es) ans ->
  SpecConc.answers es ++ later = concat (map fst ans) ->
  (exists k, k_done s = firstn k (combine (map fst (all_calls es)) (map snd ans)) /\ (length (all_calls es) <= k + 1)%nat) /\
  (later = [] -> (forall j, cstep s (KRun j) = None) -> k_done s = combine (map fst (all_calls es)) (map snd ans) /\ c_queue (q_conn (k_q s)) = []).
Proof. exact serial_answers. Qed.
Print Assumptions C102_own_answers.

(** With timeouts, or a gateway that answers in any way: the calls of all tasks,
    in the order in which they start, are one sequence of calls on what the
    gateway sent. *)
Theorem C102_one_sequence : forall n es s, crun (cinit n) es = Some s -> serial n es ->
  exists cs pend t rs read, all_calls es = cs ++ pend /\ sequential (map snd cs) t rs /\ k_done s = combine (map fst cs) rs /\
    k_writes s = map (fun c => (fst c, snd (snd c))) (all_calls es) /\
    SpecConc.answers es = somes t ++ read ++ c_queue (q_conn (k_q s)) /\ (length pend <= 1)%nat /\ (In None t -> exists i, In (KTimeout i) es).
Proof.
  intros n es s R Se. destruct (serial_view n es s R Se) as (cs & pend & t & rs & read & A & B & C & D & E & F & G).
  exists cs, pend, t, rs, read. repeat (split; [assumption|]). split; [|exact G]. destruct F as [(-> & _)|(i & p & b & -> & _)]; cbn; lia.
Qed.
Print Assumptions C102_one_sequence.

(** Two tasks: a status request answered by two replies and an ACK in two
    packets, then a command of the other task that is refused. *)
Definition polite : list kevent :=
  [KCall 0 (PRequest is_normal) [1%N]; KPacket (lit "*1*1*12##*1*0*13##"); KRun 0; KPacket (lit "*#*1##"); KRun 0; KCall 1 PCommand [2%N]; KPacket (lit "*#*0##"); KRun 1].
Example C102_ex : exists s ans, crun (cinit 2) polite = Some s /\ serial 2 polite /\ (forall i, ~ In (KTimeout i) polite) /\ dialogue (all_calls polite) ans /\
  SpecConc.answers polite = concat (map fst ans) /\ (forall j, cstep s (KRun j) = None) /\ map snd ans = [Ok tt; Err ResponseError] /\
  k_done s = [(0%nat, Ok tt); (1%nat, Err ResponseError)].
Proof.
  eexists. exists [([MNormal LIGHTING (lit "1") (lit "12"); MNormal LIGHTING (lit "0") (lit "13"); MAck], Ok tt); ([MNack], Err ResponseError)].
  split; [vm_compute; reflexivity|]. split.
  { intros pre i p b post s E R. unfold polite in E.
    assert (X : pre = [] \/ pre = firstn 5 polite).
    { do 8 (destruct pre as [|? pre]; [first [left; reflexivity | right; reflexivity | discriminate E]|cbn [app] in E; injection E as <- E]). destruct pre; discriminate E. }
    destruct X as [-> | ->]; vm_compute in R; injection R as <-; repeat constructor. }
  split; [intros i H; repeat (destruct H as [H|H]; [discriminate|]); exact H|]. split.
  { constructor; [|constructor; [|constructor]].
    - apply (W_replies is_normal [MNormal LIGHTING (lit "1") (lit "12"); MNormal LIGHTING (lit "0") (lit "13")]). repeat constructor; discriminate.
    - apply W_other. discriminate. }
  split; [vm_compute; reflexivity|]. split; [intros [|[|[|j]]]; reflexivity|]. split; vm_compute; reflexivity.
Qed.
