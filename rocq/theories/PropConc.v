(** * C90: concurrent calls on one client *)
From Coq Require Import String List NArith ZArith Bool Lia.
From Verif Require Import PyStr Tags Messages Protocol Queue IO Client Items Conc SpecConc ConcThms.
Import ListNotations.
Open Scope list_scope.

(** In an orderly run of any number of tasks with any number of commands, the
    command that ends j-th is the one whose frame was written j-th, and its
    result is that of the j-th message of the gateway. *)
Theorem C90_commands_partial : forall n es s w j i r,
  orderly [] (cinit n) es s w -> nth_error (k_done s) j = Some (i, r) ->
  exists b m, nth_error (k_writes s) j = Some (i, b) /\ nth_error (answers es) j = Some m /\ r = verdict m.
Proof. exact orderly_commands. Qed.
Print Assumptions C90_commands_partial.

(** And when no woken task is left to run, every command that has an answer has
    ended. *)
Theorem C90_progress_partial : forall n es s,
  orderly [] (cinit n) es s [] -> length (k_done s) = Nat.min (length (k_writes s)) (length (answers es)).
Proof. exact orderly_progress. Qed.
Print Assumptions C90_progress_partial.

(** A task that calls a command between the arrival of an answer and the
    run of the task it was for takes that answer: the refused command succeeds and
    the accepted one fails. *)
Theorem C90_overtaking_refuted : forall a b,
  exists s, crun (cinit 2) [KCall 0 PCommand a; KPacket nack_packet; KCall 1 PCommand b; KRun 0; KPacket ack_packet; KRun 0] = Some s /\
    k_writes s = [(0%nat, a); (1%nat, b)] /\ answers [KPacket nack_packet; KPacket ack_packet] = [MNack; MAck] /\
    k_done s = [(1%nat, Err ResponseError); (0%nat, Ok tt)].
Proof. exact barging. Qed.
Print Assumptions C90_overtaking_refuted.

(** A request and a command, with every step in order: the ACK that ends the
    request is taken by the command, and the refusal of the command by the request. *)
Theorem C90_request_refuted : forall a b,
  exists s, crun (cinit 2) [KCall 0 (PRequest is_normal) a; KCall 1 PCommand b; KPacket status_packet; KRun 0;
                            KPacket ack_packet; KRun 1; KPacket nack_packet; KRun 0] = Some s /\
    k_writes s = [(0%nat, a); (1%nat, b)] /\
    answers [KPacket status_packet; KPacket ack_packet; KPacket nack_packet] = [MNormal LIGHTING (lit "1") (lit "12"); MAck; MNack] /\
    k_done s = [(1%nat, Ok tt); (0%nat, Err ResponseError)].
Proof. exact mixed. Qed.
Print Assumptions C90_request_refuted.

(** Two status requests: the first yields both statuses, the second none. *)
Theorem C90_requests_refuted : forall a b,
  exists s, crun (cinit 2) [KCall 0 (PRequest is_normal) a; KCall 1 (PRequest is_normal) b; KPacket status_packet; KRun 0;
                            KPacket ack_packet; KRun 1; KPacket status_packet; KRun 0; KPacket ack_packet; KRun 0] = Some s /\
    k_done s = [(1%nat, Ok tt); (0%nat, Ok tt)] /\
    q_out (k_q s) = [(0%nat, MNormal LIGHTING (lit "1") (lit "12")); (1%nat, MAck);
                     (0%nat, MNormal LIGHTING (lit "1") (lit "12")); (0%nat, MAck)].
Proof. exact two_requests. Qed.
Print Assumptions C90_requests_refuted.

(** The steps of these runs are those of the item methods: what a message means
    to a command, and to a request. *)
Theorem C90_steps : forall Y keep (body : msg -> res (list Y)) m s,
  check_ack (Y:=Empty_set) m s = ([], s, match react PCommand m with Some r => r | None => Ok tt end) /\
  replies keep body (Some m :: s) =
  match react (PRequest keep) m with
  | Some r => ([Got m], s, r)
  | None => match body m with
            | Err e => ([Got m], s, Err e)
            | Ok ys => match replies keep body s with (es, s', r) => (Got m :: map Yielded ys ++ es, s', r) end
            end
  end.
Proof. exact (fun Y keep body m s => conj (react_check m s) (react_replies keep body m s)). Qed.
Print Assumptions C90_steps.

(** Three tasks, one of which calls twice; two answers in one packet. *)
Example C90_ex : exists s,
  orderly [] (cinit 3)
    [KCall 0 PCommand [1%N]; KCall 1 PCommand [2%N]; KCall 2 PCommand [3%N]; KPacket (lit "*#*1##*#*0##"); KRun 0; KRun 1;
     KCall 0 PCommand [4%N]; KPacket ack_packet; KRun 2] s [] /\
  k_done s = [(0%nat, Ok tt); (1%nat, Err ResponseError); (2%nat, Ok tt)].
Proof.
  eexists. split.
  - eapply Y_call; [vm_compute; reflexivity|]. eapply Y_call; [vm_compute; reflexivity|]. eapply Y_call; [vm_compute; reflexivity|].
    eapply Y_packet; [vm_compute; reflexivity|]. cbn. eapply Y_run; [vm_compute; reflexivity|]. eapply Y_run; [vm_compute; reflexivity|].
    eapply Y_call; [vm_compute; reflexivity|]. eapply Y_packet; [vm_compute; reflexivity|]. cbn. eapply Y_run; [vm_compute; reflexivity|]. apply Y_nil.
  - reflexivity.
Qed.
