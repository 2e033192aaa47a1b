(** * Properties C100 and C101: several loop() and read_message() calls on one event client *)
From Coq Require Import String List NArith ZArith Bool Lia.
From Verif Require Import PyStr Tags Messages SpecMsg Protocol Queue QueueThms IO Client Items Dispatch SpecDispatch DispatchThms DispatchThms2 PropDispatch
  Loop SpecLoop LoopThms PropLoop Loops SpecLoops LoopsThms.
Import ListNotations.
Open Scope N_scope.
Open Scope list_scope.

(** ** C100 Concurrent readers share the events: nothing is lost, doubled or reordered *)

(** In every history of an open connection, with any number of tasks: every
    message is taken by one task, for the call it is in; the callbacks called are
    those of the messages that loops took, in that order; read_message returned
    its message; a loop ended only by a stray message of its own. *)
Theorem C100_sharing : forall v n r es s, v < 13 -> Forall steady es -> mrun v (minit n r) es = Some s ->
  exists tk tss, shared r es tk (c_queue (q_conn (m_q s))) /\ m_started s = concat tss /\
    Forall2 (handled (m_items s)) (events tk) tss /\ endings tk (m_ended s).
Proof. exact sharing. Qed.
Print Assumptions C100_sharing.

(** What was taken, followed by what is unread, is what arrived, in order. *)
Theorem C100_arrival : forall r es tk q, shared r es tk q -> Forall steady es ->
  exists mss, Forall2 (fun d ms => packet_messages d = Ok ms) (concat (map mpackets es)) mss /\ map message tk ++ q = concat mss.
Proof. exact shared_packets. Qed.
Print Assumptions C100_arrival.

(** Only a cancelled call is given up. *)
Theorem C100_cancelled : forall v n r es s, mrun v (minit n r) es = Some s ->
  forall k, (given_up k (m_ended s) <= cancels k es <= given_up k (m_ended s) + 1)%nat.
Proof. exact cancelling. Qed.
Print Assumptions C100_cancelled.

(** The scheduled steps run out, and then no message is unread if any call is
    still waiting. *)
Theorem C100_catches_up : forall v n r es s, Forall steady es -> mrun v (minit n r) es = Some s ->
  (forall js s', mrun v s (map MRun js) = Some s' -> (length js <= work (m_q s))%nat) /\
  (forall i j, (forall k, mstep v s (MRun k) = None) -> nth_error (m_job s) i = Some j -> j <> JNone -> c_queue (q_conn (m_q s)) = []).
Proof. exact catching_up. Qed.
Print Assumptions C100_catches_up.

(** With one task that only calls loop(), every history, also with a connection
    that ends, is a history of the model of C38-C43 and C97. *)
Theorem C100_one_loop : forall v r es s, Forall only_loop es -> mrun v (minit 1 r) es = Some s ->
  let d := lrun v (connected r) (concat (map erase es)) in
  st_queue d = c_queue (q_conn (m_q s)) /\ st_items d = m_items s /\ st_started d = m_started s /\ st_trans d = m_trans s /\
  (st_loop d = Waiting /\ m_job s = [JLoop] \/ st_loop d = last_status (m_ended s) /\ m_job s = [JNone]).
Proof. exact one_loop. Qed.
Print Assumptions C100_one_loop.

(** Two loops and a reader: a light event for the first loop; a stray event and a
    light event in one packet, the stray one for the second loop, which fails,
    the light event for the reader; the first loop waits on. *)
Definition crowd : list mevent :=
  [MRegister (K_light STATUS_CHANGE) f1; MLoop 0; MLoop 1; MRead 2; MPacket light_on; MRun 0; MPacket (stray_frame ++ lit "*1*0*13##"); MRun 1; MRun 2].
Example C100_ex : exists s, mrun 12 (minit 3 no_callbacks) crowd = Some s /\ Forall steady crowd /\
  m_started s = [(1, [VItem 0; VBool true])] /\ m_job s = [JLoop; JNone; JNone] /\
  m_ended s = [(1%nat, OFailed InvalidTag); (2%nat, OMessage (MNormal LIGHTING (lit "0") (lit "13")))] /\
  (forall k, mstep 12 s (MRun k) = None).
Proof.
  eexists. split; [vm_compute; reflexivity|]. split.
  { assert (P : exists ms, packet_messages light_on = Ok ms) by (eexists; vm_compute; reflexivity).
    assert (P' : exists ms, packet_messages (stray_frame ++ lit "*1*0*13##") = Ok ms) by (eexists; vm_compute; reflexivity).
    unfold crowd. repeat constructor; assumption. }
  do 3 (split; [vm_compute; reflexivity|]). intros k. destruct k as [|[|[|[|k]]]]; reflexivity.
Qed.
Example C100_ex_one : exists s, mrun 12 (minit 1 two) [MLoop 0; MPacket light_on; MRun 0; MClose] = Some s /\ Forall only_loop [MLoop 0; MPacket light_on; MRun 0; MClose] /\ m_started s <> [].
Proof. eexists. split; [vm_compute; reflexivity|]. split; [repeat constructor|vm_compute; discriminate]. Qed.
Example C100_ex_cancel : exists s, mrun 12 (minit 2 two) [MLoop 0; MRead 1; MCancel 0; MRun 0; MPacket light_on; MRun 1] = Some s /\
  m_ended s = [(0%nat, OCancelled); (1%nat, OMessage (MNormal LIGHTING (lit "1") (lit "12")))] /\ m_started s = [].
Proof. eexists. split; [vm_compute; reflexivity|]. split; vm_compute; reflexivity. Qed.

(** ** C101 While a loop runs, every event reaches the callbacks (refuted) *)

(** A read_message() that waits before the loop does gets the next message, which
    no callback sees, whatever happens afterwards. *)
Theorem C101_stolen_refuted : forall v r d m more s, v < 13 -> packet_messages d = Ok [m] -> Forall steady more ->
  mrun v (minit 2 r) ([MRead 1; MLoop 0; MPacket d] ++ more) = Some s ->
  (exists s1, mrun v (minit 2 r) [MRead 1; MLoop 0; MPacket d; MRun 1] = Some s1 /\
     nth_error (m_job s1) 0 = Some JLoop /\ m_started s1 = [] /\ m_ended s1 = [(1%nat, OMessage m)]) /\
  (forall rest, more = MRun 1 :: rest -> exists tk tss, shared r ([MRead 1; MLoop 0; MPacket d] ++ more) (ByRead 1 m :: tk) (c_queue (q_conn (m_q s))) /\
     m_started s = concat tss /\ Forall2 (handled (m_items s)) (events tk) tss).
Proof. exact stolen. Qed.
Print Assumptions C101_stolen_refuted.

Example C101_ex : exists s s', mrun 12 (minit 2 two) [MRead 1; MLoop 0; MPacket light_on; MRun 1] = Some s /\ m_started s = [] /\
  mrun 12 (minit 2 two) [MLoop 0; MPacket light_on; MRun 0] = Some s' /\ m_started s' <> [].
Proof. do 2 eexists. split; [vm_compute; reflexivity|]. split; [vm_compute; reflexivity|]. split; [vm_compute; reflexivity|vm_compute; discriminate]. Qed.
