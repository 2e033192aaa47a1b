(** * Properties C20 to C24, C64 and C65: readers, writers, flow control *)
From Coq Require Import String List NArith ZArith Bool Lia.
From Verif Require Import PyStr Tags Messages SpecMsg MessageThms2 MessageThms3 Protocol ProtoThms Queue QueueThms Sender SenderThms.
Import ListNotations.
Open Scope list_scope.

(** ** C20 Delivery is FIFO, lossless and duplicate-free under every schedule *)

Theorem C20_fifo : forall n es s,
  qrun (qinit n) es = Some s ->
  map snd (q_out s) ++ c_queue (q_conn s) = c_queue (feed fresh (packets_of es)).
Proof. exact fifo. Qed.
Print Assumptions C20_fifo.

Definition pkt (s : string) : qevent := EPacket (lit s).

(** Two readers wait, two messages arrive, the first reader times out in the same
    round: the second reader gets the first message, nothing is lost. *)
Example C20_ex :
  exists s, qrun (qinit 2) [EGet 0; EGet 1; pkt "*#*1##*#*0##"; ECancel 0; ERun 0; ERun 1; EGet 0] = Some s /\
            q_out s = [(1%nat, MAck); (0%nat, MNack)] /\ c_queue (q_conn s) = [].
Proof. eexists. split; [vm_compute; reflexivity|]. split; reflexivity. Qed.

(** ** C21 A waiting reader is always woken *)

Theorem C21_no_lost_wakeup : forall n es s,
  qrun (qinit n) es = Some s ->
  (exists i, nth_error (q_readers s) i = Some RWait) -> c_queue (q_conn s) <> [] ->
  exists j, nth_error (q_readers s) j = Some RWoken \/ nth_error (q_readers s) j = Some RWokenC.
Proof. exact no_lost_wakeup. Qed.
Print Assumptions C21_no_lost_wakeup.

(** While somebody waits there are at least as many scheduled readers as messages. *)
Theorem C21_enough_wakeups : forall n es s,
  qrun (qinit n) es = Some s ->
  (exists i, nth_error (q_readers s) i = Some RWait) ->
  (length (c_queue (q_conn s)) <= cnt RWoken (q_readers s) + cnt RWokenC (q_readers s))%nat.
Proof. exact enough_wakeups. Qed.
Print Assumptions C21_enough_wakeups.

(** In whatever order the event loop runs the scheduled steps, it runs out of
    them after finitely many, and then there are no messages or no waiting reader. *)
Theorem C21_eventually_served : forall n es s,
  qrun (qinit n) es = Some s ->
  (forall js s', qrun s (map ERun js) = Some s' ->
     (length js <= 2 * cnt RWokenC (q_readers s) + cnt RWoken (q_readers s) + cnt RCancel (q_readers s))%nat) /\
  (forall js s', qrun s (map ERun js) = Some s' -> (forall i, qstep s' (ERun i) = None) ->
     c_queue (q_conn s') = [] \/ forall i, nth_error (q_readers s') i <> Some RWait).
Proof. exact eventually_served. Qed.
Print Assumptions C21_eventually_served.

Example C21_ex :
  exists s, qrun (qinit 3) [EGet 0; EGet 1; EGet 2; pkt "*#*1##*#*0##"; ECancel 0] = Some s /\
            nth_error (q_readers s) 2 = Some RWait /\ c_queue (q_conn s) = [MAck; MNack] /\
            q_readers s = [RWokenC; RWoken; RWait].
Proof. eexists. split; [vm_compute; reflexivity|]. repeat split. Qed.

(** ** C22 Nothing is written while the transport is paused *)

Theorem C22_no_write_while_paused : forall high low n es s e s',
  srun high low (sinit n) es = Some s -> s_paused s = true -> sstep high low s e = Some s' ->
  handed (s_done s') = handed (s_done s).
Proof. intros high low n es s e s' R. exact (paused_no_write high low s e s' (flow_reachable high low n es s R)). Qed.
Print Assumptions C22_no_write_while_paused.

(** The lock follows the transport, is never acquired while held (which would
    block the event loop) and never released while free. *)
Theorem C22_lock : forall high low n es s,
  srun high low (sinit n) es = Some s ->
  s_lock s = s_paused s /\ s_blocked s = false /\ s_error s = false.
Proof. intros high low n es s R. destruct (flow_reachable high low n es s R) as [A B C]. exact (conj A (conj B C)). Qed.
Print Assumptions C22_lock.

Example C22_ex :
  exists s, srun 10 4 (sinit 2) [ESend 0 (MNormal LIGHTING (lit "1") (lit "1")) 0; ESend 1 MAck 0; ESend 0 MNack 0] = Some s /\
            s_paused s = true /\ handed (s_done s) = [(0%nat, MNormal LIGHTING (lit "1") (lit "1")); (1%nat, MAck)] /\
  exists s', srun 10 4 s [EWake 0 0; EDrain 5; EDrain 6; EWake 0 0] = Some s' /\
            s_paused s' = false /\ written (s_done s') = lit "*1*1*1##*#*1##*#*0##".
Proof. eexists. split; [vm_compute; reflexivity|]. split; [reflexivity|]. split; [reflexivity|]. eexists. split; [vm_compute; reflexivity|]. split; reflexivity. Qed.

(** ** C23 Each accepted send is written exactly once and in one piece *)

(** As long as the connection is up, what the socket accepted followed by what
    the transport still buffers is the concatenation of the frames of the calls
    that returned, in the order in which they returned; after a loss the socket
    accepted a prefix of it. *)
Theorem C23_bytes : forall high low n es s,
  srun high low (sinit n) es = Some s ->
  (s_lost s = false -> s_wire s ++ s_buffer s = written (s_done s)) /\
  (exists rest, s_wire s ++ rest = written (s_done s)).
Proof. intros high low n es s R. destruct (bytes_reachable high low n es s R) as [A B C]. exact (conj A B). Qed.
Print Assumptions C23_bytes.

(** Every call has exactly one outcome: the calls of a task are its finished
    calls in the same order, then the one still waiting. *)
Theorem C23_one_outcome : forall high low n es s i,
  srun high low (sinit n) es = Some s ->
  filter (fun c => Nat.eqb (fst c) i) (s_calls s)
  = map fst (filter (fun d => Nat.eqb (fst (fst d)) i) (s_done s))
    ++ match nth_error (s_tasks s) i with Some (SSleep m _) => [(i, m)] | _ => [] end.
Proof. intros high low n es s i R. exact (calls_reachable high low n es s R i). Qed.
Print Assumptions C23_one_outcome.

(** A call raises only for a message that cannot be encoded, which no message
    built from valid tags is. *)
Theorem C23_raises : forall high low n es s i m e,
  srun high low (sinit n) es = Some s -> In (i, m, ORaised e) (s_done s) -> msg_bytes m = Err e /\ ~ built m.
Proof. exact raises_only. Qed.
Print Assumptions C23_raises.

(** One call returned and half of its frame is on the wire, one waits, one raised
    for a message that cannot be encoded. *)
Example C23_ex :
  exists s, srun 4 2 (sinit 3) [ESend 0 (MNormal LIGHTING (lit "1") (lit "12")) 3; ESend 1 MAck 0; ESend 2 (MGeneric [[200%N]]) 0; EDrain 2] = Some s /\
            s_wire s = lit "*1*1*" /\ s_buffer s = lit "12##" /\ s_lost s = false /\
            map fst (s_calls s) = [0%nat; 1%nat; 2%nat] /\ nth_error (s_tasks s) 1 = Some (SSleep MAck (lit "*#*1##")) /\
            exists e, In (2%nat, MGeneric [[200%N]], ORaised e) (s_done s).
Proof. eexists. split; [vm_compute; reflexivity|]. repeat (split; [reflexivity|]). eexists. cbn. auto. Qed.

(** ** C24 Concurrent sends keep their order (refuted) *)

(** Whatever the water marks and the two messages, a schedule exists in which a
    later call is written before an earlier one. *)
Theorem C24_order_refuted : forall high low a b,
  msg_bytes a = Ok (msg_str a) -> msg_bytes b = Ok (msg_str b) ->
  exists es s, srun high low (sinit 2) es = Some s /\
    s_calls s = [(0%nat, big high); (1%nat, a); (0%nat, b)] /\
    s_done s = [(0%nat, big high, OWritten); (0%nat, b, OWritten); (1%nat, a, OWritten)].
Proof. exact overtaking. Qed.
Print Assumptions C24_order_refuted.

(** It holds while the frames sent add up to at most the high-water mark. *)
Theorem C24_order_partial : forall high low n es s,
  srun high low (sinit n) es = Some s ->
  (length (concat (map (fun c => msg_str (snd c)) (s_calls s))) <= high)%nat ->
  map fst (s_done s) = s_calls s.
Proof. intros high low n es s R H. destruct (calm_reachable high low n es s R H) as (_ & _ & D & _). exact D. Qed.
Print Assumptions C24_order_partial.

(** Or as long as no send starts while the transport is paused, however much is
    sent: the sends reach the transport in the order in which they were made. *)
Lemma unpaused_order high low es : forall n s, srun high low (sinit n) es = Some s ->
  (forall pre i m k post s0, es = pre ++ ESend i m k :: post -> srun high low (sinit n) pre = Some s0 -> s_paused s0 = false) ->
  (forall i t, nth_error (s_tasks s) i = Some t -> t = SIdle) /\ map fst (s_done s) = s_calls s.
Proof.
  induction es as [|e es IH] using rev_ind; intros n s R H.
  - injection R as <-. split; [|reflexivity]. intros i t E. cbn [sinit s_tasks] in E. apply nth_error_In, repeat_spec in E. exact E.
  - assert (X : exists s0, srun high low (sinit n) es = Some s0 /\ sstep high low s0 e = Some s).
    { clear - R. revert R. generalize (sinit n). induction es as [|e0 es IH]; intros s0 R; cbn [app srun] in *.
      - exists s0. split; [reflexivity|]. destruct (sstep high low s0 e); [exact R|discriminate].
      - destruct (sstep high low s0 e0) as [s1|]; [|discriminate]. apply IH, R. }
    destruct X as (s0 & R0 & S). destruct (IH n s0 R0) as (Id & D).
    { intros pre i m k post s1 E R1. apply (H pre i m k (post ++ [e]) s1); [rewrite E, <- app_assoc; reflexivity|exact R1]. }
    pose proof (flow_reachable high low n es s0 R0) as F.
    destruct e as [i m k|i k|i|k|]; cbn [sstep] in S.
    + assert (P : s_lock s0 = false) by (rewrite (f_lock s0 F); eapply H; [reflexivity|exact R0]).
      destruct (nth_error (s_tasks s0) i) as [[|]|] eqn:T; try discriminate.
      assert (K : forall o, (forall j t, nth_error (setnth i SIdle (s_tasks s0)) j = Some t -> t = SIdle) /\
        map fst (s_done s0 ++ [(i, m, o)]) = s_calls s0 ++ [(i, m)]).
      { intros o. split; [|rewrite map_app, D; reflexivity]. intros j t Hj. rewrite (setnth_id i SIdle _ T) in Hj. eauto. }
      destruct (msg_bytes m) as [d|x]; injection S as <-; [|apply K].
      unfold try_write. cbn [log_call s_lock]. rewrite P. cbn [finish s_tasks s_done s_calls].
      destruct (write_same high k d (log_call i m s0)) as (_ & -> & -> & -> & _). apply K.
    + destruct (nth_error (s_tasks s0) i) as [[|m d]|] eqn:T; try discriminate. specialize (Id _ _ T). discriminate.
    + destruct (nth_error (s_tasks s0) i) as [[|m d]|] eqn:T; try discriminate. specialize (Id _ _ T). discriminate.
    + destruct (s_lost s0); [discriminate|]. destruct (s_buffer s0) as [|b bs]; [discriminate|]. destruct (_ && _)%bool; [|discriminate]. injection S as <-.
      destruct (maybe_resume_same low (set_bytes (skipn k (b :: bs)) (s_wire s0 ++ firstn k (b :: bs)) s0)) as (_ & _ & _ & -> & -> & ->). split; [exact Id|exact D].
    + destruct (s_lost s0); [discriminate|]. injection S as <-. split; [exact Id|exact D].
Qed.
Theorem C24_order_unpaused : forall high low n es s,
  srun high low (sinit n) es = Some s ->
  (forall pre i m k post s0, es = pre ++ ESend i m k :: post -> srun high low (sinit n) pre = Some s0 -> s_paused s0 = false) ->
  map fst (s_done s) = s_calls s.
Proof. intros high low n es s R H. apply (unpaused_order high low es n s R H). Qed.
Print Assumptions C24_order_unpaused.

(** The socket takes nothing at first and everything before the second send. *)
Example C24_unpaused_ex : exists s, srun 4 2 (sinit 2) [ESend 0 (big 4) 0; EDrain 7; ESend 1 MAck 3] = Some s /\
  map fst (s_done s) = [(0%nat, big 4); (1%nat, MAck)] /\
  (exists s0, srun 4 2 (sinit 2) [ESend 0 (big 4) 0] = Some s0 /\ s_paused s0 = true) /\
  (exists s0, srun 4 2 (sinit 2) [ESend 0 (big 4) 0; EDrain 7] = Some s0 /\ s_paused s0 = false).
Proof. eexists. split; [reflexivity|]. split; [reflexivity|]. split; eexists; (split; [reflexivity|reflexivity]). Qed.

Example C24_ex : msg_bytes MAck = Ok (msg_str MAck) /\ msg_bytes (MNormal LIGHTING (lit "1") (lit "12")) = Ok (lit "*1*1*12##").
Proof. split; reflexivity. Qed.

(** ** C64 A send waiting on a paused transport ends when the connection is lost (refuted) *)

(** Once the connection is lost while the transport is paused, no send ever
    returns again. *)
Theorem C64_stuck_forever_refuted : forall high low n es s es' s',
  srun high low (sinit n) es = Some s -> s_lost s = true -> s_paused s = true ->
  srun high low s es' = Some s' -> s_paused s' = true /\ handed (s_done s') = handed (s_done s).
Proof. exact stuck_forever. Qed.
Print Assumptions C64_stuck_forever_refuted.

Theorem C64_stuck_reachable_refuted : forall high low m,
  msg_bytes m = Ok (msg_str m) ->
  exists es s, srun high low (sinit 2) es = Some s /\ s_lost s = true /\ s_paused s = true /\
               nth_error (s_tasks s) 1 = Some (SSleep m (msg_str m)).
Proof. exact stuck_reachable. Qed.
Print Assumptions C64_stuck_reachable_refuted.

Example C64_ex :
  exists s, srun 4 2 (sinit 2) [ESend 0 (MNormal LIGHTING (lit "1") (lit "12")) 3; ESend 1 MAck 0; ELost] = Some s /\
            s_lost s = true /\ s_paused s = true /\
  exists s', srun 4 2 s [EWake 1 0; EWake 1 0] = Some s' /\ nth_error (s_tasks s') 1 = Some (SSleep MAck (lit "*#*1##")).
Proof. eexists. split; [vm_compute; reflexivity|]. split; [reflexivity|]. split; [reflexivity|]. eexists. split; [vm_compute; reflexivity|reflexivity]. Qed.

(** ** C65 A send on a lost connection reports an error (refuted) *)

Theorem C65_silent_loss_refuted : forall high low s i m k,
  s_lost s = true -> s_lock s = false -> nth_error (s_tasks s) i = Some SIdle ->
  msg_bytes m = Ok (msg_str m) ->
  exists s', sstep high low s (ESend i m k) = Some s' /\
    s_done s' = s_done s ++ [(i, m, ODropped)] /\ s_wire s' = s_wire s.
Proof. exact lost_send_returns. Qed.
Print Assumptions C65_silent_loss_refuted.

Theorem C65_nothing_after_loss : forall high low s es s',
  s_lost s = true -> srun high low s es = Some s' -> s_wire s' = s_wire s.
Proof. exact lost_wire. Qed.
Print Assumptions C65_nothing_after_loss.

Example C65_ex :
  exists s, srun 40 10 (sinit 1) [ESend 0 MAck 6; ELost; ESend 0 MNack 6] = Some s /\
            s_wire s = lit "*#*1##" /\ s_done s = [(0%nat, MAck, OWritten); (0%nat, MNack, ODropped)].
Proof. eexists. split; [vm_compute; reflexivity|]. split; reflexivity. Qed.
