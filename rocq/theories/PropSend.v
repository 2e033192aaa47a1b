(** * Properties C91 and C92: the delay of send_message, waiting sends *)
From Coq Require Import String List NArith ZArith Bool Lia.
From Verif Require Import PyStr Tags Messages SpecMsg MessageThms2 MessageThms3 Protocol ProtoThms Queue QueueThms Sender SenderThms SendThms.
Import ListNotations.
Open Scope list_scope.

(** ** C91 Messages are spaced by [delay] (refuted) *)

(** Any number of messages are written one after the other without a single
    sleep: the run consists of calls only. *)
Theorem C91_spacing_refuted : forall high low ms,
  Forall (fun m => msg_bytes m = Ok (msg_str m)) ms ->
  exists s, srun high low (sinit 1) (map (fun m => ESend 0 m (length (msg_str m))) ms) = Some s /\
            s_wire s = concat (map msg_str ms) /\ s_done s = map (fun m => (0%nat, m, OWritten)) ms.
Proof. exact burst. Qed.
Print Assumptions C91_spacing_refuted.

(** What holds: a call sleeps exactly when the transport is paused at the moment
    of the call and the message can be encoded. *)
Theorem C91_sleeps : forall high low n es s i m k s',
  srun high low (sinit n) es = Some s -> sstep high low s (ESend i m k) = Some s' ->
  (nth_error (s_tasks s') i = Some SIdle <-> s_paused s = false \/ exists e, msg_bytes m = Err e).
Proof. exact waits_iff. Qed.
Print Assumptions C91_sleeps.

Example C91_ex : Forall (fun m => msg_bytes m = Ok (msg_str m)) [MNormal LIGHTING (lit "1") (lit "12"); MNormal LIGHTING (lit "0") (lit "12"); MAck].
Proof. repeat (constructor; [vm_compute; reflexivity|]). constructor. Qed.

(** ** C92 A waiting send is eventually written (refuted) *)

(** However often the transport resumes and the waiting task wakes, the call may
    still be waiting: each time, another task's call is written first. *)
Theorem C92_starvation_refuted : forall high low m n,
  msg_bytes m = Ok (msg_str m) ->
  exists s, srun high low (sinit 2)
      (ESend 0 (big high) 0 :: ESend 1 m 0 ::
       concat (repeat [EDrain (length (msg_str (big high))); ESend 0 (big high) 0; EWake 1 0] n)) = Some s /\
    nth_error (s_tasks s) 1 = Some (SSleep m (msg_str m)) /\
    s_done s = repeat (0%nat, big high, OWritten) (S n).
Proof. exact starvation. Qed.
Print Assumptions C92_starvation_refuted.

(** What holds: a sleep that ends while the transport is not paused ends the call. *)
Theorem C92_wake : forall high low n es s i m d k,
  srun high low (sinit n) es = Some s -> nth_error (s_tasks s) i = Some (SSleep m d) -> s_paused s = false ->
  exists s', sstep high low s (EWake i k) = Some s' /\
    s_done s' = s_done s ++ [(i, m, if s_lost s then ODropped else OWritten)].
Proof. exact wake_ends. Qed.
Print Assumptions C92_wake.

Example C92_ex : exists s,
  srun 10 4 (sinit 2) [ESend 0 (big 10) 0; ESend 1 MAck 0; EDrain 13] = Some s /\
  nth_error (s_tasks s) 1 = Some (SSleep MAck (lit "*#*1##")) /\ s_paused s = false.
Proof. eexists. split; [vm_compute; reflexivity|]. split; reflexivity. Qed.
