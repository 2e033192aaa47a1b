(** * The delay of send_message and the fate of waiting sends *)
From Coq Require Import String List NArith ZArith Bool Lia.
From Verif Require Import PyStr Tags Messages SpecMsg MessageThms2 Protocol ProtoThms Queue QueueThms Sender SenderThms.
Import ListNotations.
Open Scope list_scope.

Section water.
Variables high low : nat.
Notation sstep := (sstep high low).
Notation srun := (srun high low).

(** ** No waiting before a write *)

Definition sends (ms : list msg) : list sevent := map (fun m => ESend 0 m (length (msg_str m))) ms.

Definition sent_all (done : list (nat * msg * outcome)) (calls : list (nat * msg)) (wire : list N) : sstate :=
  {| s_lock := false; s_paused := false; s_lost := false; s_buffer := []; s_wire := wire;
     s_tasks := [SIdle]; s_calls := calls; s_done := done; s_blocked := false; s_error := false |}.

Lemma sends_run ms : forall done calls wire,
  Forall (fun m => msg_bytes m = Ok (msg_str m)) ms ->
  srun (sent_all done calls wire) (sends ms) =
  Some (sent_all (done ++ map (fun m => (0%nat, m, OWritten)) ms) (calls ++ map (pair 0%nat) ms) (wire ++ concat (map msg_str ms))).
Proof.
  induction ms as [|m ms IH]; intros done calls wire F.
  - cbn. rewrite !app_nil_r. reflexivity.
  - inversion F as [|? ? E F']; subst. cbn [sends map Sender.srun]. unfold Sender.sstep. cbn [sent_all s_tasks nth_error]. rewrite E.
    unfold try_write. cbn [log_call s_lock sent_all].
    assert (T : transport_write high (length (msg_str m)) (msg_str m) (log_call 0 m (sent_all done calls wire)) =
                set_bytes [] (wire ++ msg_str m) (log_call 0 m (sent_all done calls wire))).
    { unfold transport_write. destruct (msg_str m) as [|c r] eqn:M; [exfalso; exact (str_not_nil m M)|].
      cbn [log_call sent_all s_lost s_buffer s_wire]. rewrite skipn_all. reflexivity. }
    rewrite T. cbn [set_bytes log_call sent_all s_lost finish s_lock s_paused s_buffer s_wire s_tasks setnth s_calls s_done s_blocked s_error].
    change (finish 0 m OWritten (set_bytes [] (wire ++ msg_str m) (log_call 0 m (sent_all done calls wire))))
      with (sent_all (done ++ [(0%nat, m, OWritten)]) (calls ++ [(0%nat, m)]) (wire ++ msg_str m)).
    fold (sends ms). rewrite (IH _ _ _ F'). cbn [map concat]. rewrite <- !app_assoc. reflexivity.
Qed.

Theorem burst ms :
  Forall (fun m => msg_bytes m = Ok (msg_str m)) ms ->
  exists s, srun (sinit 1) (sends ms) = Some s /\ s_wire s = concat (map msg_str ms) /\
            s_done s = map (fun m => (0%nat, m, OWritten)) ms.
Proof.
  intros F. exists (sent_all (map (fun m => (0%nat, m, OWritten)) ms) (map (pair 0%nat) ms) (concat (map msg_str ms))).
  split; [|split; reflexivity]. exact (sends_run ms [] [] [] F).
Qed.

(** A call waits exactly when the transport is paused at that moment. *)
Theorem waits_iff n es s i m k s' :
  srun (sinit n) es = Some s -> sstep s (ESend i m k) = Some s' ->
  (nth_error (s_tasks s') i = Some SIdle <-> s_paused s = false \/ exists e, msg_bytes m = Err e).
Proof.
  intros R E. pose proof (flow_reachable high low n es s R) as F. unfold Sender.sstep in E.
  destruct (nth_error (s_tasks s) i) as [[|]|] eqn:T; try discriminate.
  assert (I : (i < length (s_tasks s))%nat) by (apply nth_error_Some; congruence).
  destruct (msg_bytes m) as [d|e] eqn:B; injection E as <-.
  - unfold try_write. cbn [log_call s_lock]. rewrite (f_lock s F). destruct (s_paused s) eqn:P.
    + cbn [set_task s_tasks log_call]. rewrite setnth_same by exact I. split; [discriminate|]. intros [X|[e X]]; discriminate.
    + cbn [finish s_tasks]. destruct (write_same high k d (log_call i m s)) as (_ & E2 & _). rewrite E2. cbn [log_call s_tasks].
      rewrite setnth_same by exact I. split; [auto|reflexivity].
  - cbn [finish s_tasks log_call]. rewrite setnth_same by exact I. split; [intros _; right; exists e; reflexivity|reflexivity].
Qed.

(** ** A send that never gets its turn *)

(** Task 1 sleeps, the transport is paused by a frame of task 0. *)
Definition starving (m : msg) (s : sstate) : Prop :=
  s_lock s = true /\ s_paused s = true /\ s_lost s = false /\ s_buffer s = msg_str (big high) /\
  s_tasks s = [SIdle; SSleep m (msg_str m)].

(** The buffer drains, task 0 sends again, task 1 wakes too late. *)
Definition round : list sevent := [EDrain (length (msg_str (big high))); ESend 0 (big high) 0; EWake 1 0].

Lemma starving_round m s : starving m s ->
  exists s', srun s round = Some s' /\ starving m s' /\ s_done s' = s_done s ++ [(0%nat, big high, OWritten)].
Proof.
  intros (L & P & O & B & T). unfold round. cbn [Sender.srun]. unfold Sender.sstep at 1. rewrite O, B.
  destruct (big_cons high) as (c & r & E). pose proof (big_length high) as Len. rewrite E. rewrite Nat.leb_refl.
  cbn [length Nat.eqb negb andb]. unfold maybe_resume. cbn [set_bytes s_paused s_buffer]. rewrite P.
  assert (SK : skipn (S (length r)) (c :: r) = []) by (apply skipn_all2; cbn; lia). rewrite SK. cbn [length Nat.leb andb].
  unfold Sender.sstep at 1. cbn [resume_writing set_paused set_bytes s_tasks]. rewrite T. cbn [nth_error]. rewrite big_bytes.
  unfold try_write at 1. cbn [log_call resume_writing set_paused set_bytes s_lock s_lost]. rewrite O.
  unfold transport_write. rewrite E. cbn [log_call resume_writing set_paused set_bytes s_lost s_buffer s_wire]. rewrite O.
  cbn [skipn firstn]. unfold maybe_pause.
  cbn [log_call resume_writing set_paused set_bytes s_lost s_buffer s_wire s_paused].
  assert (NL : (length (c :: r) <=? high)%nat = false) by (apply Nat.leb_gt; rewrite <- E, Len; lia). rewrite NL.
  unfold Sender.sstep. cbn [finish pause_writing log_call resume_writing set_paused set_bytes s_tasks setnth]. rewrite T. cbn [setnth nth_error].
  unfold try_write. cbn [finish pause_writing log_call resume_writing set_paused set_bytes s_lock set_task s_tasks].
  eexists. split; [reflexivity|]. unfold starving. cbn [set_task finish pause_writing log_call resume_writing set_paused set_bytes s_lock s_paused s_lost s_buffer s_tasks s_done].
  rewrite T, O, E. cbn [setnth]. repeat split.
Qed.

Definition rounds (n : nat) : list sevent := concat (repeat round n).

Lemma srun_app a b s : srun s (a ++ b) = match srun s a with Some s' => srun s' b | None => None end.
Proof. revert s. induction a as [|e a IH]; intros s; cbn [app Sender.srun]; [reflexivity|]. destruct (sstep s e); [apply IH|reflexivity]. Qed.

Theorem starvation m n :
  msg_bytes m = Ok (msg_str m) ->
  exists s, srun (sinit 2) (ESend 0 (big high) 0 :: ESend 1 m 0 :: rounds n) = Some s /\
    nth_error (s_tasks s) 1 = Some (SSleep m (msg_str m)) /\
    s_done s = repeat (0%nat, big high, OWritten) (S n).
Proof.
  intros Hm.
  assert (S0 : exists s0, srun (sinit 2) [ESend 0 (big high) 0; ESend 1 m 0] = Some s0 /\ starving m s0 /\ s_done s0 = [(0%nat, big high, OWritten)]).
  { pose proof (pause_reachable high low) as P. cbn [Sender.srun] in *. destruct (sstep (sinit 2) (ESend 0 (big high) 0)) as [s1|]; [|discriminate].
    injection P as ->. unfold Sender.sstep. cbn [paused_state s_tasks nth_error]. rewrite Hm. unfold try_write. cbn [log_call paused_state s_lock].
    eexists. split; [reflexivity|]. split; [repeat split|reflexivity]. }
  destruct S0 as (s0 & R0 & St & D0).
  assert (G : forall n s, starving m s -> exists s', srun s (rounds n) = Some s' /\ starving m s' /\ s_done s' = s_done s ++ repeat (0%nat, big high, OWritten) n).
  { clear. induction n as [|n IH]; intros s St.
    - exists s. cbn. rewrite app_nil_r. auto.
    - unfold rounds in *. cbn [repeat concat]. rewrite srun_app. destruct (starving_round m s St) as (s1 & R1 & St1 & D1). rewrite R1.
      destruct (IH s1 St1) as (s2 & R2 & St2 & D2). exists s2. split; [exact R2|]. split; [exact St2|]. rewrite D2, D1, <- app_assoc. reflexivity. }
  destruct (G n s0 St) as (s' & R & St' & D). exists s'. split.
  - change (ESend 0 (big high) 0 :: ESend 1 m 0 :: rounds n) with ([ESend 0 (big high) 0; ESend 1 m 0] ++ rounds n).
    rewrite srun_app, R0. exact R.
  - split; [destruct St' as (_ & _ & _ & _ & T); rewrite T; reflexivity|]. rewrite D, D0. reflexivity.
Qed.

(** A sleep that ends while the transport is not paused ends the call. *)
Theorem wake_ends n es s i m d k :
  srun (sinit n) es = Some s -> nth_error (s_tasks s) i = Some (SSleep m d) -> s_paused s = false ->
  exists s', sstep s (EWake i k) = Some s' /\
    s_done s' = s_done s ++ [(i, m, if s_lost s then ODropped else OWritten)].
Proof.
  intros R T P. pose proof (flow_reachable high low n es s R) as F. unfold Sender.sstep. rewrite T. unfold try_write.
  rewrite (f_lock s F), P. eexists. split; [reflexivity|]. cbn [finish s_done].
  destruct (write_same high k d s) as (_ & _ & _ & E & _). rewrite E. reflexivity.
Qed.
End water.
