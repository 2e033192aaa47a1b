(** * Property C43 again: what Python 3.13 changes is the calls, and nothing else *)
From Coq Require Import String List NArith ZArith Bool Lia.
From Verif Require Import PyStr Tags Messages SpecMsg Protocol Queue QueueThms IO Client Items Dispatch SpecDispatch DispatchThms DispatchThms2 PropDispatch
  Loop SpecLoop LoopThms PropLoop Loops SpecLoops LoopsThms PropLoops VersionThms.
Import ListNotations.
Open Scope N_scope.
Open Scope list_scope.

(** Under any two versions the same history of calls of loop(), packets,
    registrations, look-ups and ends of the connection leaves the same unread
    messages, the same items and the same end of the loop. *)
Theorem C43_rest : forall v v' r xs,
  let a := lrun v (connected r) xs in let b := lrun v' (connected r) xs in
  st_trans a = st_trans b /\ st_queue a = st_queue b /\ st_items a = st_items b /\ st_loop a = st_loop b.
Proof.
  intros v v' r xs. cbv zeta. assert (H : apart (connected r) (connected r)) by (repeat split).
  destruct (lrun_apart v v' xs _ _ H) as (_ & H2 & H3 & H4 & _ & H6). auto.
Qed.
Print Assumptions C43_rest.

(** The same for any number of tasks with loop() and read_message(): the same
    steps are possible, every call ends in the same way, the same messages are
    given to the same readers. *)
Theorem C43_rest_many : forall v v' n r es a, mrun v (minit n r) es = Some a ->
  exists b, mrun v' (minit n r) es = Some b /\ m_q a = m_q b /\ m_job a = m_job b /\ m_items a = m_items b /\ m_ended a = m_ended b.
Proof.
  intros v v' n r es a E. assert (H : mapart (minit n r) (minit n r)) by (repeat split).
  pose proof (mrun_apart v v' es _ _ H) as B. rewrite E in B. destruct (mrun v' (minit n r) es) as [b|]; [|contradiction].
  exists b. destruct B as (_ & _ & H3 & H4 & H5 & _ & H7). auto.
Qed.
Print Assumptions C43_rest_many.

(** From 3.13 on no call of loop() ever leads to a callback. *)
Theorem C43_silent_many_refuted : forall v, 13 <= v ->
  (forall r xs, st_started (lrun v (connected r) xs) = []) /\
  (forall n r es s, mrun v (minit n r) es = Some s -> m_started s = []).
Proof.
  intros v Hv. split.
  - intros r xs. exact (lrun_silent v xs Hv (connected r)).
  - intros n r es s E. exact (mrun_silent v es Hv (minit n r) s E).
Qed.
Print Assumptions C43_silent_many_refuted.

(** ** C41, C38, C79, C97, C98 and C100 under every version *)

Lemma run_same v v' s acts : st_loop (run v s acts) = st_loop (run v' s acts) /\ st_queue (run v s acts) = st_queue (run v' s acts).
Proof.
  rewrite !run_lrun. assert (H : apart s s) by (repeat split). destruct (lrun_apart v v' (map Do acts) _ _ H) as (_ & _ & H3 & _ & _ & H6). auto.
Qed.

Lemma entered_same v v' r acts :
  st_loop (run v (enter v (connected r)) acts) = st_loop (run v' (enter v' (connected r)) acts) /\
  st_queue (run v (enter v (connected r)) acts) = st_queue (run v' (enter v' (connected r)) acts).
Proof.
  rewrite !run_lrun. destruct (C43_rest v v' r (Call :: map Do acts)) as (_ & H3 & _ & H6). auto.
Qed.

Theorem C41_survives_any : forall v r acts evs q, observed r acts evs q -> Forall (fun ev => ~ stray (snd ev)) evs ->
  st_loop (run v (enter v (connected r)) acts) = Waiting /\ st_queue (run v (enter v (connected r)) acts) = q.
Proof.
  intros v r acts evs q O NS. destruct (entered_same v 12 r acts) as [-> ->]. apply (C41_survives_partial 12 r acts evs q); [reflexivity|assumption..].
Qed.
Print Assumptions C41_survives_any.

Theorem C41_stray_any_refuted : forall v r acts evs pre m post,
  observed r acts evs (pre ++ m :: post) -> Forall (fun ev => ~ stray (snd ev)) evs -> Forall (fun m => ~ stray m) pre -> stray m ->
  exists e, (e = IndexError \/ e = InvalidTag) /\ forall more, st_loop (run v (enter v (connected r)) (acts ++ Wake :: more)) = Failed e.
Proof.
  intros v r acts evs pre m post O NS NP S.
  destruct (C41_stray_event_refuted 12 r acts evs pre m post ltac:(reflexivity) O NS NP S) as (e & t1 & t2 & its & He & F1 & F2 & F).
  exists e. split; [exact He|]. intros more. destruct (entered_same v 12 r (acts ++ Wake :: more)) as [-> _]. apply F.
Qed.
Print Assumptions C41_stray_any_refuted.

Theorem C38_pending_any : forall v s m q a acts, In a [Close; Lost] ->
  st_loop s = Waiting -> st_trans s = Some false -> st_queue s = m :: q -> built m -> ~ stray m -> sound (st_items s) ->
  st_loop (run v s (a :: Wake :: acts)) = match a with Close => Failed AttributeError | _ => Returned end.
Proof.
  intros v s m q a acts Ha L T Q B NS So. destruct (run_same v 12 s (a :: Wake :: acts)) as [-> _].
  destruct (C38_pending_partial 12 s m q a acts ltac:(reflexivity) Ha L T Q B NS So) as (its & ts & M & E & _). exact E.
Qed.
Print Assumptions C38_pending_any.

Theorem C79_camera_any_refuted : forall v r acts evs q, observed r acts evs q ->
  Forall (fun ev => msg_who (snd ev) = Some VIDEO_DOOR_ENTRY) evs -> st_started (run v (enter v (connected r)) acts) = [].
Proof.
  intros v r acts evs q O F. destruct (N.lt_ge_cases v 13) as [H|H].
  - exact (C79_camera_silent_refuted v r acts evs q H O F).
  - exact (C43_silent_refuted v r acts H).
Qed.
Print Assumptions C79_camera_any_refuted.

Theorem C97_unread_any : forall v r xs up evs q, story r xs up evs q ->
  st_queue (lrun v (connected r) xs) = q /\ (up = true <-> st_loop (lrun v (connected r) xs) = Waiting).
Proof.
  intros v r xs up evs q O. destruct (C43_rest v 12 r xs) as (_ & -> & _ & ->).
  destruct (C97_calls 12 r xs up evs q ltac:(reflexivity) O) as (its & tss & Y1 & Y2 & Y3 & H). exact H.
Qed.
Print Assumptions C97_unread_any.

Theorem C98_backlog_any_refuted : forall v r xs evs q a more, story r xs false evs q -> In a [Lost; Close] ->
  st_queue (lrun v (connected r) (xs ++ [Do a])) = q /\
  st_started (lrun v (connected r) (xs ++ Do a :: more)) = st_started (lrun v (connected r) xs).
Proof.
  intros v r xs evs q a more O Ha. destruct (N.lt_ge_cases v 13) as [H|H].
  - exact (C98_backlog_refuted v r xs evs q a more H O Ha).
  - destruct (C43_rest v 12 r (xs ++ [Do a])) as (_ & -> & _ & _). split.
    + exact (proj1 (C98_backlog_refuted 12 r xs evs q a more ltac:(reflexivity) O Ha)).
    + destruct (C43_silent_many_refuted v H) as [S _]. rewrite !S. reflexivity.
Qed.
Print Assumptions C98_backlog_any_refuted.

Theorem C100_sharing_any : forall v n r es s, Forall steady es -> mrun v (minit n r) es = Some s ->
  exists tk, shared r es tk (c_queue (q_conn (m_q s))) /\ endings tk (m_ended s).
Proof.
  intros v n r es s St E. destruct (C43_rest_many v 12 n r es s E) as (b & Eb & -> & _ & _ & ->).
  destruct (C100_sharing 12 n r es b ltac:(reflexivity) St Eb) as (tk & tss & H & Y1 & Y2 & H'). exists tk. auto.
Qed.
Print Assumptions C100_sharing_any.

(** The history of [crowd] (PropLoops.v) under 3.14: the same ends, no call. *)
Example C43_ex_many : exists s s', mrun 12 (minit 3 no_callbacks) crowd = Some s /\ mrun 14 (minit 3 no_callbacks) crowd = Some s' /\
  m_started s <> [] /\ m_started s' = [] /\ m_ended s' = m_ended s /\
  m_ended s' = [(1%nat, OFailed InvalidTag); (2%nat, OMessage (MNormal LIGHTING (lit "0") (lit "13")))].
Proof. do 2 eexists. split; [vm_compute; reflexivity|]. split; [vm_compute; reflexivity|]. repeat split; vm_compute; try reflexivity. discriminate. Qed.

Example C41_ex_any : st_loop (run 14 (enter 14 (connected two)) [Packet stray_frame; Wake]) = Failed InvalidTag /\
  st_loop (run 14 (enter 14 (connected two)) [Packet light_on; Wake]) = Waiting.
Proof. vm_compute. split; reflexivity. Qed.

Example C97_ex_any : st_queue (lrun 14 (connected two) [Do (Packet (light_on ++ stray_frame ++ light_on)); Call]) = [MNormal LIGHTING (lit "1") (lit "12")] /\
  st_queue (lrun 14 (connected two) [Do (Packet (light_on ++ stray_frame ++ light_on)); Call; Call]) = [].
Proof. vm_compute. split; reflexivity. Qed.
