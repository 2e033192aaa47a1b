(** * C136: start() calls that overlap, are cancelled or are closed upon *)
From Coq Require Import String List NArith ZArith Bool Lia.
From Verif Require Import PyStr Tags Messages AuthOpen AuthHmac IO Client Queue QueueThms PropClient Starts SpecStarts StartsThms StartsThms2 StartsThms3.
Import ListNotations.
Open Scope N_scope.
Open Scope list_scope.

(** A start() that has the client to itself is the handshake with what arrives on
    its own connection, whatever happened on the client before and whatever
    arrives on the connections of earlier starts, and however its waits are cut
    into pieces; all that is written goes to the new connection. *)
Theorem C136_alone C ty pw rnd s t s1 during s2 :
  sstep C ty pw rnd s (SConnect t) = Some s1 -> Forall (quiet t) during -> srun C ty pw rnd s1 during = Some s2 ->
  exists c (es : list (ev Empty_set)) r x, nth_error (s_conns s2) (length (s_conns s)) = Some c /\ nth_error (s_calls s2) t = Some x /\
    gots es ++ n_unread c = arrived (length (s_conns s)) during /\
    handshake C {| cl_session := ty; cl_proto := true |} pw (rnd t) (map Some (gots es)) = (es, [], r) /\
    n_given c = map (pair t) (sents es) /\ n_taken c = map (pair t) (gots es) /\
    (x = TEnded r \/ (r = Err TimeoutError /\ (x = TCancelled \/ exists k, x = TWaits (length (s_conns s)) k))).
Proof.
  intros E Q R. destruct (alone_start C ty pw rnd t s s1 E) as (A & c1 & N1 & O1).
  pose proof (alone_run C ty pw rnd t _ during s1 s2 [] c1 A Q R N1) as A2. rewrite O1 in A2.
  destruct A2 as [_ (c & es & p & N & Gi & Ta & He & Co & St)].
  assert (H : forall r, run_prog (start_prog C ty pw (rnd t)) (map Some (gots es)) = (es, [], r) ->
    handshake C {| cl_session := ty; cl_proto := true |} pw (rnd t) (map Some (gots es)) = (es, [], r)).
  { intros r X. rewrite <- prog_handshake by reflexivity. exact X. }
  destruct St as [(k & K & P)|[(r & K & P)|(k & x & K & X & P)]]; subst p.
  - exists c, es, (Err TimeoutError), (TWaits (length (s_conns s)) k). repeat (split; [solve [auto]|]). split; [apply H, (comes_wait _ k), Co|]. repeat (split; [assumption|]). right. eauto.
  - exists c, es, r, (TEnded r). repeat (split; [solve [auto]|]). split; [apply H, comes_end, Co|]. repeat (split; [assumption|]). left. reflexivity.
  - exists c, es, (Err TimeoutError), x. repeat (split; [solve [auto]|]). split; [apply H, (comes_wait _ k), Co|]. repeat (split; [assumption|]). destruct X as [-> | ->]; [left; reflexivity|right; auto].
Qed.
Print Assumptions C136_alone.

(** Once a later start() has its connection, or close() was called, nothing is
    ever written to an earlier connection again. *)
Theorem C136_old C ty pw rnd n l1 s1 a s2 l2 s3 : (exists t, a = SConnect t) \/ a = SClose ->
  srun C ty pw rnd (before_starts n) l1 = Some s1 -> sstep C ty pw rnd s1 a = Some s2 -> srun C ty pw rnd s2 l2 = Some s3 ->
  forall i c, nth_error (s_conns s1) i = Some c -> exists c', nth_error (s_conns s3) i = Some c' /\ n_given c' = n_given c.
Proof.
  intros A R1 E R2 i c N. destruct (last_run C ty pw rnd l1 (before_starts n) s1 I R1) as (K1 & _ & _).
  destruct (last_step C ty pw rnd s1 a s2 K1 E) as (K2 & _ & _).
  assert (Li : (i < length (s_conns s1))%nat) by (apply nth_error_Some; congruence).
  assert (exists c2, nth_error (s_conns s2) i = Some c2 /\ n_given c2 = n_given c /\ s_current s2 <> Some i) as (c2 & N2 & G2 & D2).
  { destruct A as [(t & ->)| ->]; cbn [sstep] in E.
    - destruct (nth_error (s_calls s1) t) as [[]|]; try discriminate. apply some_inj in E. subst s2. cbn [set_call s_conns s_current fst].
      destruct (go_given t (Some (length (s_conns s1))) (start_prog C ty pw (rnd t)) (s_conns s1 ++ [new_conn]) i c) as (c' & N' & X); [rewrite nth_error_app1 by exact Li; exact N|].
      assert (D : Some (length (s_conns s1)) <> Some i) by (intros Y; injection Y as Y; lia). exists c'. split; [exact N'|]. split; [rewrite (X D); reflexivity|exact D].
    - apply some_inj in E. subst s2. cbn [s_conns s_current]. destruct (s_current s1) as [j|]; [|exists c; repeat split; auto; discriminate].
      destruct (Nat.eq_dec j i) as [->|D]; [exists (hang_up c); rewrite (on_conn_same _ _ _ _ N)|exists c; rewrite on_conn_other by exact D]; repeat split; auto; discriminate. }
  destruct (last_run C ty pw rnd l2 s2 s3 K2 R2) as (_ & _ & H). destruct (H i c2 N2 D2) as (c3 & N3 & G3). exists c3. split; [exact N3|congruence].
Qed.
Print Assumptions C136_old.

(** However the calls are interleaved, with each other, with close(), timeouts and
    cancellations: a start() that returns, or raises anything but TimeoutError or
    InvalidSession, has gone through a handshake of its own that ends so, with
    just the messages that it took itself, and has written just the frames of that
    handshake.  In particular none returns without the proof of an HMAC gateway
    (C31, C33).  Whatever its end, it wrote no frame that this handshake would not
    write. *)
Theorem C136_own C ty pw rnd n l s t x : srun C ty pw rnd (before_starts n) l = Some s -> nth_error (s_calls s) t = Some x ->
  (exists (es : list (ev Empty_set)) left r more, handshake C {| cl_session := ty; cl_proto := true |} pw (rnd t) (map Some (taken_by t s)) = (es, left, r) /\ sents es = given_by t s ++ more) /\
  (forall r, x = TEnded r -> r <> Err TimeoutError -> r <> Err InvalidSession ->
     exists es : list (ev Empty_set), handshake C {| cl_session := ty; cl_proto := true |} pw (rnd t) (map Some (taken_by t s)) = (es, [], r) /\
       gots es = taken_by t s /\ sents es = given_by t s).
Proof.
  intros R T. destruct (along_run C ty pw rnd (fun t => start_prog C ty pw (rnd t)) l _ s (fun _ _ => eq_refl) (along_before _ n) R) as [_ A]. destruct (A t x T) as (es & p & Co & Ta & Gi & St).
  change (taken_by t s) with (entries n_taken t (s_conns s)). change (given_by t s) with (entries n_given t (s_conns s)). rewrite Ta, Gi.
  assert (H : forall sc, handshake C {| cl_session := ty; cl_proto := true |} pw (rnd t) sc = run_prog (start_prog C ty pw (rnd t)) sc).
  { intros sc. symmetry. apply (prog_handshake C {| cl_session := ty; cl_proto := true |}). reflexivity. }
  split.
  - rewrite H. specialize (Co []). rewrite app_nil_r in Co. rewrite Co. destruct (run_prog p []) as [[es1 s1] r1]. cbn. exists (es ++ es1), s1, r1, (sents es1). split; [reflexivity|apply sents_app].
  - intros r -> D1 D2. destruct St as [->|[E|E]]; [|contradiction|contradiction]. exists es. rewrite H. split; [apply comes_end, Co|auto].
Qed.
Print Assumptions C136_own.

(** At a gateway without password, [n] start() calls that all connect before one
    of them is answered: at most two return, and if the last to connect does, no
    other.  So of two or more never all. *)
Theorem C136_one C ty pw rnd n l1 s1 t s2 l2 s3 :
  (forall j, ~ In (SWake j) (l1 ++ [SConnect t])) -> ~ In SClose (l1 ++ l2) -> (forall j, ~ In (SConnect j) l2) ->
  srun C ty pw rnd (before_starts n) l1 = Some s1 -> sstep C ty pw rnd s1 (SConnect t) = Some s2 -> srun C ty pw rnd s2 l2 = Some s3 ->
  at_door s3 ->
  (length (filter returned (s_calls s3)) + match nth_error (s_calls s3) t with Some x => if returned x then 1 else 0 | None => 0 end <= 2)%nat.
Proof.
  intros W K N2 R1 E R2 D.
  assert (Ear : early C ty pw rnd s1).
  { apply (early_run C ty pw rnd l1 (before_starts n)); [apply early_before| |exact R1]. apply Forall_forall. intros a J. destruct a; cbn; auto.
    - apply (W t0). apply in_or_app. auto.
    - apply K. apply in_or_app. auto. }
  pose proof (early_door C ty pw rnd t s1 s2 Ear E) as Di.
  destruct (door_run C ty pw rnd t _ l2 s2 s3 _ Di) as (cL & DL).
  - apply Forall_forall. intros a J. destruct a; cbn; auto; [apply (N2 t0 J)|apply K, in_or_app; auto].
  - exact R2.
  - intros c N. apply (at_door_whole s3 _ c D N).
  - apply (door_count C ty pw rnd t _ s3 cL DL). apply (at_door_whole s3 _ cL D (d_conn _ _ _ _ _ _ _ _ DL)).
Qed.
Print Assumptions C136_one.

Theorem C136_never_all C ty pw rnd n l1 s1 t s2 l2 s3 : (2 <= n)%nat ->
  (forall j, ~ In (SWake j) (l1 ++ [SConnect t])) -> ~ In SClose (l1 ++ l2) -> (forall j, ~ In (SConnect j) l2) ->
  srun C ty pw rnd (before_starts n) l1 = Some s1 -> sstep C ty pw rnd s1 (SConnect t) = Some s2 -> srun C ty pw rnd s2 l2 = Some s3 ->
  at_door s3 -> exists j x, (j < n)%nat /\ nth_error (s_calls s3) j = Some x /\ returned x = false.
Proof.
  intros Two W K N2 R1 E R2 D. pose proof (C136_one C ty pw rnd n l1 s1 t s2 l2 s3 W K N2 R1 E R2 D) as H.
  assert (LEN : forall s a s', sstep C ty pw rnd s a = Some s' -> length (s_calls s') = length (s_calls s)).
  { intros s a s' X. destruct a as [j|j|i ms|i|j|j|j|]; cbn [sstep] in X.
    5: { destruct (nth_error (s_calls s) j) as [x|]; [|discriminate]. destruct x as [|i k| |]; try discriminate. destruct (nth_error (s_conns s) i) as [ci|]; [|discriminate].
         destruct (n_unread ci); [discriminate|]. apply some_inj in X. subst s'. cbn [set_call s_calls]. apply setnth_length. }
    all: try (destruct (nth_error (s_calls s) j) as [[]|]; try discriminate); apply some_inj in X; subst s'; cbn [set_call s_calls]; try apply setnth_length; reflexivity. }
  assert (RUN : forall l s s', srun C ty pw rnd s l = Some s' -> length (s_calls s') = length (s_calls s)).
  { induction l as [|a l IH]; intros s s' X; cbn [srun] in X; [injection X as <-; reflexivity|]. destruct (sstep C ty pw rnd s a) as [s0|] eqn:Y; [|discriminate]. rewrite (IH s0 s' X). eapply LEN; eassumption. }
  assert (L : length (s_calls s3) = n).
  { rewrite (RUN l2 s2 s3 R2), (LEN s1 _ s2 E), (RUN l1 _ s1 R1). apply repeat_length. }
  destruct (forallb returned (s_calls s3)) eqn:A.
  - exfalso. assert (F : filter returned (s_calls s3) = s_calls s3).
    { clear -A. induction (s_calls s3) as [|x q IH]; [reflexivity|]. cbn in *. apply andb_prop in A. destruct A as [-> A]. f_equal. auto. }
    assert (T : (t < length (s_calls s3))%nat).
    { rewrite (RUN l2 s2 s3 R2), (LEN s1 _ s2 E). cbn [sstep] in E. destruct (nth_error (s_calls s1) t) eqn:T; [|discriminate]. apply nth_error_Some. congruence. }
    rewrite F, L in H. destruct (nth_error (s_calls s3) t) as [x|] eqn:Tx; [|apply nth_error_None in Tx; lia].
    rewrite forallb_forall in A. rewrite (A x (nth_error_In _ _ Tx)) in H. lia.
  - assert (exists x, In x (s_calls s3) /\ returned x = false) as (x & J & F).
    { clear -A. induction (s_calls s3) as [|x q IH]; [discriminate|]. cbn in A. destruct (returned x) eqn:X; [destruct (IH A) as (y & J & F); exists y; split; [right; exact J|exact F]|exists x; split; [left; reflexivity|exact X]]. }
    apply In_nth_error in J. destruct J as (j & J). exists j, x. split; [rewrite <- L; apply nth_error_Some; congruence|auto].
Qed.
Print Assumptions C136_never_all.

(** close() while start() waits for a message: if none has arrived that start()
    did not read yet, it does not return normally any more, whatever else
    happens short of another start().  (Nothing is written: C136_old.) *)
Theorem C136_close C ty pw rnd n l1 s1 s2 l2 s3 t i k c :
  srun C ty pw rnd (before_starts n) l1 = Some s1 -> sstep C ty pw rnd s1 SClose = Some s2 ->
  Forall (fun a => connects a = false) l2 -> srun C ty pw rnd s2 l2 = Some s3 ->
  s_current s1 = Some i -> nth_error (s_calls s1) t = Some (TWaits i k) -> nth_error (s_conns s1) i = Some c -> n_unread c = [] ->
  exists x, nth_error (s_calls s3) t = Some x /\ (x = TWaits i k \/ x = TEnded (Err TimeoutError) \/ x = TCancelled).
Proof.
  intros R1 E F R2 Cu T N U. cbn [sstep] in E. apply some_inj in E. rewrite Cu in E. subst s2.
  eapply (closed_run C ty pw rnd l2 _ s3 t i k (hang_up c)); try eassumption; cbn [s_current s_calls s_conns]; auto. apply on_conn_same, N.
Qed.
Print Assumptions C136_close.

(** Witnesses, at a gateway without password. *)
Definition two_starts := [SConnect 0; SConnect 1; SArrive 0 [MAck]; SArrive 1 [MAck]; SWake 0; SArrive 1 [MAck]; SWake 1; SArrive 1 [MNack]; SWake 1]%nat.

(** The claim that start() succeeds where a single start() does is false when two
    overlap: the first returns, having logged in nowhere; the second raises,
    though its connection is the one that is logged in; the first connection
    stays open and nothing was ever written to it. *)
Theorem C136_overlap_refuted :
  exists s c0 c1, srun toy Command (lit "12345") (fun _ => []) (before_starts 2) two_starts = Some s /\ at_door s /\
    s_conns s = [c0; c1] /\ s_calls s = [TEnded (Ok tt); TEnded (Err InvalidAuthentication)] /\
    n_open c0 = true /\ n_given c0 = [] /\ s_current s = Some 1%nat /\
    n_given c1 = [(0%nat, lit "*99*9##"); (1%nat, lit "*99*9##")].
Proof.
  eexists _, _, _. split; [vm_compute; reflexivity|]. split; [|vm_compute; repeat split; reflexivity].
  intros i c N. destruct i as [|[|i]]; cbn in N; [| |destruct i; discriminate]; injection N as <-; vm_compute; eexists; reflexivity.
Qed.
Print Assumptions C136_overlap_refuted.

(** close() while the last answer lies unread: start() returns normally on a
    client that is closed. *)
Theorem C136_close_refuted :
  exists s c, srun toy Command (lit "12345") (fun _ => []) (before_starts 1)
      [SConnect 0; SArrive 0 [MAck]; SWake 0; SArrive 0 [MAck]; SClose; SWake 0]%nat = Some s /\
    s_conns s = [c] /\ n_open c = false /\ s_current s = None /\ s_calls s = [TEnded (Ok tt)].
Proof. eexists _, _. split; [vm_compute; reflexivity|]. vm_compute. repeat split; reflexivity. Qed.
Print Assumptions C136_close_refuted.

(** A start() that is cancelled, or times out, leaves its connection open and the
    client started: what is sent next goes out on a connection that is not logged
    in. *)
Theorem C136_cancel_refuted : forall a x, (a, x) = (SCancel 0%nat, TCancelled) \/ (a, x) = (STimeout 0%nat, TEnded (Err TimeoutError)) ->
  exists s c, srun toy Command (lit "12345") (fun _ => []) (before_starts 1) [SConnect 0%nat; SArrive 0%nat [MAck]; SWake 0%nat; a] = Some s /\
    s_calls s = [x] /\ s_conns s = [c] /\ n_open c = true /\ s_current s = Some 0%nat.
Proof. intros a x [H|H]; injection H as -> ->; (eexists _, _; split; [vm_compute; reflexivity|]; vm_compute; repeat split; reflexivity). Qed.
Print Assumptions C136_cancel_refuted.

(** The theorems apply: a start() after a failed one, whose connection still
    receives messages. *)
Example C136_alone_case : exists s s2, srun toy Command (lit "12345") (fun _ => []) (before_starts 2) [SConnect 0; SArrive 0 [MNack]; SWake 0]%nat = Some s /\
  s_calls s = [TEnded (Err InvalidAuthentication); TNew] /\
  srun toy Command (lit "12345") (fun _ => []) s (SConnect 1 :: [SArrive 0 [MAck]; SArrive 1 [MAck]; SWake 1; SArrive 0 [MNack]; SArrive 1 [MAck; MNack]; SWake 1])%nat = Some s2 /\
  s_calls s2 = [TEnded (Err InvalidAuthentication); TEnded (Ok tt)] /\ map n_unread (s_conns s2) = [[MAck; MNack]; [MNack]].
Proof. eexists _, _. split; [vm_compute; reflexivity|]. split; [reflexivity|]. split; [vm_compute; reflexivity|]. vm_compute. split; reflexivity. Qed.

(** Three that overlap: the first two return. *)
Example C136_one_case : exists s, srun toy Command (lit "12345") (fun _ => []) (before_starts 3)
    [SConnect 0; SConnect 1; SConnect 2; SArrive 0 [MAck]; SArrive 1 [MAck]; SArrive 2 [MAck]; SWake 0; SWake 1; SArrive 2 [MAck; MNack]; SWake 1; SWake 2]%nat = Some s /\
  s_calls s = [TEnded (Ok tt); TEnded (Ok tt); TEnded (Err InvalidAuthentication)].
Proof. eexists. split; [vm_compute; reflexivity|]. vm_compute. reflexivity. Qed.

(** The first start() of the witness above took the greetings of both connections
    and wrote one frame, as a handshake of its own. *)
Example C136_own_case : exists s, srun toy Command (lit "12345") (fun _ => []) (before_starts 2) two_starts = Some s /\
  taken_by 0 s = [MAck; MAck] /\ given_by 0 s = [lit "*99*9##"] /\ taken_by 1 s = [MAck; MNack] /\ given_by 1 s = [lit "*99*9##"].
Proof. eexists. split; [vm_compute; reflexivity|]. vm_compute. repeat split; reflexivity. Qed.

(** Only the last one returns. *)
Example C136_last_case : exists s, srun toy Command (lit "12345") (fun _ => []) (before_starts 2)
    [SConnect 0; SConnect 1; SArrive 1 [MAck]; SWake 1; SArrive 1 [MAck]; SWake 1; SArrive 0 [MAck]; SWake 0; SArrive 1 [MNack]; SWake 0]%nat = Some s /\
  s_calls s = [TEnded (Err InvalidAuthentication); TEnded (Ok tt)].
Proof. eexists. split; [vm_compute; reflexivity|]. vm_compute. reflexivity. Qed.

Example C136_close_case :
  match srun toy Command (lit "12345") (fun _ => []) (before_starts 1) [SConnect 0; SArrive 0 [MAck]; SWake 0]%nat with
  | Some s1 => (s_current s1, match s_calls s1 with [TWaits i _] => Some i | _ => None end, map n_unread (s_conns s1), map n_given (s_conns s1))
               = (Some 0%nat, Some 0%nat, [[]], [[(0%nat, lit "*99*9##")]])
  | None => False
  end.
Proof. vm_compute. reflexivity. Qed.
