(** * One call at a time: nobody waits for the transport *)
From Coq Require Import String List NArith ZArith Bool Lia.
From Verif Require Import PyStr Tags Messages MessageFacts SpecMsg SpecTag SpecProto ProtoThms Protocol Queue QueueThms Sender SenderThms IO Client SpecItem Items
  Conc SpecConc ConcThms SpecSerial SerialThms SpecHouse HouseThms HouseThms2 SpecTogether SerialThms2 TogetherThms Line SpecLine LineThms LineThms2 LineThms3 SpecArrive.
Import ListNotations.
Open Scope list_scope.

Section water.
Variables high low : nat.
Notation lrun := (lrun high low).
Notation lstep := (lstep high low).
Notation sstep := (sstep high low).
Notation srun := (srun high low).

(** ** An empty buffer is not a reason to wait *)

Definition eager (s : sstate) : Prop := s_lost s = false -> s_buffer s = [] -> s_paused s = false.

Lemma maybe_pause_eager s : eager s -> eager (maybe_pause high s).
Proof.
  unfold maybe_pause. intros H. destruct (length (s_buffer s) <=? high)%nat eqn:L; [exact H|]. destruct (s_paused s) eqn:P; [exact H|].
  intros _ B. cbn in B. rewrite B in L. discriminate L.
Qed.

Lemma write_eager k d s : eager s -> eager (transport_write high k d s).
Proof.
  intros H. unfold transport_write. destruct d as [|x d]; [exact H|]. destruct (s_lost s) eqn:L; [exact H|].
  destruct (s_buffer s) as [|b bs] eqn:B.
  - destruct (skipn k (x :: d)) as [|y r]; [intros _ _; cbn; apply H; assumption|].
    apply maybe_pause_eager. intros _ X. cbn in X. discriminate X.
  - apply maybe_pause_eager. intros _ X. cbn in X. discriminate X.
Qed.

Lemma try_eager i k m d s : eager s -> eager (try_write high i k m d s).
Proof.
  intros H. unfold try_write. destruct (s_lock s); [exact H|]. pose proof (write_eager k d s H) as W.
  intros L B. cbn in *. apply W; assumption.
Qed.

Lemma eager_step s e s' : eager s -> sstep s e = Some s' -> eager s'.
Proof.
  intros H E. destruct e as [i m k|i k|i|k|]; cbn [Sender.sstep] in E.
  - destruct (nth_error (s_tasks s) i) as [[]|]; try discriminate. destruct (msg_bytes m); injection E as <-; [apply try_eager; exact H|exact H].
  - destruct (nth_error (s_tasks s) i) as [[]|]; try discriminate. injection E as <-. apply try_eager, H.
  - destruct (nth_error (s_tasks s) i) as [[]|]; try discriminate. injection E as <-. exact H.
  - destruct (s_lost s) eqn:L; [discriminate|]. destruct (s_buffer s) as [|b bs] eqn:B; [discriminate|]. destruct (_ && _); [|discriminate]. injection E as <-.
    unfold maybe_resume. cbn [s_paused set_bytes s_buffer]. destruct (s_paused s) eqn:P; cbn [andb].
    + destruct (length (skipn k (b :: bs)) <=? low)%nat eqn:Q; [intros _ _; reflexivity|]. intros _ X. cbn [s_buffer set_bytes] in X. rewrite X in Q. discriminate Q.
    + intros _ _. exact P.
  - destruct (s_lost s); [discriminate|]. injection E as <-. intros L. discriminate L.
Qed.

Lemma eager_reachable n es s : srun (sinit n) es = Some s -> eager s.
Proof. apply srun_ind; [intros _ _; reflexivity|apply eager_step]. Qed.

Lemma wire_step s e s' : sstep s e = Some s' -> (length (s_wire s) <= length (s_wire s'))%nat.
Proof.
  assert (P : forall s, s_wire (maybe_pause high s) = s_wire s) by (intros x; unfold maybe_pause; destruct (_ <=? _)%nat; [reflexivity|]; destruct (s_paused x); reflexivity).
  assert (W : forall k d s, (length (s_wire s) <= length (s_wire (transport_write high k d s)))%nat).
  { intros k d x. unfold transport_write. destruct d as [|y d]; [lia|]. destruct (s_lost x); [lia|]. destruct (s_buffer x).
    - destruct (skipn k (y :: d)); rewrite ?P; cbn [s_wire set_bytes]; rewrite app_length; lia.
    - rewrite P. cbn. lia. }
  assert (T : forall i k m d x, (length (s_wire x) <= length (s_wire (try_write high i k m d x)))%nat).
  { intros i k m d x. unfold try_write. destruct (s_lock x); [cbn; lia|]. cbn [finish s_wire]. apply W. }
  intros E. destruct e as [i m k|i k|i|k|]; cbn [Sender.sstep] in E.
  - destruct (nth_error (s_tasks s) i) as [[]|]; try discriminate. destruct (msg_bytes m) as [d|x]; injection E as <-; [|cbn; lia].
    exact (T i k m d (log_call i m s)).
  - destruct (nth_error (s_tasks s) i) as [[]|]; try discriminate. injection E as <-. apply T.
  - destruct (nth_error (s_tasks s) i) as [[]|]; try discriminate. injection E as <-. cbn. lia.
  - destruct (s_lost s); [discriminate|]. destruct (s_buffer s); [discriminate|]. destruct (_ && _); [|discriminate]. injection E as <-.
    destruct (maybe_resume_same low (set_bytes (skipn k (n :: l)) (s_wire s ++ firstn k (n :: l)) s)) as (_ & _ & E3 & _). rewrite E3. cbn [s_wire set_bytes]. rewrite app_length. lia.
  - destruct (s_lost s); [discriminate|]. injection E as <-. cbn. lia.
Qed.

(** ** The bytes that the gateway has dealt with *)

Lemma arriving_watched gw l h inn out c es l' h' inn' out' c' evs : arriving gw high low l h inn out c es l' h' inn' out' c' evs ->
  watched gw high low l h inn out es l' h' inn' out' evs.
Proof. intros A. induction A; econstructor; eassumption. Qed.

Lemma arriving_app gw a : forall b l h inn out c l' h' inn' out' c' evs, arriving gw high low l h inn out c (a ++ b) l' h' inn' out' c' evs ->
  exists l1 h1 inn1 out1 c1 evs1, arriving gw high low l h inn out c a l1 h1 inn1 out1 c1 evs1.
Proof.
  intros b l h inn out c l' h' inn' out' c' evs A. remember (a ++ b) as es eqn:E. revert a b E.
  induction A as [l h inn out c|l h b0 inn out c h1 ans ev1 es l' h' inn' out' c' evs Le Sv A IH|l h inn out c e l1 es l' h' inn' out' c' evs Np S A IH|l h inn fs out c l1 es l' h' inn' out' c' evs S A IH]; intros a b E.
  - destruct a; [|discriminate]. do 6 eexists. apply Ar_nil.
  - destruct (IH a b E) as (l1 & h2 & inn1 & out1 & c1 & evs1 & X). do 6 eexists. eapply Ar_obey; eassumption.
  - destruct a as [|e' a]; [do 6 eexists; apply Ar_nil|]. injection E as <- E. destruct (IH a b E) as (l2 & h2 & inn2 & out2 & c2 & evs2 & X). do 6 eexists. eapply Ar_step; eassumption.
  - destruct a as [|e' a]; [do 6 eexists; apply Ar_nil|]. injection E as <- E. destruct (IH a b E) as (l2 & h2 & inn2 & out2 & c2 & evs2 & X). do 6 eexists. eapply Ar_packet; eassumption.
Qed.

Lemma lstep_srun l e l' : asleep_ok (l_s l) -> lstep l e = Some l' -> srun (l_s l) (sending [e]) = Some (l_s l').
Proof. intros As E. destruct (step_sides high low l e l' (lstep_shape high low l e l' As E)) as (_ & y & R & _). exact R. Qed.

Lemma lstep_wire l e l' : asleep_ok (l_s l) -> lstep l e = Some l' -> (length (s_wire (l_s l)) <= length (s_wire (l_s l')))%nat.
Proof.
  intros As E. pose proof (lstep_srun l e l' As E) as R. destruct e; cbn [sending Sender.srun] in R;
    try (destruct (sstep (l_s l) _) eqn:X; [|discriminate R]; injection R as <-; exact (wire_step _ _ _ X)); injection R as <-; lia.
Qed.

Lemma arriving_bytes gw n : forall l h inn out c es l' h' inn' out' c' evs, arriving gw high low l h inn out c es l' h' inn' out' c' evs ->
  forall pre, lrun (linit n) pre = Some l -> (c <= length (s_wire (l_s l)))%nat -> (c + length (concat inn) = length (concat (frames_done (s_done (l_s l)))))%nat ->
  (c' <= length (s_wire (l_s l')))%nat /\ (c' + length (concat inn') = length (concat (frames_done (s_done (l_s l')))))%nat.
Proof.
  intros l h inn out c es l' h' inn' out' c' evs A.
  induction A as [l h inn out c|l h b0 inn out c h1 ans ev1 es l' h' inn' out' c' evs Le Sv A IH|l h inn out c e l1 es l' h' inn' out' c' evs Np S A IH|l h inn fs out c l1 es l' h' inn' out' c' evs S A IH]; intros pre R Lc E.
  - auto.
  - apply (IH pre R Le). cbn [concat] in E. rewrite app_length in E. lia.
  - assert (R1 : lrun (linit n) (pre ++ [e]) = Some l1) by (eapply lrun_join; [exact R|]; cbn [Line.lrun]; rewrite S; reflexivity).
    destruct (sides high low n pre l R) as (Sr & _). pose proof (b_sleep _ (bytes_reachable high low n _ _ Sr)) as As.
    apply (IH _ R1); [pose proof (lstep_wire l e l1 As S); lia|].
    destruct (step_sides high low l e l1 (lstep_shape high low l e l1 As S)) as (_ & y & _ & _ & _ & _ & Dy & _).
    assert (T : taken l l1 = frames_done y) by (unfold taken; rewrite Dy, skipn_app, skipn_all, Nat.sub_diag; reflexivity).
    rewrite T, Dy, frames_app, !concat_app, !app_length. lia.
  - assert (R1 : lrun (linit n) (pre ++ [LPacket (concat fs)]) = Some l1) by (eapply lrun_join; [exact R|]; cbn [Line.lrun]; rewrite S; reflexivity).
    assert (Ds : l_s l1 = l_s l).
    { cbn [Line.lstep] in S. unfold lift_c in S. destruct (cstep (l_c l) (KPacket (concat fs))); [|discriminate]. injection S as <-. reflexivity. }
    apply (IH _ R1); rewrite Ds; assumption.
Qed.

(** ** Nobody waits *)

Lemma undisturbed_app a b : undisturbed (a ++ b) -> undisturbed a.
Proof. unfold undisturbed. intros H. apply Forall_app in H as (H & _). exact H. Qed.
Lemma made_firstn a b cs : made (started (a ++ b)) cs -> made (started a) (firstn (length (started a)) cs).
Proof.
  unfold made. rewrite started_app. intros M. apply Forall2_app_inv_l in M as (c1 & c2 & M1 & M2 & ->).
  rewrite (SerialThms.forall2_length _ _ _ M1), firstn_app, firstn_all, Nat.sub_diag. cbn. rewrite app_nil_r. exact M1.
Qed.

Theorem calm_start gw n es h l h' inn out c evs cs : gateway_ok gw -> house_ok h -> plain h -> Forall call_ok cs -> locked high low n es -> undisturbed es ->
  arriving gw high low (linit n) h [] [] 0 es l h' inn out c evs -> made (started es) cs ->
  Forall (eq SIdle) (s_tasks (l_s l)) -> Forall (eq PIdle) (k_pc (l_c l)) -> s_buffer (l_s l) = [] /\ s_lock (l_s l) = false.
Proof.
  intros G Hh P F Lk U A M Is Ip.
  destruct (line_story gw high low n es l h h' inn out evs cs G Hh P F Lk U (arriving_watched _ _ _ _ _ _ _ _ _ _ _ _ _ A) M) as (j & log & heard & _ & _ & _ & _ & (k & pend & read & _ & _ & _ & _ & K) & _).
  destruct (K Is Ip) as (_ & ->).
  destruct (arriving_bytes gw n _ _ _ _ _ _ _ _ _ _ _ _ A [] eq_refl) as (Lc & E); [cbn; lia|reflexivity|].
  destruct (watched_chain high low gw n _ _ _ _ _ _ _ _ _ _ (arriving_watched _ _ _ _ _ _ _ _ _ _ _ _ _ A) [] eq_refl) as (R & _). cbn [app] in R.
  destruct (lock_run high low n es l R Lk U) as (_ & _ & _ & _ & _ & _ & _ & _ & L & Dn & _).
  destruct (sides high low n es l R) as (Sr & _).
  pose proof (b_live _ (bytes_reachable high low n _ _ Sr) L) as B.
  assert (W : SenderThms.written (s_done (l_s l)) = concat (frames_done (s_done (l_s l)))).
  { unfold SenderThms.written, frames_done. reflexivity. }
  rewrite W in B. apply (f_equal (@length N)) in B. rewrite app_length in B. cbn in E.
  assert (X : s_buffer (l_s l) = []) by (destruct (s_buffer (l_s l)); [reflexivity|cbn [length] in B; lia]). split; [exact X|].
  rewrite (f_lock _ (flow_reachable high low n _ _ Sr)). apply (eager_reachable n _ _ Sr L X).
Qed.

Lemma try_free i k m d s : s_lock s = false -> s_tasks (try_write high i k m d s) = setnth i SIdle (s_tasks (transport_write high k d s)).
Proof. intros E. unfold try_write. rewrite E. reflexivity. Qed.

Theorem nobody_waits gw n es : forall h l h' inn out c evs cs, gateway_ok gw -> house_ok h -> plain h -> Forall call_ok cs -> locked high low n es -> undisturbed es ->
  arriving gw high low (linit n) h [] [] 0 es l h' inn out c evs -> made (started es) cs -> Forall (eq SIdle) (s_tasks (l_s l)).
Proof.
  induction es as [|e es IH] using rev_ind; intros h l h' inn out c evs cs G Hh P F Lk U A M.
  - destruct (watched_chain high low gw n _ _ _ _ _ _ _ _ _ _ (arriving_watched _ _ _ _ _ _ _ _ _ _ _ _ _ A) [] eq_refl) as (R & _). cbn in R. injection R as <-.
    apply Forall_forall. intros x Hx. cbn in Hx. symmetry. exact (repeat_spec _ _ _ Hx).
  - destruct (watched_chain high low gw n _ _ _ _ _ _ _ _ _ _ (arriving_watched _ _ _ _ _ _ _ _ _ _ _ _ _ A) [] eq_refl) as (R & _). cbn [app] in R.
    destruct (lrun_app high low es [e] _ _ R) as (l0 & R0 & R1). cbn [Line.lrun] in R1. destruct (lstep l0 e) as [l1|] eqn:E; [|discriminate]. injection R1 as ->.
    destruct (arriving_app gw es [e] _ _ _ _ _ _ _ _ _ _ _ A) as (l2 & h2 & inn2 & out2 & c2 & evs2 & A2).
    destruct (watched_chain high low gw n _ _ _ _ _ _ _ _ _ _ (arriving_watched _ _ _ _ _ _ _ _ _ _ _ _ _ A2) [] eq_refl) as (R2 & _). cbn [app] in R2.
    rewrite R0 in R2. injection R2 as <-.
    assert (F' : Forall call_ok (firstn (length (started es)) cs)) by (rewrite <- (firstn_skipn (length (started es)) cs) in F; apply Forall_app in F as (F & _); exact F).
    pose proof (IH _ _ _ _ _ _ _ _ G Hh P F' (locked_app _ _ _ _ _ Lk) (undisturbed_app _ _ U) A2 (made_firstn _ _ _ M)) as I0.
    destruct (sides high low n es l0 R0) as (Sr & _). pose proof (b_sleep _ (bytes_reachable high low n _ _ Sr)) as As.
    assert (Same : forall l', s_tasks (l_s l') = s_tasks (l_s l0) -> Forall (eq SIdle) (s_tasks (l_s l'))) by (intros l' ->; exact I0).
    assert (Nosleep : forall i m d, nth_error (s_tasks (l_s l0)) i = Some (SSleep m d) -> False).
    { intros i m d H. rewrite Forall_forall in I0. pose proof (I0 _ (nth_error_In _ _ H)) as X. discriminate X. }
    assert (Set0 : forall i, Forall (eq SIdle) (setnth i SIdle (s_tasks (l_s l0)))).
    { intros i. apply all_idle_set. intros j t Hj _. rewrite Forall_forall in I0. symmetry. apply I0. eapply nth_error_In, Hj. }
    pose proof (lstep_srun l0 e l As E) as Sq. destruct e as [i p m k|i k|i|k| |d|i|i]; cbn [sending Sender.srun] in Sq.
    + destruct (Lk es i p m k [] l0 eq_refl R0) as (K1 & K2).
      destruct (calm_start gw n es h l0 _ _ _ _ _ _ G Hh P F' (locked_app _ _ _ _ _ Lk) (undisturbed_app _ _ U) A2 (made_firstn _ _ _ M) K1 K2) as (_ & Lf).
      cbn [Sender.sstep] in Sq. destruct (nth_error (s_tasks (l_s l0)) i) as [[]|]; try discriminate. destruct (msg_bytes m) as [d|x]; injection Sq as <-.
      * rewrite try_free by exact Lf. destruct (write_same high k d (log_call i m (l_s l0))) as (_ & W2 & _). rewrite W2. apply Set0.
      * cbn. apply Set0.
    + cbn [Sender.sstep] in Sq. destruct (nth_error (s_tasks (l_s l0)) i) as [[|m d]|] eqn:T; try discriminate. destruct (Nosleep _ _ _ T).
    + cbn [Sender.sstep] in Sq. destruct (nth_error (s_tasks (l_s l0)) i) as [[|m d]|] eqn:T; try discriminate. destruct (Nosleep _ _ _ T).
    + apply Same. cbn [Sender.sstep] in Sq. destruct (s_lost (l_s l0)); [discriminate|]. destruct (s_buffer (l_s l0)) as [|b bs]; [discriminate|]. destruct (_ && _); [|discriminate]. injection Sq as <-.
      destruct (maybe_resume_same low (set_bytes (skipn k (b :: bs)) (s_wire (l_s l0) ++ firstn k (b :: bs)) (l_s l0))) as (_ & _ & _ & E4 & _). rewrite E4. reflexivity.
    + apply Same. cbn [Sender.sstep] in Sq. destruct (s_lost (l_s l0)); [discriminate|]. injection Sq as <-. reflexivity.
    + injection Sq as <-. exact I0.
    + injection Sq as <-. exact I0.
    + injection Sq as <-. exact I0.
Qed.

(** ** At most one frame is buffered *)

Definition one_frame (es : list levent) (s : sstate) : Prop :=
  s_buffer s = [] \/ exists before i p b u, started es = before ++ [(i, (p, b))] /\ b = u ++ s_buffer s.

Lemma pause_buffer s : s_buffer (maybe_pause high s) = s_buffer s.
Proof. unfold maybe_pause. destruct (_ <=? _)%nat; [reflexivity|]. destruct (s_paused s); reflexivity. Qed.

Theorem single_frame gw n es : forall h l h' inn out c evs cs, gateway_ok gw -> house_ok h -> plain h -> Forall call_ok cs -> locked high low n es -> undisturbed es ->
  arriving gw high low (linit n) h [] [] 0 es l h' inn out c evs -> made (started es) cs -> one_frame es (l_s l).
Proof.
  induction es as [|e es IH] using rev_ind; intros h l h' inn out c evs cs G Hh P F Lk U A M.
  - destruct (watched_chain high low gw n _ _ _ _ _ _ _ _ _ _ (arriving_watched _ _ _ _ _ _ _ _ _ _ _ _ _ A) [] eq_refl) as (R & _). cbn in R. injection R as <-. left. reflexivity.
  - destruct (watched_chain high low gw n _ _ _ _ _ _ _ _ _ _ (arriving_watched _ _ _ _ _ _ _ _ _ _ _ _ _ A) [] eq_refl) as (R & _). cbn [app] in R.
    destruct (lrun_app high low es [e] _ _ R) as (l0 & R0 & R1). cbn [Line.lrun] in R1. destruct (lstep l0 e) as [l1|] eqn:E; [|discriminate]. injection R1 as ->.
    destruct (arriving_app gw es [e] _ _ _ _ _ _ _ _ _ _ _ A) as (l2 & h2 & inn2 & out2 & c2 & evs2 & A2).
    destruct (watched_chain high low gw n _ _ _ _ _ _ _ _ _ _ (arriving_watched _ _ _ _ _ _ _ _ _ _ _ _ _ A2) [] eq_refl) as (R2 & _). cbn [app] in R2.
    rewrite R0 in R2. injection R2 as <-.
    assert (F' : Forall call_ok (firstn (length (started es)) cs)) by (rewrite <- (firstn_skipn (length (started es)) cs) in F; apply Forall_app in F as (F & _); exact F).
    pose proof (IH _ _ _ _ _ _ _ _ G Hh P F' (locked_app _ _ _ _ _ Lk) (undisturbed_app _ _ U) A2 (made_firstn _ _ _ M)) as I0.
    pose proof (nobody_waits gw n _ _ _ _ _ _ _ _ _ G Hh P F' (locked_app _ _ _ _ _ Lk) (undisturbed_app _ _ U) A2 (made_firstn _ _ _ M)) as Id.
    destruct (sides high low n es l0 R0) as (Sr & _). pose proof (b_sleep _ (bytes_reachable high low n _ _ Sr)) as As.
    destruct (lock_run high low n es l0 R0 (locked_app _ _ _ _ _ Lk) (undisturbed_app _ _ U)) as (_ & _ & _ & _ & _ & _ & _ & _ & L & _).
    assert (Nosleep : forall i m d, nth_error (s_tasks (l_s l0)) i = Some (SSleep m d) -> False).
    { intros i m d H. rewrite Forall_forall in Id. pose proof (Id _ (nth_error_In _ _ H)) as X. discriminate X. }
    assert (Keep : forall s', s_buffer s' = s_buffer (l_s l0) -> started [e] = [] -> one_frame (es ++ [e]) s').
    { intros s' B S0. unfold one_frame. rewrite B, started_app, S0, app_nil_r. exact I0. }
    pose proof (lstep_srun l0 e l As E) as Sq. destruct e as [i p m k|i k|i|k| |d|i|i]; cbn [sending Sender.srun] in Sq.
    + destruct (Lk es i p m k [] l0 eq_refl R0) as (K1 & K2).
      destruct (calm_start gw n es h l0 _ _ _ _ _ _ G Hh P F' (locked_app _ _ _ _ _ Lk) (undisturbed_app _ _ U) A2 (made_firstn _ _ _ M) K1 K2) as (Be & Lf).
      unfold undisturbed in U. apply Forall_app in U as (_ & U). inversion U as [|? ? Hm _]; subst.
      cbn [Sender.sstep] in Sq. destruct (nth_error (s_tasks (l_s l0)) i) as [[]|]; try discriminate. rewrite Hm in Sq. injection Sq as <-.
      unfold one_frame, try_write. cbn [log_call s_lock]. rewrite Lf. cbn [finish s_buffer]. unfold transport_write. cbn [s_lost log_call s_buffer s_wire]. rewrite L, Be.
      destruct (msg_str m) as [|x d] eqn:Em; [left; exact Be|]. destruct (skipn k (x :: d)) as [|y r] eqn:Sk; [left; reflexivity|]. right.
      exists (started es), i, p, (msg_str m), (firstn k (msg_str m)). rewrite started_app. split; [reflexivity|]. rewrite pause_buffer. cbn [s_buffer set_bytes]. rewrite <- Sk, <- Em. symmetry. apply firstn_skipn.
    + cbn [Sender.sstep] in Sq. destruct (nth_error (s_tasks (l_s l0)) i) as [[|m d]|] eqn:T; try discriminate. destruct (Nosleep _ _ _ T).
    + cbn [Sender.sstep] in Sq. destruct (nth_error (s_tasks (l_s l0)) i) as [[|m d]|] eqn:T; try discriminate. destruct (Nosleep _ _ _ T).
    + cbn [Sender.sstep] in Sq. rewrite L in Sq. destruct (s_buffer (l_s l0)) as [|b bs] eqn:B; [discriminate|]. destruct (_ && _); [|discriminate]. injection Sq as <-.
      destruct (maybe_resume_same low (set_bytes (skipn k (b :: bs)) (s_wire (l_s l0) ++ firstn k (b :: bs)) (l_s l0))) as (_ & E2 & _). unfold one_frame. rewrite E2. cbn [s_buffer set_bytes].
      right. destruct I0 as [X|(before & i & p & fr & u & St & Ef)]; [rewrite B in X; discriminate X|].
      exists before, i, p, fr, (u ++ firstn k (b :: bs)). rewrite started_app, app_nil_r. split; [exact St|]. rewrite <- app_assoc, firstn_skipn, <- B. exact Ef.
    + cbn [Sender.sstep] in Sq. rewrite L in Sq. injection Sq as <-. left. reflexivity.
    + injection Sq as <-. apply Keep; reflexivity.
    + injection Sq as <-. apply Keep; reflexivity.
    + injection Sq as <-. apply Keep; reflexivity.
Qed.
End water.
