(** * What the version of Python changes in an event client: only the calls *)
From Coq Require Import String List NArith ZArith Bool Lia.
From Verif Require Import PyStr Tags Messages Protocol Queue IO Client Items Dispatch Loop Loops DispatchThms2.
Import ListNotations.
Open Scope N_scope.
Open Scope list_scope.

(** Two states that differ at most in the callbacks called. *)
Definition apart (a b : state) : Prop :=
  st_session a = st_session b /\ st_trans a = st_trans b /\ st_queue a = st_queue b /\ st_items a = st_items b /\
  st_reg a = st_reg b /\ st_loop a = st_loop b.

Definition mapart (a b : mstate) : Prop :=
  m_session a = m_session b /\ m_closed a = m_closed b /\ m_q a = m_q b /\ m_job a = m_job b /\ m_items a = m_items b /\
  m_reg a = m_reg b /\ m_ended a = m_ended b.

Lemma handle_apart v v' r its m :
  fst (fst (handle v r its m)) = fst (fst (handle v' r its m)) /\ snd (handle v r its m) = snd (handle v' r its m).
Proof.
  unfold handle. destruct (msg_type m); try (split; reflexivity).
  all: destruct (msg_who m), (msg_where m); try (split; reflexivity).
  all: destruct (get_item its w s) as [its' [n|[]]]; split; reflexivity.
Qed.

Lemma drain_apart v v' r t q : forall its ts ts',
  let a := drain v r t q its ts in let b := drain v' r t q its ts' in
  fst (fst (fst a)) = fst (fst (fst b)) /\ snd (fst (fst a)) = snd (fst (fst b)) /\ snd a = snd b.
Proof.
  induction q as [|m q IH]; intros its ts ts'; cbn [drain]; [repeat split; reflexivity|].
  destruct (handle_apart v v' r its m) as [H1 H2].
  destruct (handle v r its m) as [[i1 t1] x1], (handle v' r its m) as [[i2 t2] x2]. cbn in H1, H2. subst i2 x2.
  destruct x1 as [e|]; [repeat split; reflexivity|]. destruct t as [[]|]; try (repeat split; reflexivity). apply IH.
Qed.

Lemma drained_apart v v' a b : apart a b -> apart (drained v a) (drained v' b).
Proof.
  intros (H1 & H2 & H3 & H4 & H5 & H6). unfold drained. rewrite <- H2, <- H3, <- H4, <- H5.
  pose proof (drain_apart v v' (st_reg a) (st_trans a) (st_queue a) (st_items a) (st_started a) (st_started b)) as D. cbv zeta in D.
  destruct (drain v _ _ _ _ _) as [[[q its] ts] l], (drain v' _ _ _ _ _) as [[[q' its'] ts'] l']. cbn in D.
  destruct D as (-> & -> & ->). repeat split; assumption || reflexivity.
Qed.

Lemma with_loop_apart l a b : apart a b -> apart (with_loop a l) (with_loop b l).
Proof. intros (H1 & H2 & H3 & H4 & H5 & H6). repeat split; assumption || reflexivity. Qed.

Lemma with_conn_apart t q a b : apart a b -> apart (with_conn a t q) (with_conn b t q).
Proof. intros (H1 & H2 & H3 & H4 & H5 & H6). repeat split; assumption || reflexivity. Qed.

Lemma enter_apart v v' a b : apart a b -> apart (enter v a) (enter v' b).
Proof.
  intros H. pose proof H as (H1 & H2 & H3 & H4 & H5 & H6). unfold enter. rewrite <- H1, <- H2.
  destruct (is_cmd_session _); [apply with_loop_apart, H|].
  destruct (st_trans a) as [[]|]; try (apply with_loop_apart, H). apply drained_apart, H.
Qed.

Lemma step_apart v v' a b x : apart a b -> apart (step v a x) (step v' b x).
Proof.
  intros H. pose proof H as (H1 & H2 & H3 & H4 & H5 & H6). destruct x as [d| | |k c|w whr|]; cbn [step].
  - rewrite <- H2, <- H3. destruct (st_trans a) as [[]|]; auto.
    destruct (data_received (st_queue a) d) as [q [e|]]; apply with_conn_apart, H.
  - rewrite <- H2, <- H3. destruct (st_trans a); auto. apply with_conn_apart, H.
  - rewrite <- H3. apply with_conn_apart, H.
  - rewrite <- H5. repeat split; assumption || reflexivity.
  - rewrite <- H4. repeat split; assumption || reflexivity.
  - rewrite <- H6, <- H3. destruct (st_loop a); auto. destruct (st_queue a); auto. apply drained_apart, H.
Qed.

Lemma lrun_apart v v' xs : forall a b, apart a b -> apart (lrun v a xs) (lrun v' b xs).
Proof.
  induction xs as [|x xs IH]; intros a b H; [exact H|].
  change (lrun v a (x :: xs)) with (lrun v (lstep v a x) xs). change (lrun v' b (x :: xs)) with (lrun v' (lstep v' b x) xs).
  apply IH. destruct x; cbn [lstep]; [apply step_apart|apply enter_apart]; exact H.
Qed.

Lemma run_lrun v acts : forall s, run v s acts = lrun v s (map Do acts).
Proof. induction acts as [|a acts IH]; intros s; [reflexivity|]. exact (IH (step v s a)). Qed.

Lemma lrun_silent v xs : 13 <= v -> forall s, st_started (lrun v s xs) = st_started s.
Proof.
  intros Hv. induction xs as [|x xs IH]; intros s; [reflexivity|].
  change (lrun v s (x :: xs)) with (lrun v (lstep v s x) xs). rewrite IH. destruct x as [a|]; cbn [lstep].
  - destruct a as [d| | |k c|w whr|]; cbn [step]; try reflexivity.
    + destruct (st_trans s) as [[]|]; try reflexivity. destruct (data_received (st_queue s) d) as [q [e|]]; reflexivity.
    + destruct (st_trans s); reflexivity.
    + destruct (st_loop s); try reflexivity. destruct (st_queue s) eqn:E; [reflexivity|]. apply drained_new, Hv.
  - exact (never_started v s [] Hv).
Qed.

(** ** Several tasks *)

Lemma mtrans_apart a b : mapart a b -> m_trans a = m_trans b.
Proof. intros (H1 & H2 & H3 & _). unfold m_trans. rewrite H2, H3. reflexivity. Qed.

Lemma ends_apart i o a b : mapart a b -> mapart (ends i o a) (ends i o b).
Proof. intros (H1 & H2 & H3 & H4 & H5 & H6 & H7). unfold ends. repeat split; cbn; congruence. Qed.

Lemma with_q_apart q a b : mapart a b -> mapart (with_q q a) (with_q q b).
Proof. intros (H1 & H2 & H3 & H4 & H5 & H6 & H7). repeat split; assumption || reflexivity. Qed.

Lemma acted_apart i t t' a b : mapart a b -> mapart (acted i t a) (acted i t' b).
Proof. intros (H1 & H2 & H3 & H4 & H5 & H6 & H7). repeat split; assumption || reflexivity. Qed.

Lemma with_job_apart i j a b : mapart a b -> mapart (with_job i j a) (with_job i j b).
Proof. intros (H1 & H2 & H3 & H4 & H5 & H6 & H7). unfold with_job. repeat split; cbn; congruence. Qed.

Lemma proceed_apart v v' i j fuel : forall a b, mapart a b -> mapart (proceed v fuel i j a) (proceed v' fuel i j b).
Proof.
  induction fuel as [|fuel IH]; intros a b H; [exact H|]. cbn [proceed].
  pose proof (mtrans_apart a b H) as HT. pose proof H as (H1 & H2 & H3 & H4 & H5 & H6 & H7).
  rewrite <- H3, <- H5, <- H6, <- HT.
  assert (W : mapart (with_q (try_get i (m_q a)) a) (with_q (try_get i (m_q a)) b)) by (apply with_q_apart, H).
  destruct (c_queue (q_conn (m_q a))) as [|m q]; [exact W|]. destruct j; try (apply ends_apart, W).
  destruct (handle_apart v v' (m_reg a) (m_items a) m) as [E1 E2].
  destruct (handle v (m_reg a) (m_items a) m) as [[i1 t1] x1], (handle v' (m_reg a) (m_items a) m) as [[i2 t2] x2]. cbn in E1, E2. subst i2 x2.
  destruct x1 as [e|]; [apply ends_apart, acted_apart, W|].
  destruct (m_trans a) as [[]|]; try (apply ends_apart, acted_apart, W). apply IH, acted_apart, W.
Qed.

Lemma advance_apart v v' i j a b : mapart a b -> mapart (advance v i j a) (advance v' i j b).
Proof. intros H. unfold advance. destruct H as (H1 & H2 & H3 & H4). rewrite <- H3. apply proceed_apart. repeat split; tauto. Qed.

Definition both (x y : option mstate) : Prop :=
  match x, y with Some a, Some b => mapart a b | None, None => True | _, _ => False end.

Lemma mstep_apart v v' a b e : mapart a b -> both (mstep v a e) (mstep v' b e).
Proof.
  intros H. pose proof (mtrans_apart a b H) as HT. pose proof H as (H1 & H2 & H3 & H4 & H5 & H6 & H7).
  destruct e as [i|i|d|i|i| | |k c|w whr]; cbn [mstep].
  - rewrite <- H4, <- H3, <- H1, <- HT. destruct (nth_error (m_job a) i) as [[]|], (nth_error (q_readers (m_q a)) i) as [[]|]; try exact I.
    cbn [both]. assert (W := with_job_apart i JLoop a b H). destruct (is_cmd_session _); [apply ends_apart, W|].
    destruct (m_trans a) as [[]|]; try (apply ends_apart, W). apply advance_apart, W.
  - rewrite <- H4, <- H3, <- H2. destruct (nth_error (m_job a) i) as [[]|], (nth_error (q_readers (m_q a)) i) as [[]|]; try exact I.
    cbn [both]. assert (W := with_job_apart i JRead a b H). destruct (m_closed a); [apply ends_apart, W|apply advance_apart, W].
  - rewrite <- H3. destruct (qstep (m_q a) (EPacket d)); [apply with_q_apart, H|exact I].
  - rewrite <- H3, <- H4. destruct (nth_error (q_readers (m_q a)) i) as [[]|], (nth_error (m_job a) i) as [j|]; try exact I;
      try (destruct (qstep (m_q a) (ERun i)); [apply ends_apart, with_q_apart, H|exact I]).
    apply advance_apart, H.
  - rewrite <- H3. destruct (qstep (m_q a) (ECancel i)); [apply with_q_apart, H|exact I].
  - rewrite <- H3. apply with_q_apart, H.
  - cbn [both]. rewrite <- H3. repeat split; assumption || reflexivity.
  - cbn [both]. rewrite <- H6. repeat split; assumption || reflexivity.
  - cbn [both]. rewrite <- H5. apply acted_apart, H.
Qed.

Lemma mrun_apart v v' es : forall a b, mapart a b -> both (mrun v a es) (mrun v' b es).
Proof.
  induction es as [|e es IH]; intros a b H; [exact H|]. cbn [mrun].
  pose proof (mstep_apart v v' a b e H) as S. destruct (mstep v a e), (mstep v' b e); try contradiction; [|exact I]. apply IH, S.
Qed.

Lemma proceed_silent v i j fuel : 13 <= v -> forall s, m_started (proceed v fuel i j s) = m_started s.
Proof.
  intros Hv. induction fuel as [|fuel IH]; intros s; [reflexivity|]. cbn [proceed].
  destruct (c_queue (q_conn (m_q s))) as [|m q]; [reflexivity|]. destruct j; try reflexivity.
  pose proof (handle_new v (m_reg s) (m_items s) m Hv) as H. destruct (handle v (m_reg s) (m_items s) m) as [[its ts] x]. cbn in H. subst ts.
  destruct x as [e|]; [cbn; apply app_nil_r|]. destruct (m_trans s) as [[]|]; try (cbn; apply app_nil_r). rewrite IH. cbn. apply app_nil_r.
Qed.

Lemma mstep_silent v s e s' : 13 <= v -> mstep v s e = Some s' -> m_started s' = m_started s.
Proof.
  intros Hv. destruct e as [i|i|d|i|i| | |k c|w whr]; cbn [mstep]; intros E.
  - destruct (nth_error (m_job s) i) as [[]|], (nth_error (q_readers (m_q s)) i) as [[]|]; try discriminate.
    injection E as <-. destruct (is_cmd_session _); [reflexivity|]. destruct (m_trans s) as [[]|]; try reflexivity.
    unfold advance. rewrite proceed_silent by exact Hv. reflexivity.
  - destruct (nth_error (m_job s) i) as [[]|], (nth_error (q_readers (m_q s)) i) as [[]|]; try discriminate.
    injection E as <-. destruct (m_closed s); [reflexivity|]. unfold advance. rewrite proceed_silent by exact Hv. reflexivity.
  - destruct (qstep (m_q s) (EPacket d)); [|discriminate]. injection E as <-. reflexivity.
  - destruct (nth_error (q_readers (m_q s)) i) as [[]|], (nth_error (m_job s) i) as [j|]; try discriminate;
      try (destruct (qstep (m_q s) (ERun i)); [|discriminate]; injection E as <-; reflexivity).
    injection E as <-. unfold advance. apply proceed_silent, Hv.
  - destruct (qstep (m_q s) (ECancel i)); [|discriminate]. injection E as <-. reflexivity.
  - injection E as <-. reflexivity.
  - injection E as <-. reflexivity.
  - injection E as <-. reflexivity.
  - injection E as <-. cbn. apply app_nil_r.
Qed.

Lemma mrun_silent v es : 13 <= v -> forall s s', mrun v s es = Some s' -> m_started s' = m_started s.
Proof.
  intros Hv. induction es as [|e es IH]; intros s s' E; cbn [mrun] in E; [injection E as <-; reflexivity|].
  destruct (mstep v s e) as [s1|] eqn:S; [|discriminate]. rewrite (IH _ _ E). exact (mstep_silent v s e s1 Hv S).
Qed.
