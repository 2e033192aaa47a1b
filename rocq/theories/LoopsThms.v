(** * Proofs about several readers of the events *)
From Coq Require Import String List NArith ZArith Bool Lia.
From Verif Require Import PyStr Tags Messages SpecMsg Protocol ProtoThms Queue QueueThms IO Client Items Dispatch SpecDispatch DispatchThms DispatchThms2
  Loop SpecLoop LoopThms SingleThms Loops SpecLoops.
Import ListNotations.
Open Scope N_scope.
Open Scope list_scope.

(** ** The queue moves as in Queue.v *)

Lemma qrun_app a b : forall s s1, qrun s a = Some s1 -> qrun s (a ++ b) = qrun s1 b.
Proof. induction a as [|e a IH]; cbn [qrun app]; intros s s1 H; [injection H as ->; reflexivity|]. destruct (qstep s e); [|discriminate]. apply IH, H. Qed.

Lemma try_get_first i q : nth_error (q_readers q) i = Some RIdle \/ nth_error (q_readers q) i = Some RWoken ->
  qstep q (EGet i) = Some (try_get i q) \/ qstep q (ERun i) = Some (try_get i q).
Proof. intros [H|H]; [left|right]; cbn [qstep]; rewrite H; reflexivity. Qed.

Lemma proceed_gets v fuel i j : forall s, nth_error (q_readers (m_q s)) i = Some RIdle ->
  exists k, qrun (m_q s) (repeat (EGet i) k) = Some (m_q (proceed v fuel i j s)).
Proof.
  induction fuel as [|fuel IH]; intros s H; cbn [proceed]; [exists 0%nat; reflexivity|].
  assert (Q : qstep (m_q s) (EGet i) = Some (try_get i (m_q s))) by (cbn [qstep]; rewrite H; reflexivity).
  assert (L : (i < length (q_readers (m_q s)))%nat) by (apply nth_error_Some; congruence).
  assert (One : qrun (m_q s) (repeat (EGet i) 1) = Some (try_get i (m_q s))) by (cbn [repeat qrun]; rewrite Q; reflexivity).
  destruct (c_queue (q_conn (m_q s))) as [|m q] eqn:E; [exists 1%nat; exact One|].
  destruct j; try (exists 1%nat; exact One).
  destruct (handle v (m_reg s) (m_items s) m) as [[its ts] [e|]]; [exists 1%nat; exact One|].
  destruct (m_trans s) as [[]|]; try (exists 1%nat; exact One).
  destruct (IH (acted its ts (with_q (try_get i (m_q s)) s))) as (k & R).
  { cbn [acted with_q m_q]. unfold try_get. rewrite E. cbn [q_readers]. apply setnth_same, L. }
  exists (S k). cbn [repeat qrun]. rewrite Q. exact R.
Qed.

(** From the call or the wake-up of [i]. *)
Lemma advance_runs v i j s : nth_error (q_readers (m_q s)) i = Some RIdle \/ nth_error (q_readers (m_q s)) i = Some RWoken ->
  exists e k, (e = EGet i \/ e = ERun i) /\ (nth_error (q_readers (m_q s)) i = Some RWoken -> e = ERun i) /\
    qrun (m_q s) (e :: repeat (EGet i) k) = Some (m_q (advance v i j s)).
Proof.
  intros H. unfold advance. set (n := length (c_queue (q_conn (m_q s)))). cbn [proceed].
  assert (L : (i < length (q_readers (m_q s)))%nat) by (apply nth_error_Some; destruct H; congruence).
  assert (Q : exists e, (e = EGet i \/ e = ERun i) /\ (nth_error (q_readers (m_q s)) i = Some RWoken -> e = ERun i) /\ qstep (m_q s) e = Some (try_get i (m_q s))).
  { destruct H as [H|H]; [exists (EGet i)|exists (ERun i)]; (split; [auto|]); (split; [congruence|]); cbn [qstep]; rewrite H; reflexivity. }
  destruct Q as (e & He & Hw & Q). exists e.
  assert (One : qrun (m_q s) (e :: repeat (EGet i) 0) = Some (try_get i (m_q s))) by (cbn [repeat qrun]; rewrite Q; reflexivity).
  destruct (c_queue (q_conn (m_q s))) as [|m q] eqn:E; [exists 0%nat; repeat (split; [assumption|]); exact One|].
  destruct j; try (exists 0%nat; repeat (split; [assumption|]); exact One).
  destruct (handle v (m_reg s) (m_items s) m) as [[its ts] [x|]]; [exists 0%nat; repeat (split; [assumption|]); exact One|].
  destruct (m_trans s) as [[]|]; try (exists 0%nat; repeat (split; [assumption|]); exact One).
  destruct (proceed_gets v n i JLoop (acted its ts (with_q (try_get i (m_q s)) s))) as (k & R).
  { cbn [acted with_q m_q]. unfold try_get. rewrite E. cbn [q_readers]. apply setnth_same, L. }
  exists k. repeat (split; [assumption|]). cbn [qrun]. rewrite Q. exact R.
Qed.

Lemma packets_gets i k : packets_of (repeat (EGet i) k) = [].
Proof. induction k; [reflexivity|]. cbn [repeat]. rewrite packets_of_cons, IHk. reflexivity. Qed.


Lemma mrun_shape v s j s' : mstep v s (MRun j) = Some s' -> exists x p, nth_error (q_readers (m_q s)) j = Some x /\ nth_error (m_job s) j = Some p /\
  ((x = RWoken /\ s' = advance v j p s) \/ ((x = RWokenC \/ x = RCancel) /\ exists q, qstep (m_q s) (ERun j) = Some q /\ s' = ends j OCancelled (with_q q s))).
Proof.
  cbn [mstep]. intros H. destruct (nth_error (q_readers (m_q s)) j) as [x|] eqn:Rj; [|discriminate].
  destruct (nth_error (m_job s) j) as [p|] eqn:Pj; [|destruct x; discriminate]. exists x, p. split; [reflexivity|]. split; [reflexivity|].
  destruct x; try (left; split; congruence); right; (destruct (qstep (m_q s) (ERun j)) as [q|] eqn:Q; [|discriminate]).
  - cbn [qstep] in Q. rewrite Rj in Q. discriminate.
  - cbn [qstep] in Q. rewrite Rj in Q. discriminate.
  - split; [auto|]. exists q. split; congruence.
  - split; [auto|]. exists q. split; congruence.
Qed.

Lemma mstep_queue v s e s' : steady e -> mstep v s e = Some s' ->
  exists qes, qrun (m_q s) qes = Some (m_q s') /\ packets_of qes = mpackets e.
Proof.
  intros St H. destruct e as [i|i|d|i|i| | |k c|w whr]; cbn [steady] in St; try contradiction.
  - cbn [mstep] in H. destruct (nth_error (m_job s) i) as [[]|]; try discriminate. destruct (nth_error (q_readers (m_q s)) i) as [[]|] eqn:R; try discriminate.
    injection H as <-. cbn [mpackets]. destruct (is_cmd_session _); [exists []; split; reflexivity|]. destruct (m_trans s) as [[]|]; try (exists []; split; reflexivity).
    destruct (advance_runs v i JLoop (with_job i JLoop s) (or_introl R)) as (e & k & He & _ & Q). exists (e :: repeat (EGet i) k). split; [exact Q|].
    rewrite packets_of_cons, packets_gets. destruct He as [-> | ->]; reflexivity.
  - cbn [mstep] in H. destruct (nth_error (m_job s) i) as [[]|]; try discriminate. destruct (nth_error (q_readers (m_q s)) i) as [[]|] eqn:R; try discriminate.
    injection H as <-. cbn [mpackets]. destruct (m_closed s); [exists []; split; reflexivity|].
    destruct (advance_runs v i JRead (with_job i JRead s) (or_introl R)) as (e & k & He & _ & Q). exists (e :: repeat (EGet i) k). split; [exact Q|].
    rewrite packets_of_cons, packets_gets. destruct He as [-> | ->]; reflexivity.
  - cbn [mstep] in H. destruct (qstep (m_q s) (EPacket d)) as [q|] eqn:Q; [|discriminate]. injection H as <-. exists [EPacket d].
    split; [cbn [qrun]; rewrite Q; reflexivity|reflexivity].
  - destruct (mrun_shape v s i s' H) as (x & p & Rx & _ & [(-> & ->)|(_ & q & Q & ->)]).
    + destruct (advance_runs v i p s (or_intror Rx)) as (e & k & He & _ & Q). exists (e :: repeat (EGet i) k). split; [exact Q|].
      rewrite packets_of_cons, packets_gets. destruct He as [-> | ->]; reflexivity.
    + exists [ERun i]. split; [cbn [qrun]; rewrite Q; reflexivity|reflexivity].
  - cbn [mstep] in H. destruct (qstep (m_q s) (ECancel i)) as [q|] eqn:Q; [|discriminate]. injection H as <-. exists [ECancel i].
    split; [cbn [qrun]; rewrite Q; reflexivity|reflexivity].
  - injection H as <-. exists []. split; reflexivity.
  - injection H as <-. exists []. split; reflexivity.
Qed.

Lemma packets_of_app a b : packets_of (a ++ b) = packets_of a ++ packets_of b.
Proof. unfold packets_of. rewrite map_app, concat_app. reflexivity. Qed.

Lemma mrun_queue v es : forall s s', Forall steady es -> mrun v s es = Some s' ->
  exists qes, qrun (m_q s) qes = Some (m_q s') /\ packets_of qes = concat (map mpackets es).
Proof.
  induction es as [|e es IH]; cbn [mrun]; intros s s' F R; [injection R as <-; exists []; split; reflexivity|].
  inversion F as [|? ? F1 F2]; subst. destruct (mstep v s e) as [s1|] eqn:S1; [|discriminate].
  destruct (mstep_queue v s e s1 F1 S1) as (a & A1 & A2). destruct (IH s1 s' F2 R) as (b & B1 & B2).
  exists (a ++ b). split; [rewrite (qrun_app _ _ _ _ A1); exact B1|]. rewrite packets_of_app, A2, B2. reflexivity.
Qed.

Lemma try_get_cons i q m r : c_queue (q_conn q) = m :: r -> q_conn (try_get i q) = {| c_queue := r; c_open := c_open (q_conn q) |}.
Proof. intros E. unfold try_get. rewrite E. reflexivity. Qed.
Lemma try_get_nil i q : c_queue (q_conn q) = [] -> q_conn (try_get i q) = q_conn q.
Proof. intros E. unfold try_get. rewrite E. reflexivity. Qed.

(** ** Jobs and readers agree *)

Lemma proceed_job v fuel i j : j <> JNone -> forall s, (length (c_queue (q_conn (m_q s))) < fuel)%nat -> (i < length (q_readers (m_q s)))%nat -> nth_error (m_job s) i = Some j ->
  ((nth_error (m_job (proceed v fuel i j s)) i = Some j /\ nth_error (q_readers (m_q (proceed v fuel i j s))) i = Some RWait) \/
   (nth_error (m_job (proceed v fuel i j s)) i = Some JNone /\ nth_error (q_readers (m_q (proceed v fuel i j s))) i = Some RIdle)) /\
  (forall k, k <> i -> nth_error (m_job (proceed v fuel i j s)) k = nth_error (m_job s) k /\
                       nth_error (q_readers (m_q (proceed v fuel i j s))) k = nth_error (q_readers (m_q s)) k).
Proof.
  intros Hj. induction fuel as [|fuel IH]; intros s Hf L J; [lia|]. cbn [proceed].
  assert (Lj : (i < length (m_job s))%nat) by (apply nth_error_Some; congruence).
  destruct (c_queue (q_conn (m_q s))) as [|m q] eqn:E.
  - assert (T : q_readers (try_get i (m_q s)) = setnth i RWait (q_readers (m_q s))) by (unfold try_get; rewrite E; reflexivity).
    cbn [with_q m_job m_q]. rewrite T. split; [left; split; [exact J|apply setnth_same, L]|]. intros k Hk. split; [reflexivity|apply setnth_other; congruence].
  - assert (T : q_readers (try_get i (m_q s)) = setnth i RIdle (q_readers (m_q s))) by (unfold try_get; rewrite E; reflexivity).
    assert (R : forall s1, m_job s1 = setnth i JNone (m_job s) -> m_q s1 = try_get i (m_q s) ->
      ((nth_error (m_job s1) i = Some j /\ nth_error (q_readers (m_q s1)) i = Some RWait) \/
       (nth_error (m_job s1) i = Some JNone /\ nth_error (q_readers (m_q s1)) i = Some RIdle)) /\
      (forall k, k <> i -> nth_error (m_job s1) k = nth_error (m_job s) k /\ nth_error (q_readers (m_q s1)) k = nth_error (q_readers (m_q s)) k)).
    { intros s1 E1 E2. rewrite E1, E2, T. split; [right; split; apply setnth_same; assumption|]. intros k Hk. split; apply setnth_other; congruence. }
    destruct j; [congruence| |apply R; reflexivity].
    destruct (handle v (m_reg s) (m_items s) m) as [[its ts] [e|]]; [apply R; reflexivity|].
    destruct (m_trans s) as [[]|]; try (apply R; reflexivity).
    set (s1 := acted its ts (with_q (try_get i (m_q s)) s)).
    destruct (IH s1) as [A B].
    { unfold s1. cbn [acted with_q m_q]. rewrite (try_get_cons i (m_q s) m q E). cbn in Hf |- *. lia. }
    { unfold s1. cbn [acted with_q m_q]. rewrite T, setnth_length. exact L. }
    { exact J. }
    split; [exact A|]. intros k Hk. destruct (B k Hk) as [B1 B2]. split; [exact B1|]. rewrite B2. unfold s1. cbn [acted with_q m_q]. rewrite T. apply setnth_other. congruence.
Qed.

Definition jinv (s : mstate) : Prop := forall i, nth_error (m_job s) i = Some JNone <-> nth_error (q_readers (m_q s)) i = Some RIdle.

Lemma advance_jinv v i j s : j <> JNone -> (i < length (q_readers (m_q s)))%nat -> nth_error (m_job s) i = Some j ->
  (forall k, k <> i -> nth_error (m_job s) k = Some JNone <-> nth_error (q_readers (m_q s)) k = Some RIdle) -> jinv (advance v i j s).
Proof.
  intros Hj L J K k. destruct (proceed_job v (S (length (c_queue (q_conn (m_q s))))) i j Hj s ltac:(lia) L J) as [A B]. fold (advance v i j s) in A, B.
  destruct (Nat.eq_dec k i) as [->|N1].
  - destruct A as [[A1 A2]|[A1 A2]]; rewrite A1, A2; split; try reflexivity; try discriminate. intros [= ->]. congruence.
  - destruct (B k N1) as [B1 B2]. rewrite B1, B2. apply K, N1.
Qed.

Lemma jinv_step v s e s' : jinv s -> mstep v s e = Some s' -> jinv s'.
Proof.
  intros J H. destruct e as [i|i|d|i|i| | |k c|w whr].
  - cbn [mstep] in H. destruct (nth_error (m_job s) i) as [[]|] eqn:Ji; try discriminate. destruct (nth_error (q_readers (m_q s)) i) as [[]|] eqn:R; try discriminate.
    injection H as <-. assert (L : (i < length (q_readers (m_q s)))%nat) by (apply nth_error_Some; congruence).
    assert (Lj : (i < length (m_job s))%nat) by (apply nth_error_Some; congruence).
    assert (En : forall o, jinv (ends i o (with_job i JLoop s))).
    { intros o k. cbn [ends with_job m_job m_q]. destruct (Nat.eq_dec k i) as [->|N1]; [rewrite setnth_same by (rewrite setnth_length; exact Lj); rewrite R; tauto|].
      rewrite !setnth_other by congruence. apply J. }
    destruct (is_cmd_session _); [apply En|]. destruct (m_trans s) as [[]|]; try apply En.
    apply advance_jinv; [discriminate|exact L|cbn [with_job m_job]; apply setnth_same, Lj|]. intros k Hk. cbn [with_job m_job m_q]. rewrite setnth_other by congruence. apply J.
  - cbn [mstep] in H. destruct (nth_error (m_job s) i) as [[]|] eqn:Ji; try discriminate. destruct (nth_error (q_readers (m_q s)) i) as [[]|] eqn:R; try discriminate.
    injection H as <-. assert (L : (i < length (q_readers (m_q s)))%nat) by (apply nth_error_Some; congruence).
    assert (Lj : (i < length (m_job s))%nat) by (apply nth_error_Some; congruence).
    destruct (m_closed s).
    { intros k. cbn [ends with_job m_job m_q]. destruct (Nat.eq_dec k i) as [->|N1]; [rewrite setnth_same by (rewrite setnth_length; exact Lj); rewrite R; tauto|].
      rewrite !setnth_other by congruence. apply J. }
    apply advance_jinv; [discriminate|exact L|cbn [with_job m_job]; apply setnth_same, Lj|]. intros k Hk. cbn [with_job m_job m_q]. rewrite setnth_other by congruence. apply J.
  - cbn [mstep qstep] in H.
    set (n := (length (c_queue (deliver (q_conn (m_q s)) d)) - length (c_queue (q_conn (m_q s))))%nat) in *.
    pose proof (wakeups_readers n (q_getters (m_q s)) (q_readers (m_q s))) as W. destruct (wakeups n _ _) as [gs rs]. injection H as <-.
    intros k. cbn [with_q m_job m_q q_readers]. destruct (W k) as [_ [X|[X1 X2]]]; cbn [snd] in *; [rewrite X; apply J|]. rewrite X2. rewrite (J k), X1. split; discriminate.
  - destruct (mrun_shape v s i s' H) as (x & p & Rx & Jp & [(-> & ->)|(Hx & q & Q & ->)]).
    + apply advance_jinv; [intros ->; apply J in Jp; congruence|apply nth_error_Some; congruence|exact Jp|]. intros k _. apply J.
    + assert (L : (i < length (q_readers (m_q s)))%nat) by (apply nth_error_Some; congruence).
      assert (Lj : (i < length (m_job s))%nat) by (apply nth_error_Some; congruence).
      assert (Ri : nth_error (q_readers q) i = Some RIdle).
      { cbn [qstep] in Q. rewrite Rx in Q. destruct Hx as [-> | ->].
        - pose proof (wakeup_readers (remove_getter i (q_getters (m_q s))) (setnth i RIdle (q_readers (m_q s))) i) as [_ W].
          rewrite setnth_same in W by exact L. destruct (c_queue (q_conn (m_q s))).
          + injection Q as <-. cbn [q_readers]. apply setnth_same, L.
          + destruct (wakeup _ _) as [gs rs]. injection Q as <-. cbn [q_readers snd] in *. destruct W as [W|[W _]]; [exact W|discriminate].
        - injection Q as <-. cbn [q_readers]. apply setnth_same, L. }
      intros k. cbn [ends with_q m_job m_q]. destruct (Nat.eq_dec k i) as [->|N1]; [rewrite setnth_same by exact Lj; rewrite Ri; tauto|].
      rewrite setnth_other by congruence. rewrite (J k). destruct (run_readers (m_q s) i q k Q N1) as [X|[X1 X2]]; [rewrite X; tauto|]. rewrite X1, X2. split; discriminate.
  - cbn [mstep] in H. destruct (qstep (m_q s) (ECancel i)) as [q|] eqn:Q; [|discriminate]. injection H as <-. intros k. cbn [with_q m_job m_q]. rewrite (J k).
    cbn [qstep] in Q. destruct (nth_error (q_readers (m_q s)) i) as [x|] eqn:Rx; [|discriminate].
    assert (L : (i < length (q_readers (m_q s)))%nat) by (apply nth_error_Some; congruence).
    destruct (Nat.eq_dec k i) as [->|N1].
    + destruct x; try discriminate; injection Q as <-; cbn [q_readers]; rewrite Rx, setnth_same by exact L; split; discriminate.
    + destruct x; try discriminate; injection Q as <-; cbn [q_readers]; rewrite setnth_other by congruence; tauto.
  - injection H as <-. exact J.
  - injection H as <-. exact J.
  - injection H as <-. exact J.
  - injection H as <-. exact J.
Qed.

Lemma jinv_run v es : forall s s', jinv s -> mrun v s es = Some s' -> jinv s'.
Proof.
  induction es as [|e es IH]; cbn [mrun]; intros s s' J R; [injection R as <-; exact J|].
  destruct (mstep v s e) as [s1|] eqn:S1; [|discriminate]. eapply IH; [|exact R]. eapply jinv_step; eassumption.
Qed.

Lemma jinv_init n r : jinv (minit n r).
Proof.
  intros i. cbn [minit m_job m_q qinit q_readers]. destruct (Nat.lt_ge_cases i n) as [H|H].
  - rewrite !(nth_error_nth' _ JNone), !(nth_error_nth' _ RIdle) by (rewrite repeat_length; exact H). rewrite !nth_repeat. tauto.
  - assert (X : forall A (x : A), nth_error (repeat x n) i = None) by (intros; apply nth_error_None; rewrite repeat_length; exact H). rewrite !X. split; discriminate.
Qed.

Definition isloop (j : job) : bool := match j with JLoop => true | _ => false end.
Definition modes (s : mstate) (es : list mevent) : Prop :=
  forall i j, nth_error (m_job s) i = Some j -> j <> JNone -> looping i false es = isloop j.

Lemma looping_snoc i es e : forall b, looping i b (es ++ [e]) =
  match e with MLoop k => Nat.eqb k i || looping i b es | MRead k => negb (Nat.eqb k i) && looping i b es | _ => looping i b es end.
Proof. induction es as [|x es IH]; intros b; cbn [app looping]; [destruct e; reflexivity|]. destruct x; apply IH. Qed.

Lemma proceed_keeps v fuel i j : forall s k x, nth_error (m_job (proceed v fuel i j s)) k = Some x -> x <> JNone -> nth_error (m_job s) k = Some x.
Proof.
  assert (SN : forall (l : list job) k x, nth_error (setnth i JNone l) k = Some x -> x <> JNone -> nth_error l k = Some x).
  { intros l k x H N. destruct (Nat.eq_dec k i) as [->|K]; [|rewrite setnth_other in H by congruence; exact H].
    destruct (Nat.lt_ge_cases i (length l)) as [L|L]; [rewrite setnth_same in H by exact L; congruence|].
    apply nth_error_None in L. assert (X : nth_error (setnth i JNone l) i = None) by (apply nth_error_None; rewrite setnth_length; apply nth_error_None, L). congruence. }
  induction fuel as [|fuel IH]; intros s k x H N; cbn [proceed] in H; [exact H|].
  destruct (c_queue (q_conn (m_q s))) as [|m q]; [exact H|]. destruct j; try (eapply SN; eassumption).
  destruct (handle v (m_reg s) (m_items s) m) as [[its ts] [e|]]; [eapply SN; eassumption|].
  destruct (m_trans s) as [[]|]; try (eapply SN; eassumption). exact (IH _ k x H N).
Qed.

Lemma modes_step v s es e s' : modes s es -> mstep v s e = Some s' -> modes s' (es ++ [e]).
Proof.
  intros M H k x J N. rewrite looping_snoc.
  assert (New : forall i j, (forall y, nth_error (m_job s') k = Some y -> y <> JNone -> nth_error (setnth i j (m_job s)) k = Some y) -> j <> JNone ->
     isloop x = if Nat.eqb i k then isloop j else looping k false es).
  { intros i j S J'. specialize (S _ J N). destruct (Nat.eqb_spec i k) as [->|K].
    - destruct (Nat.lt_ge_cases k (length (m_job s))) as [L|L]; [rewrite setnth_same in S by exact L; congruence|].
      assert (X : nth_error (setnth k j (m_job s)) k = None) by (apply nth_error_None; rewrite setnth_length; exact L). congruence.
    - rewrite setnth_other in S by congruence. symmetry. exact (M _ _ S N). }
  assert (En : forall i o j, nth_error (m_job (ends i o (with_job i j s))) k = Some x -> nth_error (setnth i j (m_job s)) k = Some x).
  { intros i o j E. cbn [ends with_job m_job] in E. destruct (Nat.eq_dec k i) as [->|K]; [|rewrite setnth_other in E by congruence; exact E].
    destruct (Nat.lt_ge_cases i (length (setnth i j (m_job s)))) as [L|L]; [rewrite setnth_same in E by exact L; congruence|].
    assert (X : nth_error (setnth i JNone (setnth i j (m_job s))) i = None) by (apply nth_error_None; rewrite setnth_length; exact L). congruence. }
  destruct e as [i|i|d|i|i| | |a c|w whr].
  - cbn [mstep] in H. destruct (nth_error (m_job s) i) as [[]|]; try discriminate. destruct (nth_error (q_readers (m_q s)) i) as [[]|]; try discriminate.
    injection H as <-. rewrite (New i JLoop); [destruct (Nat.eqb i k); reflexivity| |discriminate].
    intros y Y _. assert (y = x) by congruence. subst y. destruct (is_cmd_session _); [eapply En, Y|]. destruct (m_trans s) as [[]|]; try (eapply En, Y).
    exact (proceed_keeps _ _ _ _ _ _ _ Y N).
  - cbn [mstep] in H. destruct (nth_error (m_job s) i) as [[]|]; try discriminate. destruct (nth_error (q_readers (m_q s)) i) as [[]|]; try discriminate.
    injection H as <-. rewrite (New i JRead); [destruct (Nat.eqb i k); reflexivity| |discriminate].
    intros y Y _. assert (y = x) by congruence. subst y. destruct (m_closed s); [eapply En, Y|]. exact (proceed_keeps _ _ _ _ _ _ _ Y N).
  - cbn [mstep] in H. destruct (qstep _ _); [|discriminate]. injection H as <-. exact (M _ _ J N).
  - destruct (mrun_shape v s i s' H) as (y & p & _ & Jp & [(-> & ->)|(_ & q & _ & ->)]).
    + exact (M _ _ (proceed_keeps _ _ _ _ _ _ _ J N) N).
    + cbn [ends with_q m_job] in J. destruct (Nat.eq_dec k i) as [->|K]; [rewrite setnth_same in J by (apply nth_error_Some; congruence); congruence|].
      rewrite setnth_other in J by congruence. exact (M _ _ J N).
  - cbn [mstep] in H. destruct (qstep _ _); [|discriminate]. injection H as <-. exact (M _ _ J N).
  - injection H as <-. exact (M _ _ J N).
  - injection H as <-. exact (M _ _ J N).
  - injection H as <-. exact (M _ _ J N).
  - injection H as <-. exact (M _ _ J N).
Qed.

Lemma modes_init n r : modes (minit n r) [].
Proof.
  intros i j H N. cbn [minit m_job] in H. apply nth_error_In, repeat_spec in H. congruence.
Qed.

(** ** Who takes what *)

Record core (s : mstate) (tk : list taking) : Prop := {
  co_session : m_session s = Event; co_closed : m_closed s = false; co_open : c_open (q_conn (m_q s)) = true;
  co_built : Forall built (c_queue (q_conn (m_q s))); co_sound : sound (m_items s);
  co_tasks : exists tss, m_started s = concat tss /\ Forall2 (handled (m_items s)) (events tk) tss;
  co_ends : endings tk (m_ended s) }.

Lemma events_app a b : events (a ++ b) = events a ++ events b.
Proof. unfold events. rewrite map_app, concat_app. reflexivity. Qed.

Lemma proceed_core v fuel i j : v < 13 -> forall s tk, (length (c_queue (q_conn (m_q s))) < fuel)%nat -> core s tk ->
  exists tk', c_queue (q_conn (m_q s)) = map message tk' ++ c_queue (q_conn (m_q (proceed v fuel i j s))) /\
    Forall (taken_by i (isloop j) (m_reg s)) tk' /\ core (proceed v fuel i j s) (tk ++ tk') /\ m_reg (proceed v fuel i j s) = m_reg s.
Proof.
  intros Hv. induction fuel as [|fuel IH]; intros s tk Hf C; [lia|]. cbn [proceed].
  destruct (c_queue (q_conn (m_q s))) as [|m q] eqn:E.
  - exists []. cbn [map app with_q m_q m_reg]. rewrite (try_get_nil i (m_q s) E), app_nil_r. split; [symmetry; exact E|]. split; [constructor|]. split; [|reflexivity].
    destruct C as [C1 C2 C3 C4 C5 C6 C7]. split; cbn [with_q m_session m_closed m_q m_items m_started m_ended]; rewrite ?(try_get_nil i (m_q s) E); assumption.
  - pose proof (try_get_cons i (m_q s) m q E) as T.
    assert (R : forall s1, m_session s1 = m_session s -> m_closed s1 = m_closed s -> m_q s1 = try_get i (m_q s) ->
       m_items s1 = m_items s -> m_started s1 = m_started s -> m_reg s1 = m_reg s -> m_ended s1 = m_ended s ++ [(i, OMessage m)] ->
       exists tk', m :: q = map message tk' ++ c_queue (q_conn (m_q s1)) /\ Forall (taken_by i false (m_reg s)) tk' /\ core s1 (tk ++ tk') /\ m_reg s1 = m_reg s).
    { intros s1 E1 E2 E3 E4 E5 E6 E7. exists [ByRead i m]. destruct C as [C1 C2 C3 C4 C5 C6 C7].
      split; [rewrite E3, T; reflexivity|]. split; [constructor; [reflexivity|constructor]|]. split; [|exact E6].
      rewrite E in C4. inversion C4; subst. split; rewrite ?E1, ?E2, ?E3, ?E4, ?E5, ?E7, ?T; cbn [c_open c_queue]; try assumption.
      - rewrite events_app. cbn [events map concat]. rewrite app_nil_r. exact C6.
      - constructor. exact C7. }
    destruct j; try (apply R; reflexivity). clear R.
    assert (Tr : m_trans s = Some false) by (unfold m_trans; rewrite (co_closed _ _ C), (co_open _ _ C); reflexivity). rewrite Tr.
    destruct (handle v (m_reg s) (m_items s) m) as [[its ts] x] eqn:H.
    pose proof (co_built _ _ C) as B. rewrite E in B. inversion B as [|? ? Bm Bq]; subst.
    destruct (handle_spec v (m_reg s) (m_items s) m its ts x Hv Bm (co_sound _ _ C) H) as (S' & (l & El) & V).
    destruct (co_tasks _ _ C) as (tss & Es & Fs).
    assert (CC : forall o, endings (tk ++ [ByLoop i (m_reg s) m]) o -> handled its (m_reg s, m) ts -> forall s1, m_session s1 = Event -> m_closed s1 = false ->
      m_q s1 = try_get i (m_q s) -> m_items s1 = its -> m_started s1 = m_started s ++ ts -> m_ended s1 = o -> core s1 (tk ++ [ByLoop i (m_reg s) m])).
    { intros o Eo Hh s1 E1 E2 E3 E4 E5 E6. split; rewrite ?E1, ?E2, ?E3, ?E4, ?E5, ?E6, ?T; cbn [c_open c_queue]; try assumption; try reflexivity; [apply (co_open _ _ C)|].
      exists (tss ++ [ts]). split; [rewrite Es, concat_app; cbn [concat]; rewrite app_nil_r; reflexivity|].
      rewrite events_app. apply Forall2_app; [subst its; apply handled_more2, Fs|]. constructor; [exact Hh|constructor]. }
    destruct V as [(-> & NS & M)|(St & _ & -> & whr & _ & V)].
    + destruct (IH (acted its ts (with_q (try_get i (m_q s)) s)) (tk ++ [ByLoop i (m_reg s) m])) as (tk' & P1 & P2 & P3 & P4).
      { cbn [acted with_q m_q]. rewrite T. cbn in Hf |- *. lia. }
      { apply (CC (m_ended s)); try reflexivity; [constructor; [apply (co_ends _ _ C)|exact NS]|right; auto|apply (co_session _ _ C)|apply (co_closed _ _ C)]. }
      exists (ByLoop i (m_reg s) m :: tk'). cbn [acted with_q m_q m_reg] in P1, P2, P4. rewrite T in P1. cbn [c_queue] in P1.
      split; [cbn [map message app]; rewrite <- P1; reflexivity|]. split; [constructor; [reflexivity|exact P2]|].
      split; [|exact P4]. rewrite <- app_assoc in P3. exact P3.
    + assert (X : exists e, x = Some e) by (destruct V as [(-> & _)|(-> & _)]; eauto). destruct X as (e & ->).
      exists [ByLoop i (m_reg s) m]. cbn [ends acted with_q m_q m_reg]. rewrite T. cbn [c_queue]. split; [reflexivity|].
      split; [constructor; [reflexivity|constructor]|]. split; [|reflexivity].
      apply (CC (m_ended s ++ [(i, OFailed e)])); try reflexivity; [constructor; [apply (co_ends _ _ C)|exact St]|left; auto|apply (co_session _ _ C)|apply (co_closed _ _ C)].
Qed.

Lemma advance_core v i j : v < 13 -> forall s tk, core s tk ->
  exists tk', c_queue (q_conn (m_q s)) = map message tk' ++ c_queue (q_conn (m_q (advance v i j s))) /\
    Forall (taken_by i (isloop j) (m_reg s)) tk' /\ core (advance v i j s) (tk ++ tk') /\ m_reg (advance v i j s) = m_reg s.
Proof. intros Hv s tk C. apply proceed_core; [exact Hv|lia|exact C]. Qed.

Lemma registry_after_snoc r es k c : registry_after r (es ++ [MRegister k c]) = register (registry_after r es) k c.
Proof. revert r. induction es as [|b es IH]; intros r; cbn [app registry_after]; [reflexivity|]. destruct b; apply IH. Qed.

Lemma registry_after_other r es e : (forall k c, e <> MRegister k c) -> registry_after r (es ++ [e]) = registry_after r es.
Proof.
  intros H. revert r. induction es as [|b es IH]; intros r; cbn [app registry_after].
  - destruct e; try reflexivity. exfalso. eapply H. reflexivity.
  - destruct b; apply IH.
Qed.

Record minv (r : registry) (s : mstate) (es : list mevent) (tk : list taking) : Prop := {
  mi_core : core s tk; mi_reg : m_reg s = registry_after r es; mi_shared : shared r es tk (c_queue (q_conn (m_q s)));
  mi_jobs : jinv s; mi_modes : modes s es }.

Lemma core_with s s' tk : core s tk -> m_session s' = m_session s -> m_closed s' = m_closed s -> q_conn (m_q s') = q_conn (m_q s) -> m_items s' = m_items s ->
  m_started s' = m_started s -> m_ended s' = m_ended s -> core s' tk.
Proof. intros [C1 C2 C3 C4 C5 C6 C7] E1 E2 E3 E4 E5 E6. split; rewrite ?E1, ?E2, ?E3, ?E4, ?E5, ?E6; assumption. Qed.

(** What [minv] says without the jobs. *)
Definition taken_ok (r : registry) (s : mstate) (es : list mevent) (tk : list taking) : Prop :=
  core s tk /\ m_reg s = registry_after r es /\ shared r es tk (c_queue (q_conn (m_q s))).

Lemma moved_inv v r s es tk e i j s1 : v < 13 -> minv r s es tk -> mover e = Some i -> looping i false (es ++ [e]) = isloop j ->
  core s1 tk -> m_reg s1 = m_reg s -> c_queue (q_conn (m_q s1)) = c_queue (q_conn (m_q s)) ->
  exists tk', taken_ok r (advance v i j s1) (es ++ [e]) (tk ++ tk').
Proof.
  intros Hv [C G Sh _ _] Me Lo C1 G1 Q1. destruct (advance_core v i j Hv s1 tk C1) as (tk' & P1 & P2 & P3 & P4). exists tk'. split; [exact P3|split].
  - rewrite P4, G1, G, registry_after_other; [reflexivity|]. intros k c ->. discriminate.
  - eapply H_move; [exact Sh|exact Me|rewrite <- Q1; exact P1|]. rewrite Lo, <- G, <- G1. exact P2.
Qed.

Lemma taken_step v r s es tk e s' : v < 13 -> minv r s es tk -> steady e -> mstep v s e = Some s' -> exists tk', taken_ok r s' (es ++ [e]) (tk ++ tk').
Proof.
  intros Hv I St H. pose proof I as [C G Sh Jo Mo].
  assert (Tr : m_trans s = Some false) by (unfold m_trans; rewrite (co_closed _ _ C), (co_open _ _ C); reflexivity).
  assert (Same : forall s1, mover e = None -> (forall d, e <> MPacket d) -> (forall k c, e <> MRegister k c) -> m_reg s1 = m_reg s -> c_queue (q_conn (m_q s1)) = c_queue (q_conn (m_q s)) ->
    core s1 tk -> exists tk', taken_ok r s1 (es ++ [e]) (tk ++ tk')).
  { intros s1 Me Np Nr E1 E2 C1. exists []. rewrite app_nil_r. split; [exact C1|split]; [rewrite E1, G, registry_after_other by exact Nr; reflexivity|].
    rewrite E2. apply H_other; assumption. }
  destruct e as [i|i|d|i|i| | |k c|w whr]; cbn [steady] in St; try contradiction.
  - cbn [mstep] in H. destruct (nth_error (m_job s) i) as [[]|]; try discriminate. destruct (nth_error (q_readers (m_q s)) i) as [[]|] eqn:R; try discriminate.
    injection H as <-. unfold is_cmd_session. cbn [cl_session]. rewrite (co_session _ _ C), Tr. eapply moved_inv; [exact Hv|exact I|reflexivity|rewrite looping_snoc, Nat.eqb_refl; reflexivity| |reflexivity|reflexivity].
    eapply core_with; [exact C|reflexivity..].
  - cbn [mstep] in H. destruct (nth_error (m_job s) i) as [[]|]; try discriminate. destruct (nth_error (q_readers (m_q s)) i) as [[]|] eqn:R; try discriminate.
    injection H as <-. rewrite (co_closed _ _ C). eapply moved_inv; [exact Hv|exact I|reflexivity|rewrite looping_snoc, Nat.eqb_refl; reflexivity| |reflexivity|reflexivity].
    eapply core_with; [exact C|reflexivity..].
  - destruct St as (ms & P). cbn [mstep qstep] in H. destruct (wakeups _ _ _) as [gs rs]. injection H as <-.
    assert (D : deliver (q_conn (m_q s)) d = {| c_queue := c_queue (q_conn (m_q s)) ++ ms; c_open := true |}).
    { unfold deliver. rewrite (co_open _ _ C), (DispatchThms2.received _ _ _ P). reflexivity. }
    exists []. rewrite app_nil_r. split; [|split].
    + destruct C as [C1 C2 C3 C4 C5 C6 C7]. split; cbn [with_q m_session m_closed m_q m_items m_started m_ended q_conn]; rewrite ?D; cbn [c_open c_queue]; try assumption; try reflexivity.
      apply Forall_app. split; [exact C4|eapply packet_built, P].
    + cbn [with_q m_reg]. rewrite G, registry_after_other by discriminate. reflexivity.
    + cbn [with_q m_q q_conn]. rewrite D. cbn [c_queue]. apply H_packet; assumption.
  - destruct (mrun_shape v s i s' H) as (x & p & Rx & Jp & [(-> & ->)|(Hx & q & Q & ->)]).
    + eapply moved_inv; [exact Hv|exact I|reflexivity| |exact C|reflexivity|reflexivity]. rewrite looping_snoc. apply (Mo _ _ Jp). intros ->. apply Jo in Jp. congruence.
    + assert (E : q_conn q = q_conn (m_q s)).
      { cbn [qstep] in Q. rewrite Rx in Q. destruct Hx as [-> | ->].
        - destruct (match c_queue (q_conn (m_q s)) with [] => _ | _ => _ end) as [gs rs]. injection Q as <-. reflexivity.
        - injection Q as <-. reflexivity. }
      exists []. rewrite app_nil_r. split; [|split].
      * destruct C as [C1 C2 C3 C4 C5 C6 C7]. split; cbn [ends with_q m_session m_closed m_q m_items m_started m_ended]; rewrite ?E; try assumption. apply X_cancel, C7.
      * cbn [ends with_q m_reg]. rewrite G, registry_after_other by discriminate. reflexivity.
      * cbn [ends with_q m_q]. rewrite E. pose proof (H_move r es tk _ (MRun i) i [] _ Sh eq_refl eq_refl (Forall_nil _)) as X. rewrite app_nil_r in X. exact X.
  - cbn [mstep] in H. destruct (qstep (m_q s) (ECancel i)) as [q|] eqn:Q; [|discriminate]. injection H as <-.
    assert (E : q_conn q = q_conn (m_q s)) by (cbn [qstep] in Q; destruct (nth_error _ _) as [[]|]; try discriminate; injection Q as <-; reflexivity).
    apply Same; try reflexivity; try discriminate; [cbn [with_q m_q]; rewrite E; reflexivity|]. eapply core_with; [exact C|try reflexivity..]. exact E.
  - injection H as <-. exists []. rewrite app_nil_r. split; [|split].
    + eapply core_with; [exact C|reflexivity..].
    + cbn [m_reg]. rewrite registry_after_snoc, G. reflexivity.
    + apply H_other; [exact Sh|reflexivity|discriminate].
  - injection H as <-. apply Same; try reflexivity; try discriminate.
    destruct (get_item (m_items s) w whr) as [its' y] eqn:Gi. destruct C as [C1 C2 C3 C4 C5 C6 C7].
    split; cbn [acted m_session m_closed m_q m_items m_started m_ended fst]; try assumption.
    + eapply get_item_sound; eassumption.
    + destruct C6 as (tss & Es & Fs). exists tss. split; [rewrite app_nil_r; exact Es|].
      destruct C5 as [N1 _]. destruct (get_item_spec _ _ _ _ _ N1 Gi) as (_ & (l & ->) & _). apply handled_more2, Fs.
Qed.

Lemma minv_step v r s es tk e s' : v < 13 -> minv r s es tk -> steady e -> mstep v s e = Some s' -> exists tk', minv r s' (es ++ [e]) (tk ++ tk').
Proof.
  intros Hv I St H. destruct (taken_step v r s es tk e s' Hv I St H) as (tk' & C & G & Sh). exists tk'.
  split; [exact C|exact G|exact Sh|eapply jinv_step; [exact (mi_jobs _ _ _ _ I)|exact H]|eapply modes_step; [exact (mi_modes _ _ _ _ I)|exact H]].
Qed.

Lemma minv_run v r es : v < 13 -> forall s pre tk s', minv r s pre tk -> Forall steady es -> mrun v s es = Some s' -> exists tk', minv r s' (pre ++ es) (tk ++ tk').
Proof.
  intros Hv. induction es as [|e es IH]; cbn [mrun]; intros s pre tk s' I F R.
  - injection R as <-. exists []. rewrite !app_nil_r. exact I.
  - inversion F as [|? ? F1 F2]; subst. destruct (mstep v s e) as [s1|] eqn:S1; [|discriminate].
    destruct (minv_step v r s pre tk e s1 Hv I F1 S1) as (t1 & I1). destruct (IH s1 (pre ++ [e]) (tk ++ t1) s' I1 F2 R) as (t2 & I2).
    exists (t1 ++ t2). rewrite <- !app_assoc in I2. exact I2.
Qed.

Lemma minv_init r n : minv r (minit n r) [] [].
Proof.
  split; [|reflexivity|constructor|apply jinv_init|apply modes_init]. split; cbn; try reflexivity; try constructor; [constructor|constructor|exists []; split; [reflexivity|constructor]].
Qed.

Theorem sharing v n r es s : v < 13 -> Forall steady es -> mrun v (minit n r) es = Some s ->
  exists tk tss, shared r es tk (c_queue (q_conn (m_q s))) /\ m_started s = concat tss /\
    Forall2 (handled (m_items s)) (events tk) tss /\ endings tk (m_ended s).
Proof.
  intros Hv F R. destruct (minv_run v r es Hv _ _ _ _ (minv_init r n) F R) as (tk & [[_ _ _ _ _ (tss & Es & Fs) Ee] _ Sh _ _]). cbn [app] in *.
  exists tk, tss. auto.
Qed.

Lemma shared_arrival r es tk q : shared r es tk q -> Forall steady es -> map message tk ++ q = c_queue (feed fresh (concat (map mpackets es))) /\ c_open (feed fresh (concat (map mpackets es))) = true.
Proof.
  induction 1 as [|es tk q d ms Sh IH P|es tk q e i tk' q' Sh IH Me -> Fk|es tk q e Sh IH Me Np]; intros F.
  - split; reflexivity.
  - apply Forall_app in F as [F _]. destruct (IH F) as [E1 E2]. rewrite map_app, concat_app, feed_app. cbn [map concat mpackets app]. unfold feed at 1 3. cbn [fold_left].
    unfold deliver. rewrite E2, (DispatchThms2.received _ _ _ P). cbn [c_queue c_open]. rewrite app_assoc, E1. auto.
  - apply Forall_app in F as [F _]. destruct (IH F) as [E1 E2]. rewrite !map_app, concat_app, <- app_assoc.
    assert (X : concat (map mpackets [e]) = []) by (destruct e; cbn in Me; try discriminate; reflexivity). rewrite X, app_nil_r. auto.
  - apply Forall_app in F as [F _]. destruct (IH F) as [E1 E2]. rewrite map_app, concat_app.
    assert (X : concat (map mpackets [e]) = []) by (destruct e; cbn in Me; try discriminate; try reflexivity; exfalso; eapply Np; reflexivity). rewrite X, app_nil_r. auto.
Qed.

(** ** A loop that is running catches up *)

Lemma gets_work i k : forall q q', qrun q (repeat (EGet i) k) = Some q' -> work q' = work q.
Proof.
  induction k as [|k IH]; cbn [repeat qrun]; intros q q' H; [injection H as <-; reflexivity|].
  destruct (qstep q (EGet i)) as [q1|] eqn:Q; [|discriminate]. rewrite (IH q1 q' H). cbn [qstep] in Q.
  destruct (nth_error (q_readers q) i) as [[]|] eqn:R; try discriminate. injection Q as <-. unfold try_get, work. destruct (c_queue (q_conn q)); cbn [q_readers].
  - pose proof (cnt_setnth RWokenC i RWait RIdle (q_readers q) R) as A. pose proof (cnt_setnth RWoken i RWait RIdle (q_readers q) R) as B. pose proof (cnt_setnth RCancel i RWait RIdle (q_readers q) R) as C.
    cbn in A, B, C. lia.
  - pose proof (cnt_setnth RWokenC i RIdle RIdle (q_readers q) R) as A. pose proof (cnt_setnth RWoken i RIdle RIdle (q_readers q) R) as B. pose proof (cnt_setnth RCancel i RIdle RIdle (q_readers q) R) as C.
    cbn in A, B, C. lia.
Qed.

Lemma mrun_decreases v s i s' : qinv (m_q s) -> mstep v s (MRun i) = Some s' -> (work (m_q s') < work (m_q s))%nat.
Proof.
  intros I H. destruct (mrun_shape v s i s' H) as (x & p & Rx & _ & [(-> & ->)|(Hx & q & Q & ->)]).
  - destruct (advance_runs v i p s (or_intror Rx)) as (e & k & _ & Hw & Q). rewrite (Hw Rx) in Q. cbn [qrun] in Q.
    destruct (qstep (m_q s) (ERun i)) as [q1|] eqn:Q1; [|discriminate]. rewrite (gets_work i k q1 _ Q). eapply run_decreases; eassumption.
  - exact (run_decreases _ _ _ I Q).
Qed.

Lemma mruns_bounded v js : forall s s', qinv (m_q s) -> mrun v s (map MRun js) = Some s' -> (length js + work (m_q s') <= work (m_q s))%nat.
Proof.
  induction js as [|j js IH]; cbn [map mrun]; intros s s' I R; [injection R as <-; cbn; lia|].
  destruct (mstep v s (MRun j)) as [s1|] eqn:S1; [|discriminate]. pose proof (mrun_decreases v s j s1 I S1) as D.
  destruct (mstep_queue v s (MRun j) s1 ltac:(exact Logic.I) S1) as (qes & Q & _). pose proof (qrun_inv _ _ _ I Q) as I1. specialize (IH s1 s' I1 R). cbn [length]. lia.
Qed.

(** Whatever runs first, only finitely many steps are scheduled, and when none is
    left a running loop has read everything. *)
Theorem catching_up v n r es s : Forall steady es -> mrun v (minit n r) es = Some s ->
  (forall js s', mrun v s (map MRun js) = Some s' -> (length js <= work (m_q s))%nat) /\
  (forall i j, (forall k, mstep v s (MRun k) = None) -> nth_error (m_job s) i = Some j -> j <> JNone -> c_queue (q_conn (m_q s)) = []).
Proof.
  intros F R. destruct (mrun_queue v es _ _ F R) as (qes & Q & _). cbn [minit m_q] in Q. pose proof (qrun_inv _ _ _ (qinv_init n) Q) as I. split.
  - intros js s' R'. pose proof (mruns_bounded v js s s' I R'). lia.
  - intros i j K J Hj. pose proof (jinv_run v es _ _ (jinv_init n r) R) as JI.
    assert (Lr : length (q_readers (m_q s)) = length (m_job s)).
    { assert (A : forall k, nth_error (m_job s) k = Some JNone <-> nth_error (q_readers (m_q s)) k = Some RIdle) by exact JI. clear - R.
      assert (G : forall es s s', length (q_readers (m_q s)) = length (m_job s) -> mrun v s es = Some s' -> length (q_readers (m_q s')) = length (m_job s')).
      { assert (TG : forall i q, length (q_readers (try_get i q)) = length (q_readers q)) by (intros i q; unfold try_get; destruct (c_queue (q_conn q)); apply setnth_length).
        assert (PR : forall fuel i j s, length (q_readers (m_q s)) = length (m_job s) -> length (q_readers (m_q (proceed v fuel i j s))) = length (m_job (proceed v fuel i j s))).
        { induction fuel as [|fuel IH]; intros i j u E; cbn [proceed]; [exact E|]. destruct (c_queue (q_conn (m_q u))); [cbn [with_q m_q m_job]; rewrite TG; exact E|].
          destruct j; try (cbn [ends with_q m_q m_job]; rewrite TG, setnth_length; exact E).
          destruct (handle v (m_reg u) (m_items u) m) as [[its ts] [x|]]; [cbn [ends acted with_q m_q m_job]; rewrite TG, setnth_length; exact E|].
          destruct (m_trans u) as [[]|]; try (cbn [ends acted with_q m_q m_job]; rewrite TG, setnth_length; exact E). apply IH. cbn [acted with_q m_q m_job]. rewrite TG. exact E. }
        induction es0 as [|e es0 IH]; cbn [mrun]; intros u u' E H; [injection H as <-; exact E|].
        destruct (mstep v u e) as [u1|] eqn:S1; [|discriminate]. apply (IH u1); [|exact H]. clear - E S1 PR. destruct e as [i|i|d|i|i| | |k c|w whr].
        - cbn [mstep] in S1. destruct (nth_error (m_job u) i) as [[]|]; try discriminate. destruct (nth_error (q_readers (m_q u)) i) as [[]|]; try discriminate. injection S1 as <-.
          destruct (is_cmd_session _); [cbn [ends with_job m_q m_job]; rewrite !setnth_length; exact E|].
          destruct (m_trans u) as [[]|]; try (cbn [ends with_job m_q m_job]; rewrite !setnth_length; exact E). apply PR. cbn [with_job m_q m_job]. rewrite setnth_length. exact E.
        - cbn [mstep] in S1. destruct (nth_error (m_job u) i) as [[]|]; try discriminate. destruct (nth_error (q_readers (m_q u)) i) as [[]|]; try discriminate. injection S1 as <-.
          destruct (m_closed u); [cbn [ends with_job m_q m_job]; rewrite !setnth_length; exact E|]. apply PR. cbn [with_job m_q m_job]. rewrite setnth_length. exact E.
        - cbn [mstep qstep] in S1. set (n := (length (c_queue (deliver (q_conn (m_q u)) d)) - length (c_queue (q_conn (m_q u))))%nat) in *.
          pose proof (wakeups_readers n (q_getters (m_q u)) (q_readers (m_q u)) 0) as [W _]. destruct (wakeups n _ _) as [gs rs]. injection S1 as <-. cbn [with_q m_q m_job q_readers snd] in *. congruence.
        - destruct (mrun_shape v u i u1 S1) as (x & p & Rx & _ & [(-> & ->)|(Hx & q & Q & ->)]); [apply PR; exact E|].
          cbn [ends with_q m_q m_job]. rewrite setnth_length, <- E. cbn [qstep] in Q. rewrite Rx in Q. destruct Hx as [-> | ->].
          + pose proof (wakeup_readers (remove_getter i (q_getters (m_q u))) (setnth i RIdle (q_readers (m_q u))) 0) as [W _]. rewrite setnth_length in W.
            destruct (c_queue (q_conn (m_q u))); [injection Q as <-; apply setnth_length|]. destruct (wakeup _ _) as [gs rs]. injection Q as <-. exact W.
          + injection Q as <-. apply setnth_length.
        - cbn [mstep] in S1. destruct (qstep (m_q u) (ECancel i)) as [q|] eqn:Q; [|discriminate]. injection S1 as <-. cbn [qstep] in Q. cbn [with_q m_q m_job]. rewrite <- E.
          destruct (nth_error (q_readers (m_q u)) i) as [[]|]; try discriminate; injection Q as <-; apply setnth_length.
        - injection S1 as <-. exact E.
        - injection S1 as <-. exact E.
        - injection S1 as <-. exact E.
        - injection S1 as <-. exact E. }
      eapply G; [|exact R]. cbn. rewrite !repeat_length. reflexivity. }
    assert (Quiet : quiescent (m_q s)).
    { intros k. destruct (qstep (m_q s) (ERun k)) as [q|] eqn:Qk; [|reflexivity]. exfalso. specialize (K k). cbn [mstep] in K.
      destruct (nth_error (q_readers (m_q s)) k) as [x|] eqn:Rk; [|cbn [qstep] in Qk; rewrite Rk in Qk; discriminate].
      assert (Lk : (k < length (m_job s))%nat) by (rewrite <- Lr; apply nth_error_Some; congruence).
      destruct (nth_error (m_job s) k) as [p|] eqn:Pk; [|apply nth_error_None in Pk; lia]. rewrite Qk in K. destruct x; discriminate. }
    destruct (c_queue (q_conn (m_q s))) as [|m q] eqn:E; [reflexivity|]. exfalso.
    assert (W : nth_error (q_readers (m_q s)) i = Some RWait).
    { assert (Li : (i < length (q_readers (m_q s)))%nat) by (rewrite Lr; apply nth_error_Some; congruence).
      destruct (nth_error (q_readers (m_q s)) i) as [x|] eqn:Rx; [|apply nth_error_None in Rx; lia]. destruct x; try reflexivity; exfalso.
      - apply JI in Rx. congruence.
      - specialize (Quiet i). cbn [qstep] in Quiet. rewrite Rx in Quiet. discriminate.
      - specialize (Quiet i). cbn [qstep] in Quiet. rewrite Rx in Quiet. destruct (match c_queue (q_conn (m_q s)) with [] => _ | _ => _ end). discriminate.
      - specialize (Quiet i). cbn [qstep] in Quiet. rewrite Rx in Quiet. discriminate. }
    destruct I as [_ I]. assert (X : (0 < cnt RWait (q_readers (m_q s)))%nat) by (apply cnt_pos; eauto). specialize (I X).
    rewrite E, quiescent_work in I by exact Quiet. cbn in I. lia.
Qed.

(** ** One loop: the model of Dispatch.v *)

Lemma last_snoc {A} (l : list A) x d : last (l ++ [x]) d = x.
Proof. induction l as [|y l IH]; [reflexivity|]. cbn [app last]. rewrite IH. destruct (l ++ [x]) eqn:E; [destruct l; discriminate|reflexivity]. Qed.

Lemma last_status_snoc o i x : last_status (o ++ [(i, x)]) = match x with OReturned => Returned | OFailed e => Failed e | _ => Idle end.
Proof. unfold last_status. rewrite !map_app. cbn [map snd]. rewrite last_snoc. reflexivity. Qed.

(** The waiting loop, or no loop. *)
Definition loop_as (s : mstate) (l : status) : Prop :=
  (m_job s = [JLoop] /\ l = Waiting /\
    ((q_readers (m_q s) = [RWait] /\ q_getters (m_q s) = [0%nat] /\ c_queue (q_conn (m_q s)) = []) \/
     (q_readers (m_q s) = [RWoken] /\ q_getters (m_q s) = [] /\ c_queue (q_conn (m_q s)) <> []))) \/
  (m_job s = [JNone] /\ q_readers (m_q s) = [RIdle] /\ q_getters (m_q s) = [] /\ l = last_status (m_ended s)).

Record rel (s : mstate) (d : state) : Prop := {
  re_session : st_session d = m_session s; re_trans : st_trans d = m_trans s; re_queue : st_queue d = c_queue (q_conn (m_q s));
  re_items : st_items d = m_items s; re_reg : st_reg d = m_reg s; re_started : st_started d = m_started s;
  re_shut : m_closed s = true -> c_open (q_conn (m_q s)) = false; re_loop : loop_as s (st_loop d) }.

Lemma proceed_drain v fuel : forall s x, (length (c_queue (q_conn (m_q s))) < fuel)%nat -> m_job s = [JLoop] -> q_readers (m_q s) = [x] -> q_getters (m_q s) = [] ->
  match drain v (m_reg s) (m_trans s) (c_queue (q_conn (m_q s))) (m_items s) (m_started s) with
  | (q, its, ts, l) =>
      let s' := proceed v fuel 0 JLoop s in
      c_queue (q_conn (m_q s')) = q /\ m_items s' = its /\ m_started s' = ts /\ loop_as s' l /\ m_session s' = m_session s /\ m_reg s' = m_reg s /\
      m_closed s' = m_closed s /\ c_open (q_conn (m_q s')) = c_open (q_conn (m_q s))
  end.
Proof.
  induction fuel as [|fuel IH]; intros s x Hf J R G; [lia|]. cbn [proceed].
  destruct (c_queue (q_conn (m_q s))) as [|m q] eqn:E; cbn [drain].
  - assert (T : try_get 0 (m_q s) = {| q_conn := q_conn (m_q s); q_getters := [0%nat]; q_readers := [RWait]; q_out := q_out (m_q s) |}).
    { unfold try_get. rewrite E, G, R. reflexivity. }
    cbn zeta. cbn [with_q m_q m_items m_started m_session m_reg m_closed]. rewrite T. cbn [q_conn]. split; [exact E|]. repeat (split; [reflexivity|]). split; [|repeat split; reflexivity].
    left. cbn [with_q m_job m_q]. cbn [q_readers q_getters q_conn]. split; [exact J|]. split; [reflexivity|]. left. auto.
  - assert (T : try_get 0 (m_q s) = {| q_conn := {| c_queue := q; c_open := c_open (q_conn (m_q s)) |}; q_getters := []; q_readers := [RIdle]; q_out := q_out (m_q s) ++ [(0%nat, m)] |}).
    { unfold try_get. rewrite E, G, R. reflexivity. }
    destruct (handle v (m_reg s) (m_items s) m) as [[its ts] o] eqn:H.
    assert (En : forall w l, (match w with OReturned => Returned | OFailed e => Failed e | _ => Idle end) = l ->
      let s' := ends 0 w (acted its ts (with_q (try_get 0 (m_q s)) s)) in
      c_queue (q_conn (m_q s')) = q /\ m_items s' = its /\ m_started s' = m_started s ++ ts /\ loop_as s' l /\ m_session s' = m_session s /\ m_reg s' = m_reg s /\
      m_closed s' = m_closed s /\ c_open (q_conn (m_q s')) = c_open (q_conn (m_q s))).
    { intros w l <-. cbn zeta. cbn [ends acted with_q m_q m_items m_started m_session m_reg m_closed]. rewrite T. cbn [q_conn c_queue c_open]. repeat (split; [reflexivity|]). split; [|repeat split; reflexivity].
      right. cbn [ends acted with_q m_q m_job m_ended]. rewrite J. cbn [q_readers q_getters]. split; [reflexivity|]. split; [reflexivity|]. split; [reflexivity|].
      rewrite last_status_snoc. reflexivity. }
    destruct o as [e|]; [apply (En (OFailed e)); reflexivity|].
    destruct (m_trans s) as [[]|] eqn:Tr; [apply (En OReturned); reflexivity| |apply (En (OFailed AttributeError)); reflexivity]. clear En.
    specialize (IH (acted its ts (with_q (try_get 0 (m_q s)) s)) RIdle). cbn [acted with_q m_q m_job m_reg m_items m_started m_session m_closed] in IH.
    rewrite T in IH. cbn [q_conn q_readers q_getters c_queue c_open] in IH.
    replace (m_trans (acted its ts (with_q _ s))) with (Some false) in IH by (rewrite <- Tr; reflexivity).
    rewrite T. apply IH; [cbn in Hf; lia|exact J|reflexivity|reflexivity].
Qed.

Lemma advance_drained v s x d : m_job s = [JLoop] -> q_readers (m_q s) = [x] -> q_getters (m_q s) = [] ->
  st_session d = m_session s -> st_trans d = m_trans s -> st_queue d = c_queue (q_conn (m_q s)) -> st_items d = m_items s -> st_reg d = m_reg s -> st_started d = m_started s ->
  (m_closed s = true -> c_open (q_conn (m_q s)) = false) -> rel (advance v 0 JLoop s) (drained v d).
Proof.
  intros J R G E1 E2 E3 E4 E5 E6 Sh. pose proof (proceed_drain v (S (length (c_queue (q_conn (m_q s))))) s x ltac:(lia) J R G) as P. fold (advance v 0 JLoop s) in P.
  unfold drained. rewrite E1, E2, E3, E4, E5, E6. destruct (drain _ _ _ _ _ _) as [[[q its] ts] l]. cbn zeta in P. destruct P as (P1 & P2 & P3 & P4 & P5 & P6 & P7 & P8).
  split; cbn [st_session st_trans st_queue st_items st_reg st_started st_loop]; try congruence; [unfold m_trans; rewrite P7, P8; reflexivity|rewrite P7, P8; exact Sh].
Qed.

Lemma wakeups_none n rs : wakeups n [] rs = ([], rs).
Proof. induction n as [|n IH]; cbn [wakeups wakeup]; [reflexivity|exact IH]. Qed.

Lemma rel_step v s d e s' : rel s d -> only_loop e -> mstep v s e = Some s' -> rel s' (lrun v d (erase e)).
Proof.
  intros [E1 E2 E3 E4 E5 E6 Sh L] O H.
  destruct e as [i|i|dt|i|i| | |k c|w whr]; cbn [only_loop] in O; try contradiction; unfold lrun; cbn [erase fold_left lstep].
  - cbn [mstep] in H. destruct L as [(J & _)|(J & R & G & L)]; rewrite J in H; (destruct i as [|i]; [|cbn in H; destruct i; discriminate]); [cbn in H; discriminate|].
    rewrite R in H. cbn [nth_error] in H. injection H as <-. unfold enter. rewrite E1, E2.
    assert (En : forall w, rel (ends 0 w (with_job 0 JLoop s)) (with_loop d (match w with OReturned => Returned | OFailed e => Failed e | _ => Idle end))).
    { intros w. split; cbn [with_loop ends with_job m_session m_q m_items m_reg m_started m_closed st_session st_trans st_queue st_items st_reg st_started st_loop]; try assumption.
      right. cbn [ends with_job m_job m_q m_ended]. rewrite J. split; [reflexivity|]. split; [exact R|]. split; [exact G|]. rewrite last_status_snoc. reflexivity. }
    destruct (is_cmd_session _); [apply (En (OFailed InvalidSession))|]. destruct (m_trans s) as [[]|] eqn:Tr; [apply (En OReturned)| |apply (En (OFailed InvalidSession))].
    apply (advance_drained v (with_job 0 JLoop s) RIdle d); try assumption; [cbn [with_job m_job]; rewrite J; reflexivity|]. rewrite E2, <- Tr. reflexivity.
  - cbn [mstep qstep] in H. set (n := (length (c_queue (deliver (q_conn (m_q s)) dt)) - length (c_queue (q_conn (m_q s))))%nat) in *.
    assert (Hn : n = (length (c_queue (deliver (q_conn (m_q s)) dt)) - length (c_queue (q_conn (m_q s))))%nat) by reflexivity. clearbody n.
    destruct (wakeups n (q_getters (m_q s)) (q_readers (m_q s))) as [gs rs] eqn:W. injection H as <-. cbn [step].
    set (s1 := with_q _ s).
    assert (La : loop_as s1 (st_loop d)).
    { destruct L as [(J & L & [(R & G & Q)|(R & G & Q)])|(J & R & G & L)]; rewrite R, G in W.
      - left. split; [exact J|]. split; [exact L|]. subst s1. cbn [with_q m_q q_readers q_getters q_conn]. destruct n as [|n'].
        + left. injection W as <- <-. split; [reflexivity|]. split; [reflexivity|]. rewrite Q in Hn. destruct (c_queue (deliver (q_conn (m_q s)) dt)); [reflexivity|cbn in Hn; lia].
        + right. cbn [wakeups wakeup nth_error setnth] in W. rewrite wakeups_none in W. injection W as <- <-. split; [reflexivity|]. split; [reflexivity|].
          intros X. rewrite X in Hn. cbn in Hn. lia.
      - left. split; [exact J|]. split; [exact L|]. right. rewrite wakeups_none in W. injection W as <- <-. subst s1. cbn [with_q m_q q_readers q_getters q_conn].
        split; [reflexivity|]. split; [reflexivity|]. intros X. pose proof (deliver_length (q_conn (m_q s)) dt) as D. rewrite X in D. cbn in D. destruct (c_queue (q_conn (m_q s))); [congruence|cbn in D; lia].
      - right. rewrite wakeups_none in W. injection W as <- <-. subst s1. cbn [with_q m_job m_q q_readers q_getters m_ended]. auto. }
    assert (Ds : m_trans s = Some false /\ c_open (q_conn (m_q s)) = true \/ (m_trans s <> Some false /\ c_open (q_conn (m_q s)) = false)).
    { unfold m_trans. destruct (m_closed s); [right; split; [discriminate|auto]|]. destruct (c_open (q_conn (m_q s))); [left; auto|right; split; [discriminate|reflexivity]]. }
    rewrite E2. destruct Ds as [[Tr Op]|[Tr Op]].
    + rewrite Tr. assert (D : deliver (q_conn (m_q s)) dt = match data_received (c_queue (q_conn (m_q s))) dt with (q, None) => {| c_queue := q; c_open := true |} | (q, Some _) => {| c_queue := q; c_open := false |} end)
        by (unfold deliver; rewrite Op; reflexivity).
      assert (Cl : m_closed s = false) by (destruct (m_closed s); [specialize (Sh eq_refl); congruence|reflexivity]).
      rewrite E3. destruct (data_received (c_queue (q_conn (m_q s))) dt) as [q [e|]]; split;
        cbn [with_conn st_session st_trans st_queue st_items st_reg st_started st_loop]; subst s1; cbn [with_q m_session m_q m_items m_reg m_started m_closed q_conn]; try assumption;
        try (unfold m_trans; cbn [with_q m_closed m_q q_conn]; rewrite Cl, D; reflexivity); try (rewrite D; reflexivity); rewrite Cl; discriminate.
    + assert (D : deliver (q_conn (m_q s)) dt = q_conn (m_q s)) by (unfold deliver; rewrite Op; reflexivity).
      assert (X : match m_trans s with Some false => match data_received (st_queue d) dt with (q, None) => with_conn d (Some false) q | (q, Some _) => with_conn d (Some true) q end | _ => d end = d).
      { destruct (m_trans s) as [[]|]; try reflexivity. congruence. }
      rewrite X. split; subst s1; try exact La; cbn [with_q m_session m_q m_items m_reg m_started m_closed q_conn]; rewrite ?D; try assumption.
  - destruct (mrun_shape v s i s' H) as (x & p & Rx & Jp & C). cbn [step].
    destruct L as [(J & L & [(R & G & Q)|(R & G & Q)])|(J & R & G & L)]; rewrite R in Rx; (destruct i as [|i]; [|cbn in Rx; destruct i; discriminate]); injection Rx as <-.
    + destruct C as [(X & _)|([X|X] & _)]; discriminate.
    + rewrite J in Jp. injection Jp as <-. destruct C as [(_ & ->)|([X|X] & _)]; try discriminate. rewrite L, E3.
      destruct (c_queue (q_conn (m_q s))) as [|m q] eqn:Eq; [congruence|]. rewrite <- Eq in E3. apply (advance_drained v s RWoken d); assumption.
    + destruct C as [(X & _)|([X|X] & _)]; discriminate.
  - injection H as <-. cbn [step].
    assert (La : loop_as (with_q (shut (m_q s)) s) (st_loop d)) by exact L.
    rewrite E2. unfold m_trans. destruct (m_closed s) eqn:Cl.
    + split; cbn [with_q shut m_session m_q m_items m_reg m_started m_closed q_conn c_queue c_open]; try assumption; [|reflexivity]. rewrite E2. unfold m_trans. cbn [with_q m_closed]. rewrite Cl. reflexivity.
    + split; cbn [with_conn st_session st_trans st_queue st_items st_reg st_started st_loop with_q shut m_session m_q m_items m_reg m_started m_closed q_conn c_queue c_open]; try assumption; [|reflexivity].
      unfold m_trans. cbn [with_q m_closed m_q shut q_conn c_open]. rewrite Cl. reflexivity.
  - injection H as <-. cbn [step]. split; cbn [with_conn st_session st_trans st_queue st_items st_reg st_started st_loop shut m_session m_q m_items m_reg m_started m_closed q_conn c_queue c_open]; try assumption; try reflexivity.
  - injection H as <-. cbn [step]. split; cbn [st_session st_trans st_queue st_items st_reg st_started st_loop m_session m_q m_items m_reg m_started m_closed]; try assumption; try exact L. rewrite E5. reflexivity.
  - injection H as <-. cbn [step]. split; cbn [st_session st_trans st_queue st_items st_reg st_started st_loop acted m_session m_q m_items m_reg m_started m_closed]; try assumption; [rewrite E4; reflexivity|rewrite app_nil_r; exact E6].
Qed.

Lemma rel_run v es : forall s d s', rel s d -> Forall only_loop es -> mrun v s es = Some s' -> rel s' (lrun v d (concat (map erase es))).
Proof.
  induction es as [|e es IH]; cbn [mrun map concat]; intros s d s' I F R; [injection R as <-; exact I|].
  inversion F as [|? ? F1 F2]; subst. destruct (mstep v s e) as [s1|] eqn:S1; [|discriminate].
  unfold lrun. rewrite fold_left_app. apply (IH s1); [|exact F2|exact R]. eapply rel_step; eassumption.
Qed.

Lemma rel_init r : rel (minit 1 r) (connected r).
Proof. split; try reflexivity; [discriminate|]. right. repeat split; reflexivity. Qed.

Theorem one_loop v r es s : Forall only_loop es -> mrun v (minit 1 r) es = Some s ->
  let d := lrun v (connected r) (concat (map erase es)) in
  st_queue d = c_queue (q_conn (m_q s)) /\ st_items d = m_items s /\ st_started d = m_started s /\ st_trans d = m_trans s /\
  (st_loop d = Waiting /\ m_job s = [JLoop] \/ st_loop d = last_status (m_ended s) /\ m_job s = [JNone]).
Proof.
  intros F R d. destruct (rel_run v es _ _ _ (rel_init r) F R) as [E1 E2 E3 E4 E5 E6 _ L]. fold d in E2, E3, E4, E6, L.
  repeat (split; [assumption|]). destruct L as [(J & L & _)|(J & _ & _ & L)]; [left|right]; auto.
Qed.

(** ** A call is given up only when it was cancelled *)

Definition pend (q : qstate) (k : nat) : nat := match nth_error (q_readers q) k with Some RWokenC | Some RCancel => 1%nat | _ => 0%nat end.

Lemma given_up_snoc k o i x : given_up k (o ++ [(i, x)]) = (given_up k o + match x with OCancelled => if Nat.eqb i k then 1 else 0 | _ => 0 end)%nat.
Proof. unfold given_up. rewrite filter_app, app_length. cbn [filter]. destruct x; cbn; try lia. destruct (Nat.eqb i k); cbn; lia. Qed.

Lemma try_get_pend i q k : pend q i = 0%nat -> pend (try_get i q) k = pend q k.
Proof.
  intros P. assert (G : forall x, x = RIdle \/ x = RWait -> match nth_error (setnth i x (q_readers q)) k with Some RWokenC | Some RCancel => 1%nat | _ => 0%nat end = pend q k).
  { intros x X. destruct (Nat.eq_dec k i) as [->|K]; [|rewrite setnth_other by congruence; reflexivity]. rewrite P.
    destruct (Nat.lt_ge_cases i (length (q_readers q))) as [L|L]; [rewrite setnth_same by exact L; destruct X as [-> | ->]; reflexivity|].
    assert (Y : nth_error (setnth i x (q_readers q)) i = None) by (apply nth_error_None; rewrite setnth_length; exact L). rewrite Y. reflexivity. }
  unfold try_get. destruct (c_queue (q_conn q)); unfold pend at 1; cbn [q_readers]; apply G; auto.
Qed.

Lemma proceed_pend v fuel i j k : forall s, pend (m_q s) i = 0%nat ->
  pend (m_q (proceed v fuel i j s)) k = pend (m_q s) k /\ given_up k (m_ended (proceed v fuel i j s)) = given_up k (m_ended s).
Proof.
  induction fuel as [|fuel IH]; intros s P; cbn [proceed]; [auto|]. pose proof (try_get_pend i (m_q s) k P) as T.
  destruct (c_queue (q_conn (m_q s))) as [|m q]; [cbn [with_q m_q m_ended]; auto|].
  assert (R : forall o s1, m_q s1 = try_get i (m_q s) -> m_ended s1 = m_ended s ++ [(i, o)] -> o <> OCancelled ->
    pend (m_q s1) k = pend (m_q s) k /\ given_up k (m_ended s1) = given_up k (m_ended s)).
  { intros o s1 -> -> No. split; [exact T|]. rewrite given_up_snoc. destruct o; try lia. congruence. }
  destruct j; try (eapply R; [reflexivity|reflexivity|discriminate]).
  destruct (handle v (m_reg s) (m_items s) m) as [[its ts] [e|]]; [eapply R; [reflexivity|reflexivity|discriminate]|].
  destruct (m_trans s) as [[]|]; try (eapply R; [reflexivity|reflexivity|discriminate]).
  destruct (IH (acted its ts (with_q (try_get i (m_q s)) s))) as [A B]; [cbn [acted with_q m_q]; rewrite try_get_pend by exact P; exact P|].
  rewrite A, B. cbn [acted with_q m_q m_ended]. auto.
Qed.

Lemma cancels_step v s e s' k : mstep v s e = Some s' ->
  (given_up k (m_ended s') + pend (m_q s') k = given_up k (m_ended s) + pend (m_q s) k + cancels k [e])%nat.
Proof.
  intros H. destruct e as [i|i|d|i|i| | |a c|w whr].
  - cbn [mstep] in H. destruct (nth_error (m_job s) i) as [[]|]; try discriminate. destruct (nth_error (q_readers (m_q s)) i) as [[]|] eqn:R; try discriminate.
    assert (P : pend (m_q s) i = 0%nat) by (unfold pend; rewrite R; reflexivity). cbn [cancels filter length]. injection H as <-.
    destruct (is_cmd_session _); [cbn [ends with_job m_ended m_q]; rewrite given_up_snoc; lia|].
    destruct (m_trans s) as [[]|]; try (cbn [ends with_job m_ended m_q]; rewrite given_up_snoc; lia).
    unfold advance. destruct (proceed_pend v (S (length (c_queue (q_conn (m_q (with_job i JLoop s)))))) i JLoop k (with_job i JLoop s) P) as [A B]. rewrite A, B.
    cbn [with_job m_ended m_q]. lia.
  - cbn [mstep] in H. destruct (nth_error (m_job s) i) as [[]|]; try discriminate. destruct (nth_error (q_readers (m_q s)) i) as [[]|] eqn:R; try discriminate.
    assert (P : pend (m_q s) i = 0%nat) by (unfold pend; rewrite R; reflexivity). cbn [cancels filter length]. injection H as <-.
    destruct (m_closed s); [cbn [ends with_job m_ended m_q]; rewrite given_up_snoc; lia|].
    unfold advance. destruct (proceed_pend v (S (length (c_queue (q_conn (m_q (with_job i JRead s)))))) i JRead k (with_job i JRead s) P) as [A B]. rewrite A, B.
    cbn [with_job m_ended m_q]. lia.
  - cbn [mstep qstep] in H.
    set (n := (length (c_queue (deliver (q_conn (m_q s)) d)) - length (c_queue (q_conn (m_q s))))%nat) in *.
    pose proof (wakeups_readers n (q_getters (m_q s)) (q_readers (m_q s)) k) as W. destruct (wakeups n _ _) as [gs rs]. injection H as <-.
    cbn [with_q m_ended m_q cancels filter length]. unfold pend. cbn [q_readers]. cbn [snd] in W. destruct W as [_ [X|[X1 X2]]]; [rewrite X; lia|rewrite X1, X2; lia].
  - destruct (mrun_shape v s i s' H) as (y & p & Ry & Jp & [(-> & ->)|(Hy & q & Q & ->)]); cbn [cancels filter length].
    + assert (P : pend (m_q s) i = 0%nat) by (unfold pend; rewrite Ry; reflexivity).
      unfold advance. destruct (proceed_pend v (S (length (c_queue (q_conn (m_q s))))) i p k s P) as [A B]. rewrite A, B. lia.
    + cbn [ends with_q m_ended m_q]. rewrite given_up_snoc. destruct (Nat.eqb_spec i k) as [->|N1].
      * assert (L : (k < length (q_readers (m_q s)))%nat) by (apply nth_error_Some; congruence).
        assert (Ri : nth_error (q_readers q) k = Some RIdle).
        { cbn [qstep] in Q. rewrite Ry in Q. destruct Hy as [-> | ->].
          - pose proof (wakeup_readers (remove_getter k (q_getters (m_q s))) (setnth k RIdle (q_readers (m_q s))) k) as [_ W].
            rewrite setnth_same in W by exact L. destruct (c_queue (q_conn (m_q s))).
            + injection Q as <-. cbn [q_readers]. apply setnth_same, L.
            + destruct (wakeup _ _) as [gs rs]. injection Q as <-. cbn [q_readers snd] in *. destruct W as [W|[W _]]; [exact W|discriminate].
          - injection Q as <-. cbn [q_readers]. apply setnth_same, L. }
        unfold pend. rewrite Ri, Ry. destruct Hy as [-> | ->]; lia.
      * unfold pend. destruct (run_readers (m_q s) i q k Q ltac:(congruence)) as [X|[X1 X2]]; [rewrite X; lia|rewrite X1, X2; lia].
  - cbn [mstep] in H. destruct (qstep (m_q s) (ECancel i)) as [q|] eqn:Q; [|discriminate]. injection H as <-. cbn [with_q m_ended m_q].
    cbn [qstep] in Q. destruct (nth_error (q_readers (m_q s)) i) as [x|] eqn:Rx; [|discriminate].
    assert (L : (i < length (q_readers (m_q s)))%nat) by (apply nth_error_Some; congruence).
    unfold cancels. cbn [filter]. destruct (Nat.eqb_spec i k) as [->|N1]; cbn [length].
    + unfold pend. rewrite Rx. destruct x; try discriminate; injection Q as <-; cbn [q_readers]; rewrite setnth_same by exact L; lia.
    + unfold pend. destruct x; try discriminate; injection Q as <-; cbn [q_readers]; rewrite setnth_other by congruence; lia.
  - injection H as <-. unfold pend; cbn [with_q shut m_q m_ended q_readers cancels filter length]; lia.
  - injection H as <-. unfold pend; cbn [with_q shut m_q m_ended q_readers cancels filter length]; lia.
  - injection H as <-. unfold pend; cbn [acted m_q m_ended q_readers cancels filter length]; lia.
  - injection H as <-. unfold pend; cbn [acted m_q m_ended q_readers cancels filter length]; lia.
Qed.

Theorem cancelling v n r es s : mrun v (minit n r) es = Some s ->
  forall k, (given_up k (m_ended s) <= cancels k es <= given_up k (m_ended s) + 1)%nat.
Proof.
  assert (G : forall es s s' k, mrun v s es = Some s' -> (given_up k (m_ended s') + pend (m_q s') k = given_up k (m_ended s) + pend (m_q s) k + cancels k es)%nat).
  { induction es0 as [|e es0 IH]; intros u u' k; cbn [mrun]; [intros [= <-]; cbn; lia|].
    destruct (mstep v u e) as [u1|] eqn:E; [|discriminate]. intros R. pose proof (IH u1 u' k R) as I1. pose proof (cancels_step v u e u1 k E) as I2.
    unfold cancels in *. cbn [filter] in *. destruct (match e with MCancel k0 => Nat.eqb k0 k | _ => false end); cbn [length] in *; lia. }
  intros R k. pose proof (G es _ _ k R) as X. cbn [minit m_ended m_q given_up filter length] in X.
  assert (Z : pend (qinit n) k = 0%nat).
  { unfold pend. cbn [qinit q_readers]. destruct (nth_error (repeat RIdle n) k) eqn:E; [|reflexivity]. apply nth_error_In, repeat_spec in E. subst. reflexivity. }
  rewrite Z in X. assert (pend (m_q s) k <= 1)%nat by (unfold pend; destruct (nth_error _ _) as [[]|]; lia). lia.
Qed.

(** ** What arrived, and a message that is stolen *)

Theorem shared_packets r es tk q : shared r es tk q -> Forall steady es ->
  exists mss, Forall2 (fun d ms => packet_messages d = Ok ms) (concat (map mpackets es)) mss /\ map message tk ++ q = concat mss.
Proof.
  induction 1 as [|es tk q d ms Sh IH P|es tk q e i tk' q' Sh IH Me -> Fk|es tk q e Sh IH Me Np]; intros F.
  - exists []. split; [constructor|reflexivity].
  - apply Forall_app in F as [F _]. destruct (IH F) as (mss & E1 & E2). exists (mss ++ [ms]). rewrite map_app, !concat_app. cbn [map concat mpackets app].
    split; [apply Forall2_app; [exact E1|constructor; [exact P|constructor]]|]. rewrite app_nil_r, app_assoc, E2. reflexivity.
  - apply Forall_app in F as [F _]. destruct (IH F) as (mss & E1 & E2). exists mss. rewrite !map_app, concat_app, <- app_assoc.
    assert (X : concat (map mpackets [e]) = []) by (destruct e; cbn in Me; try discriminate; reflexivity). rewrite X, app_nil_r. auto.
  - apply Forall_app in F as [F _]. destruct (IH F) as (mss & E1 & E2). exists mss. rewrite map_app, concat_app.
    assert (X : concat (map mpackets [e]) = []) by (destruct e; cbn in Me; try discriminate; try reflexivity; exfalso; eapply Np; reflexivity). rewrite X, app_nil_r. auto.
Qed.

Theorem stolen v r d m more s : v < 13 -> packet_messages d = Ok [m] -> Forall steady more ->
  mrun v (minit 2 r) ([MRead 1; MLoop 0; MPacket d] ++ more) = Some s ->
  (exists s1, mrun v (minit 2 r) [MRead 1; MLoop 0; MPacket d; MRun 1] = Some s1 /\
     nth_error (m_job s1) 0 = Some JLoop /\ m_started s1 = [] /\ m_ended s1 = [(1%nat, OMessage m)]) /\
  (forall rest, more = MRun 1 :: rest -> exists tk tss, shared r ([MRead 1; MLoop 0; MPacket d] ++ more) (ByRead 1 m :: tk) (c_queue (q_conn (m_q s))) /\
     m_started s = concat tss /\ Forall2 (handled (m_items s)) (events tk) tss).
Proof.
  intros Hv P F R.
  assert (D : deliver fresh d = {| c_queue := [m]; c_open := true |}) by (unfold deliver; cbn [fresh c_open]; rewrite (DispatchThms2.received _ _ _ P); reflexivity).
  set (s1 := {| m_session := Event; m_closed := false; m_q := {| q_conn := {| c_queue := []; c_open := true |}; q_getters := [0%nat]; q_readers := [RWait; RIdle]; q_out := [(1%nat, m)] |};
    m_job := [JLoop; JNone]; m_items := []; m_reg := r; m_started := []; m_ended := [(1%nat, OMessage m)] |}).
  assert (R1 : mrun v (minit 2 r) [MRead 1; MLoop 0; MPacket d; MRun 1] = Some s1).
  { cbn -[deliver]. change (deliver fresh d) with (deliver fresh d). rewrite D. reflexivity. }
  split.
  - exists s1. split; [exact R1|]. repeat split.
  - intros rest ->.
    assert (St : Forall steady [MRead 1; MLoop 0; MPacket d; MRun 1]) by (repeat constructor; eexists; exact P).
    assert (I1 : minv r s1 [MRead 1; MLoop 0; MPacket d; MRun 1] [ByRead 1 m]).
    { destruct (minv_run v r _ Hv _ _ _ _ (minv_init r 2) St R1) as (tk & I). cbn [app] in I.
      pose proof (co_ends _ _ (mi_core _ _ _ _ I)) as X. destruct (shared_packets _ _ _ _ (mi_shared _ _ _ _ I) St) as (mss & Fp & E).
      cbn [s1 m_q q_conn c_queue] in E. cbn in Fp. inversion Fp as [|? ms ? mss' Pm Fp']; subst. inversion Fp'; subst. rewrite P in Pm. injection Pm as <-. cbn in E. rewrite app_nil_r in E.
      destruct tk as [|t [|? ?]]; try discriminate. destruct t as [i r' m'|i m']; cbn [map message] in E; injection E as ->.
      - cbn [s1 m_ended] in X. inversion X as [|? ? ? ? ? A B E1 E2|? ? ? ? ? ? A B E1 E2|? ? ? ? A E1 E2|? ? ? A E1 E2].
        + apply app_eq_unit in E1 as [[-> Y]|[_ Y]]; [|discriminate]. subst. inversion A as [|? ? ? ? ? ? ? Z|? ? ? ? ? ? ? ? Z|? ? ? ? ? Z|? ? ? A' Z1 Z2]; try (symmetry in Z; apply app_eq_nil in Z as [_ Z]; discriminate Z); try (destruct tk; discriminate).
          all: try (apply app_eq_unit in Z2 as [[_ Y2]|[_ Y2]]; discriminate Y2).
        + apply app_eq_unit in E2 as [[_ Y]|[_ Y]]; discriminate Y.
        + apply app_eq_unit in E1 as [[_ Y]|[_ Y]]; discriminate Y.
        + apply app_eq_unit in E2 as [[_ Y]|[_ Y]]; discriminate Y.
      - cbn [s1 m_ended] in X. inversion X as [|? ? ? ? ? A B E1 E2|? ? ? ? ? ? A B E1 E2|? ? ? ? A E1 E2|? ? ? A E1 E2].
        + apply app_eq_unit in E1 as [[_ Y]|[_ Y]]; discriminate Y.
        + apply app_eq_unit in E1 as [[_ Y]|[_ Y]]; discriminate Y.
        + apply app_eq_unit in E2 as [[_ Y]|[_ Y]]; [|discriminate Y]. injection Y as -> ->. apply app_eq_unit in E1 as [[_ Y]|[_ Y]]; [|discriminate Y]. injection Y as <-. exact I.
        + apply app_eq_unit in E2 as [[_ Y]|[_ Y]]; discriminate Y. }
    change ([MRead 1; MLoop 0; MPacket d] ++ MRun 1 :: rest) with ([MRead 1; MLoop 0; MPacket d; MRun 1] ++ rest) in *.
    inversion F as [|? ? _ F2]; subst.
    assert (R2 : mrun v s1 rest = Some s).
    { clear - R R1. revert R R1. generalize [MRead 1; MLoop 0; MPacket d; MRun 1] as a, (minit 2 r) as u. induction a as [|e a IH]; intros u R R1; cbn [mrun app] in *; [injection R1 as <-; exact R|].
      destruct (mstep v u e) as [u1|]; [|discriminate]. eapply IH; eassumption. }
    destruct (minv_run v r rest Hv _ _ _ _ I1 F2 R2) as (tk & I2). pose proof (co_tasks _ _ (mi_core _ _ _ _ I2)) as (tss & E1 & E2).
    exists tk, tss. split; [exact (mi_shared _ _ _ _ I2)|]. split; [exact E1|]. exact E2.
Qed.
