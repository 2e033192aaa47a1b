(** * Theorems about the readers of the queue *)
From Coq Require Import String List NArith ZArith Bool Lia.
From Verif Require Import PyStr Regex Tags Messages Protocol SpecProto ProtoThms Queue.
Import ListNotations.
Open Scope list_scope.

Definition rstat_eqb (a b : rstat) : bool :=
  match a, b with
  | RIdle, RIdle | RWait, RWait | RWoken, RWoken | RWokenC, RWokenC | RCancel, RCancel => true
  | _, _ => false
  end.

Fixpoint cnt (x : rstat) (l : list rstat) : nat :=
  match l with [] => O | y :: r => ((if rstat_eqb x y then 1 else 0) + cnt x r)%nat end.

Definition b2n (b : bool) : nat := if b then 1%nat else 0%nat.

Lemma setnth_length {A} i (x : A) l : length (setnth i x l) = length l.
Proof. revert i. induction l as [|y l IH]; intros [|i]; cbn; auto. Qed.

Lemma setnth_same {A} i (x : A) l : (i < length l)%nat -> nth_error (setnth i x l) i = Some x.
Proof. revert i. induction l as [|y l IH]; intros [|i] H; cbn in *; try lia; [reflexivity|]. apply IH. lia. Qed.

Lemma setnth_other {A} i j (x : A) l : i <> j -> nth_error (setnth i x l) j = nth_error l j.
Proof. revert i j. induction l as [|y l IH]; intros [|i] [|j] H; cbn; try reflexivity; try congruence. apply IH. congruence. Qed.

Lemma cnt_setnth x i y z l :
  nth_error l i = Some z ->
  (cnt x (setnth i y l) + b2n (rstat_eqb x z) = cnt x l + b2n (rstat_eqb x y))%nat.
Proof.
  revert i. induction l as [|a l IH]; intros [|i] H; cbn in *; try discriminate.
  - injection H as ->. unfold b2n. destruct (rstat_eqb x y), (rstat_eqb x z); lia.
  - specialize (IH i H). lia.
Qed.

Lemma cnt_pos x l : (0 < cnt x l)%nat <-> exists i, nth_error l i = Some x.
Proof.
  induction l as [|a l IH]; cbn.
  - split; [lia|]. intros (i & H). destruct i; discriminate.
  - destruct (rstat_eqb x a) eqn:E; cbn.
    + split; [|lia]. intros _. exists O. destruct x, a; try discriminate; reflexivity.
    + rewrite IH. split.
      * intros (i & H). exists (S i). exact H.
      * intros ([|i] & H); [|exists i; exact H]. injection H as ->. destruct x; discriminate.
Qed.

Definition sched (rs : list rstat) : nat := (cnt RWoken rs + cnt RWokenC rs)%nat.

(** ** Waking one getter *)

(** Every waiting reader has its getter in the queue's list, every getter in it
    belongs to a reader still suspended, and none is there twice. *)
Definition getters_ok (gs : list nat) (rs : list rstat) : Prop :=
  NoDup gs /\ (forall i, nth_error rs i = Some RWait -> In i gs) /\
  (forall i, In i gs -> nth_error rs i = Some RWait \/ nth_error rs i = Some RCancel).

(** The same for a suffix of the list: only the waiting ones matter. *)
Lemma wakeup_spec gs rs :
  getters_ok gs rs ->
  let '(gs', rs') := wakeup gs rs in
  NoDup gs' /\ incl gs' gs /\
  length rs' = length rs /\
  (forall i, nth_error rs' i = Some RWait -> In i gs') /\
  (forall i, In i gs' -> nth_error rs' i = Some RWait \/ nth_error rs' i = Some RCancel) /\
  cnt RWokenC rs' = cnt RWokenC rs /\ cnt RCancel rs' = cnt RCancel rs /\ cnt RIdle rs' = cnt RIdle rs /\
  (cnt RWait rs = 0%nat /\ rs' = rs \/
   cnt RWait rs = S (cnt RWait rs') /\ cnt RWoken rs' = S (cnt RWoken rs)).
Proof.
  revert rs. induction gs as [|g gs IH]; intros rs (ND & H1 & H2); cbn [wakeup].
  - assert (Z : cnt RWait rs = 0%nat).
    { destruct (cnt RWait rs) eqn:E; [reflexivity|]. exfalso.
      assert (X : (0 < cnt RWait rs)%nat) by lia. apply cnt_pos in X as (i & X). exact (H1 i X). }
    repeat split; auto; try (intros ? []; fail).
  - inversion ND as [|? ? Ng ND']; subst.
    destruct (H2 g (or_introl eq_refl)) as [Hg|Hg]; rewrite Hg.
    + assert (Lg : (g < length rs)%nat) by (apply nth_error_Some; congruence).
      pose proof (fun x => cnt_setnth x g RWoken RWait rs Hg) as C.
      pose proof (C RWait) as Cw. pose proof (C RWoken) as Ck. pose proof (C RWokenC) as Cc.
      pose proof (C RCancel) as Ca. pose proof (C RIdle) as Ci. cbn in Cw, Ck, Cc, Ca, Ci.
      split; [exact ND'|]. split; [apply incl_tl, incl_refl|]. split; [apply setnth_length|]. split.
      { intros i Hi. destruct (Nat.eq_dec g i) as [<-|N].
        - rewrite setnth_same in Hi by exact Lg. discriminate.
        - rewrite setnth_other in Hi by exact N. destruct (H1 i Hi) as [E|E]; [congruence|exact E]. }
      split.
      { intros i Hi. destruct (Nat.eq_dec g i) as [<-|N]; [contradiction|].
        rewrite setnth_other by exact N. apply H2. right. exact Hi. }
      split; [lia|]. split; [lia|]. split; [lia|]. right. split; lia.
    + assert (OK : getters_ok gs rs).
      { split; [exact ND'|]. split.
        - intros i Hi. destruct (H1 i Hi) as [E|E]; [congruence|exact E].
        - intros i Hi. apply H2. right. exact Hi. }
      specialize (IH rs OK). destruct (wakeup gs rs) as [gs' rs'].
      destruct IH as (A & B & L & D & E & F). split; [exact A|]. split; [apply incl_tl, B|]. repeat split; auto; apply F.
Qed.

Lemma wakeup_ok gs rs :
  getters_ok gs rs -> getters_ok (fst (wakeup gs rs)) (snd (wakeup gs rs)).
Proof.
  intros H. pose proof (wakeup_spec gs rs H) as W. destruct (wakeup gs rs) as [gs' rs'].
  destruct W as (A & _ & _ & B & C & _). repeat split; auto.
Qed.

Lemma wakeups_spec n gs rs :
  getters_ok gs rs ->
  let '(gs', rs') := wakeups n gs rs in
  getters_ok gs' rs' /\ length rs' = length rs /\
  cnt RWokenC rs' = cnt RWokenC rs /\ cnt RCancel rs' = cnt RCancel rs /\ cnt RIdle rs' = cnt RIdle rs /\
  (cnt RWait rs' = 0%nat \/ cnt RWoken rs' = (n + cnt RWoken rs)%nat) /\
  (cnt RWait rs' + cnt RWoken rs' = cnt RWait rs + cnt RWoken rs)%nat.
Proof.
  revert gs rs. induction n as [|n IH]; intros gs rs H; cbn [wakeups].
  - repeat split; try apply H. right. reflexivity.
  - pose proof (wakeup_spec gs rs H) as W. pose proof (wakeup_ok gs rs H) as W'.
    destruct (wakeup gs rs) as [gs1 rs1]. cbn [fst snd] in W'. specialize (IH gs1 rs1 W').
    destruct (wakeups n gs1 rs1) as [gs2 rs2].
    destruct IH as (OK & L & A & B & C & D & E). destruct W as (_ & _ & L' & _ & _ & A' & B' & C' & D').
    split; [exact OK|]. split; [lia|]. split; [lia|]. split; [lia|]. split; [lia|].
    destruct D' as [[Z ->]|[D1 D2]].
    + split; [|lia]. left. lia.
    + split; [|lia]. destruct D as [D|D]; [left; exact D|right; lia].
Qed.

(** ** Messages are never lost, duplicated or reordered *)

Definition packets_of (es : list qevent) : list (list N) :=
  concat (map (fun e => match e with EPacket d => [d] | _ => [] end) es).

Lemma deliver_queue c q d :
  deliver {| c_queue := q ++ c_queue c; c_open := c_open c |} d
  = {| c_queue := q ++ c_queue (deliver c d); c_open := c_open (deliver c d) |}.
Proof.
  destruct c as [q0 o]. unfold deliver. cbn [c_open c_queue]. destruct o; [|reflexivity].
  unfold data_received. destruct (packet_messages d) as [ms|e]; [|reflexivity].
  rewrite !fold_app. cbn [c_queue c_open]. rewrite app_assoc. reflexivity.
Qed.

Lemma try_get_log i s :
  map snd (q_out (try_get i s)) ++ c_queue (q_conn (try_get i s)) = map snd (q_out s) ++ c_queue (q_conn s) /\
  c_open (q_conn (try_get i s)) = c_open (q_conn s).
Proof.
  unfold try_get. destruct (c_queue (q_conn s)) as [|m q] eqn:E; cbn.
  - rewrite E. auto.
  - rewrite map_app, <- app_assoc. auto.
Qed.

Definition log_ok (s : qstate) (ps : list (list N)) : Prop :=
  feed fresh ps = {| c_queue := map snd (q_out s) ++ c_queue (q_conn s); c_open := c_open (q_conn s) |}.

Lemma qstep_log s e s' ps :
  log_ok s ps -> qstep s e = Some s' -> log_ok s' (ps ++ packets_of [e]).
Proof.
  unfold log_ok. intros H S. destruct e as [d|i|i|i]; cbn [packets_of map concat app] in *; rewrite ?app_nil_r.
  - cbn [qstep] in S. destruct (wakeups _ _ _) as [gs rs]. injection S as <-. cbn [q_conn q_out].
    rewrite feed_app, H. unfold feed. cbn [fold_left]. apply deliver_queue.
  - cbn [qstep] in S. destruct (nth_error _ _) as [[]|]; try discriminate. injection S as <-.
    destruct (try_get_log i s) as [-> ->]. exact H.
  - cbn [qstep] in S. destruct (nth_error _ _) as [[]|]; try discriminate.
    + injection S as <-. destruct (try_get_log i s) as [-> ->]. exact H.
    + destruct (match c_queue (q_conn s) with [] => _ | _ :: _ => _ end) as [gs rs]. injection S as <-. exact H.
    + injection S as <-. exact H.
  - cbn [qstep] in S. destruct (nth_error _ _) as [[]|]; try discriminate; injection S as <-; exact H.
Qed.

Lemma packets_of_cons e es : packets_of (e :: es) = packets_of [e] ++ packets_of es.
Proof. unfold packets_of. cbn [map concat]. rewrite app_nil_r. reflexivity. Qed.

Lemma qrun_log s es s' ps :
  log_ok s ps -> qrun s es = Some s' -> log_ok s' (ps ++ packets_of es).
Proof.
  revert s ps. induction es as [|e es IH]; cbn [qrun]; intros s ps H R.
  - injection R as <-. unfold packets_of. cbn. rewrite app_nil_r. exact H.
  - destruct (qstep s e) as [s1|] eqn:S; [|discriminate].
    rewrite packets_of_cons, app_assoc. eapply IH; [|exact R]. eapply qstep_log; eauto.
Qed.

Theorem fifo n es s :
  qrun (qinit n) es = Some s ->
  map snd (q_out s) ++ c_queue (q_conn s) = c_queue (feed fresh (packets_of es)).
Proof.
  intros R. pose proof (qrun_log (qinit n) es s [] eq_refl R) as H. unfold log_ok in H. cbn [app] in H.
  rewrite H. reflexivity.
Qed.

(** ** No lost wake-up *)

Definition qinv (s : qstate) : Prop :=
  getters_ok (q_getters s) (q_readers s) /\
  ((0 < cnt RWait (q_readers s))%nat -> (length (c_queue (q_conn s)) <= sched (q_readers s))%nat).

Lemma cnt_repeat x n : x <> RIdle -> cnt x (repeat RIdle n) = 0%nat.
Proof. intros N. induction n as [|n IH]; [reflexivity|]. cbn. rewrite IH. destruct x; try reflexivity. congruence. Qed.

Lemma qinv_init n : qinv (qinit n).
Proof.
  split.
  - split; [constructor|]. split; [|intros i []]. cbn. intros i H.
    assert (X : (0 < cnt RWait (repeat RIdle n))%nat) by (apply cnt_pos; eauto).
    rewrite cnt_repeat in X by discriminate. lia.
  - cbn. intros X. rewrite cnt_repeat in X by discriminate. lia.
Qed.

Lemma deliver_length c d : (length (c_queue c) <= length (c_queue (deliver c d)))%nat.
Proof.
  destruct c as [q o]. unfold deliver. cbn [c_open c_queue]. destruct o; [|cbn; lia].
  unfold data_received. destruct (packet_messages d); [|cbn; lia].
  rewrite fold_app. cbn [c_queue]. rewrite app_length. lia.
Qed.

Ltac counts i y z rs H :=
  let C := fresh "C" in
  pose proof (fun x => cnt_setnth x i y z rs H) as C;
  pose proof (C RWait); pose proof (C RWoken); pose proof (C RWokenC); pose proof (C RCancel); pose proof (C RIdle);
  clear C; unfold b2n in *; cbn [rstat_eqb] in *.

Lemma getters_ok_leave gs rs i z :
  getters_ok gs rs -> nth_error rs i = Some z -> z <> RWait -> z <> RCancel ->
  ~ In i gs.
Proof. intros (_ & _ & H) E N1 N2 X. destruct (H i X); congruence. Qed.

Lemma getters_ok_set gs rs i x :
  getters_ok gs rs -> ~ In i gs -> x <> RWait -> getters_ok gs (setnth i x rs).
Proof.
  intros (ND & H1 & H2) N X. split; [exact ND|]. split.
  - intros j Hj. destruct (Nat.eq_dec i j) as [<-|E].
    + destruct (Nat.lt_ge_cases i (length rs)) as [L|L].
      * rewrite setnth_same in Hj by exact L. congruence.
      * assert (Y : nth_error (setnth i x rs) i = None) by (apply nth_error_None; rewrite setnth_length; exact L). congruence.
    + rewrite setnth_other in Hj by exact E. auto.
  - intros j Hj. destruct (Nat.eq_dec i j) as [<-|E]; [contradiction|]. rewrite setnth_other by exact E. auto.
Qed.

Lemma getters_ok_remove gs rs i :
  getters_ok gs rs -> nth_error rs i <> Some RWait ->
  ~ In i (remove_getter i gs) /\ getters_ok (remove_getter i gs) rs.
Proof.
  intros (ND & H1 & H2) N. unfold remove_getter. split.
  - intros X. apply filter_In in X as [_ X]. rewrite Nat.eqb_refl in X. discriminate.
  - split; [apply NoDup_filter, ND|]. split.
    + intros j Hj. apply filter_In. split; [auto|]. destruct (Nat.eqb_spec j i); [congruence|reflexivity].
    + intros j Hj. apply filter_In in Hj as [Hj _]. auto.
Qed.

Lemma try_get_inv i z s :
  qinv s -> nth_error (q_readers s) i = Some z -> z = RIdle \/ z = RWoken -> qinv (try_get i s).
Proof.
  intros [G Q] H Z.
  assert (L : (i < length (q_readers s))%nat) by (apply nth_error_Some; congruence).
  assert (NI : ~ In i (q_getters s)) by (eapply getters_ok_leave; eauto; destruct Z; congruence).
  unfold try_get. destruct (c_queue (q_conn s)) as [|m q] eqn:E.
  - split; cbn [q_getters q_readers q_conn c_queue].
    + destruct G as (ND & H1 & H2). split.
      { rewrite <- (rev_involutive (q_getters s)). change [i] with (rev [i]). rewrite <- rev_app_distr.
        apply NoDup_rev. cbn [app]. constructor; [rewrite <- in_rev; exact NI|apply NoDup_rev, ND]. }
      split.
      * intros j Hj. apply in_or_app. destruct (Nat.eq_dec i j) as [<-|N]; [right; left; reflexivity|].
        rewrite setnth_other in Hj by exact N. left. auto.
      * intros j Hj. apply in_app_or in Hj as [Hj|[<-|[]]].
        -- destruct (Nat.eq_dec i j) as [<-|N]; [contradiction|]. rewrite setnth_other by exact N. auto.
        -- left. apply setnth_same, L.
    + rewrite E. cbn. lia.
  - split; cbn [q_getters q_readers q_conn c_queue].
    + apply getters_ok_set; [exact G|exact NI|discriminate].
    + counts i RIdle z (q_readers s) H. cbn [length] in Q. unfold sched in *.
      destruct Z as [-> | ->]; cbn [rstat_eqb] in *; intros X; lia.
Qed.

Lemma qstep_inv s e s' : qinv s -> qstep s e = Some s' -> qinv s'.
Proof.
  intros I S. destruct e as [d|i|i|i]; cbn [qstep] in S.
  - destruct I as [G Q].
    pose proof (wakeups_spec (length (c_queue (deliver (q_conn s) d)) - length (c_queue (q_conn s))) _ _ G) as W.
    destruct (wakeups _ _ _) as [gs rs]. injection S as <-.
    destruct W as (OK & L & A & B & C & D & E). split; [exact OK|]. cbn [q_readers q_conn].
    intros X. destruct D as [D|D]; [lia|]. pose proof (deliver_length (q_conn s) d) as DL. unfold sched in *.
    assert (Y : (0 < cnt RWait (q_readers s))%nat) by lia. specialize (Q Y). lia.
  - destruct (nth_error _ _) as [[]|] eqn:H; try discriminate. injection S as <-. eapply try_get_inv; eauto.
  - destruct (nth_error _ _) as [[]|] eqn:H; try discriminate.
    + injection S as <-. eapply try_get_inv; eauto.
    + destruct I as [G Q].
      destruct (getters_ok_remove _ _ i G) as [NI G']; [congruence|].
      assert (G2 : getters_ok (remove_getter i (q_getters s)) (setnth i RIdle (q_readers s)))
        by (apply getters_ok_set; [exact G'|exact NI|discriminate]).
      counts i RIdle RWokenC (q_readers s) H.
      destruct (c_queue (q_conn s)) as [|m q] eqn:E.
      * injection S as <-. split; [exact G2|]. cbn [q_conn q_readers]. rewrite E. cbn. lia.
      * pose proof (wakeup_spec _ _ G2) as W. pose proof (wakeup_ok _ _ G2) as W2.
        destruct (wakeup _ _) as [gs rs]. injection S as <-. split; [exact W2|].
        cbn [q_conn q_readers]. rewrite E. destruct W as (_ & _ & _ & _ & _ & A & B & C & D). unfold sched in *.
        intros X. destruct D as [[D ->]|[D1 D2]]; [lia|].
        assert (Y : (0 < cnt RWait (q_readers s))%nat) by lia. specialize (Q Y). lia.
    + injection S as <-. destruct I as [G Q].
      destruct (getters_ok_remove _ _ i G) as [NI G']; [congruence|].
      split; cbn [q_conn q_readers q_getters].
      * apply getters_ok_set; [exact G'|exact NI|discriminate].
      * counts i RIdle RCancel (q_readers s) H. unfold sched in *. intros X.
        assert (Y : (0 < cnt RWait (q_readers s))%nat) by lia. specialize (Q Y). lia.
  - destruct (nth_error _ _) as [[]|] eqn:H; try discriminate; injection S as <-; destruct I as [G Q].
    + assert (L : (i < length (q_readers s))%nat) by (apply nth_error_Some; congruence).
      split; cbn [q_conn q_readers q_getters].
      * destruct G as (ND & H1 & H2). split; [exact ND|]. split.
        -- intros j Hj. destruct (Nat.eq_dec i j) as [<-|N].
           ++ rewrite setnth_same in Hj by exact L. discriminate.
           ++ rewrite setnth_other in Hj by exact N. auto.
        -- intros j Hj. destruct (Nat.eq_dec i j) as [<-|N].
           ++ right. apply setnth_same, L.
           ++ rewrite setnth_other by exact N. auto.
      * counts i RCancel RWait (q_readers s) H. unfold sched in *. intros X.
        assert (Y : (0 < cnt RWait (q_readers s))%nat) by lia. specialize (Q Y). lia.
    + split; cbn [q_conn q_readers q_getters].
      * apply getters_ok_set; [exact G| |discriminate]. eapply getters_ok_leave; eauto; discriminate.
      * counts i RWokenC RWoken (q_readers s) H. unfold sched in *. intros X.
        assert (Y : (0 < cnt RWait (q_readers s))%nat) by lia. specialize (Q Y). lia.
Qed.

Lemma qrun_inv s es s' : qinv s -> qrun s es = Some s' -> qinv s'.
Proof.
  revert s. induction es as [|e es IH]; cbn [qrun]; intros s I R; [injection R as <-; exact I|].
  destruct (qstep s e) as [s1|] eqn:S; [|discriminate]. eapply IH; [|exact R]. eapply qstep_inv; eauto.
Qed.

Theorem no_lost_wakeup n es s :
  qrun (qinit n) es = Some s ->
  (exists i, nth_error (q_readers s) i = Some RWait) -> c_queue (q_conn s) <> [] ->
  exists j, nth_error (q_readers s) j = Some RWoken \/ nth_error (q_readers s) j = Some RWokenC.
Proof.
  intros R W N. pose proof (qrun_inv _ _ _ (qinv_init n) R) as [_ Q].
  apply cnt_pos in W. specialize (Q W). destruct (c_queue (q_conn s)); [congruence|]. cbn [length] in Q.
  unfold sched in Q. assert (X : (0 < cnt RWoken (q_readers s) \/ 0 < cnt RWokenC (q_readers s))%nat) by lia.
  destruct X as [X|X]; apply cnt_pos in X as (j & X); eauto.
Qed.

Theorem enough_wakeups n es s :
  qrun (qinit n) es = Some s ->
  (exists i, nth_error (q_readers s) i = Some RWait) ->
  (length (c_queue (q_conn s)) <= sched (q_readers s))%nat.
Proof. intros R W. pose proof (qrun_inv _ _ _ (qinv_init n) R) as [_ Q]. apply Q, cnt_pos, W. Qed.

(** ** Letting the event loop run *)

Definition work (s : qstate) : nat :=
  (2 * cnt RWokenC (q_readers s) + cnt RWoken (q_readers s) + cnt RCancel (q_readers s))%nat.

Lemma run_decreases s i s' : qinv s -> qstep s (ERun i) = Some s' -> (work s' < work s)%nat.
Proof.
  intros [G Q] S. cbn [qstep] in S. destruct (nth_error _ _) as [[]|] eqn:H; try discriminate.
  - injection S as <-. unfold try_get, work. destruct (c_queue (q_conn s)); cbn [q_readers].
    + counts i RWait RWoken (q_readers s) H. lia.
    + counts i RIdle RWoken (q_readers s) H. lia.
  - destruct (getters_ok_remove _ _ i G) as [NI G']; [congruence|].
    assert (G2 : getters_ok (remove_getter i (q_getters s)) (setnth i RIdle (q_readers s)))
      by (apply getters_ok_set; [exact G'|exact NI|discriminate]).
    counts i RIdle RWokenC (q_readers s) H. unfold work.
    destruct (c_queue (q_conn s)) as [|m q] eqn:E.
    + injection S as <-. cbn [q_readers]. lia.
    + pose proof (wakeup_spec _ _ G2) as W. destruct (wakeup _ _) as [gs rs]. injection S as <-. cbn [q_readers].
      destruct W as (_ & _ & _ & _ & _ & A & B & C & D). destruct D as [[D ->]|[D1 D2]]; lia.
  - injection S as <-. counts i RIdle RCancel (q_readers s) H. unfold work. cbn [q_readers]. lia.
Qed.

Lemma runs_bounded s js s' :
  qinv s -> qrun s (map ERun js) = Some s' -> (length js + work s' <= work s)%nat.
Proof.
  revert s. induction js as [|j js IH]; cbn [qrun map length]; intros s I R; [injection R as <-; lia|].
  destruct (qstep s (ERun j)) as [s1|] eqn:S; [|discriminate].
  pose proof (run_decreases _ _ _ I S). pose proof (qstep_inv _ _ _ I S) as I1. specialize (IH s1 I1 R). lia.
Qed.

Definition quiescent (s : qstate) : Prop := forall i, qstep s (ERun i) = None.

Lemma quiescent_work s : quiescent s -> sched (q_readers s) = 0%nat.
Proof.
  intros Q. unfold sched. destruct (cnt RWoken (q_readers s)) eqn:E1.
  - destruct (cnt RWokenC (q_readers s)) eqn:E2; [reflexivity|]. exfalso.
    assert (X : (0 < cnt RWokenC (q_readers s))%nat) by lia. apply cnt_pos in X as (i & X). specialize (Q i).
    cbn [qstep] in Q. rewrite X in Q. destruct (match c_queue (q_conn s) with [] => _ | _ :: _ => _ end). discriminate.
  - exfalso. assert (X : (0 < cnt RWoken (q_readers s))%nat) by lia. apply cnt_pos in X as (i & X). specialize (Q i).
    cbn [qstep] in Q. rewrite X in Q. discriminate.
Qed.

(** Whatever the event loop runs first, after at most [work s] scheduled steps
    nothing is left to run, and then there are no messages or no waiting reader. *)
Theorem eventually_served n es s :
  qrun (qinit n) es = Some s ->
  (forall js s', qrun s (map ERun js) = Some s' -> (length js <= work s)%nat) /\
  (forall js s', qrun s (map ERun js) = Some s' -> quiescent s' ->
     c_queue (q_conn s') = [] \/ forall i, nth_error (q_readers s') i <> Some RWait).
Proof.
  intros R. pose proof (qrun_inv _ _ _ (qinv_init n) R) as I. split.
  - intros js s' R'. pose proof (runs_bounded _ _ _ I R'). lia.
  - intros js s' R' Q. pose proof (qrun_inv _ _ _ I R') as [_ I'].
    destruct (c_queue (q_conn s')) as [|m q] eqn:E; [auto|]. right. intros i Hi.
    assert (X : (0 < cnt RWait (q_readers s'))%nat) by (apply cnt_pos; eauto). specialize (I' X).
    cbn [length] in I'. rewrite quiescent_work in I' by exact Q. lia.
Qed.
