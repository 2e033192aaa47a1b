(** * loop() on a client that is started again: more proofs *)
From Coq Require Import String List NArith ZArith Bool Lia.
From Verif Require Import PyStr Tags Messages SpecMsg MessageThms MessageThms2 Protocol Queue QueueThms IO Client Items Dispatch SpecDispatch DispatchThms DispatchThms2
  SpecLoop LoopThms SingleThms Loops LoopsThms Anew SpecAnew AnewThms.
Import ListNotations.
Open Scope N_scope.
Open Scope list_scope.

(** ** The readers of each connection *)

Record rinv (s : again) : Prop := {
  ri_q : forall k q, nth_error (a_qs s) k = Some q -> qinv q /\ length (q_readers q) = length (a_at s);
  ri_at : forall i k q x, nth_error (a_qs s) k = Some q -> nth_error (q_readers q) i = Some x -> (x <> RIdle <-> nth_error (a_at s) i = Some (Some k));
  ri_there : forall i k, nth_error (a_at s) i = Some (Some k) -> (k < length (a_qs s))%nat;
  ri_cur : forall k, a_cur s = Some k -> (k < length (a_qs s))%nat }.

(** The same but for task [i], which is about to call get() on [k] or to go on there. *)
Record pre (i k : nat) (s : again) : Prop := {
  pr_q : forall k q, nth_error (a_qs s) k = Some q -> qinv q /\ length (q_readers q) = length (a_at s);
  pr_at : forall j k q x, j <> i -> nth_error (a_qs s) k = Some q -> nth_error (q_readers q) j = Some x -> (x <> RIdle <-> nth_error (a_at s) j = Some (Some k));
  pr_there : forall j k, j <> i -> nth_error (a_at s) j = Some (Some k) -> (k < length (a_qs s))%nat;
  pr_cur : forall k, a_cur s = Some k -> (k < length (a_qs s))%nat;
  pr_i : (i < length (a_at s))%nat; pr_k : (k < length (a_qs s))%nat;
  pr_idle : forall k' q, nth_error (a_qs s) k' = Some q -> nth_error (q_readers q) i = Some RIdle \/ (k' = k /\ nth_error (q_readers q) i = Some RWoken) }.

Lemma list_sum_cons x l : list_sum (x :: l) = (x + list_sum l)%nat.
Proof. reflexivity. Qed.
Lemma sum_set k q' : forall l q, nth_error l k = Some q ->
  (length (c_queue (q_conn q')) + list_sum (map (fun q => length (c_queue (q_conn q))) l) = length (c_queue (q_conn q)) + list_sum (map (fun q => length (c_queue (q_conn q))) (setnth k q' l)))%nat.
Proof.
  induction k as [|k IH]; intros [|x l] q E; try discriminate; cbn [nth_error setnth map] in *; rewrite !list_sum_cons.
  - injection E as ->. lia.
  - specialize (IH l q E). lia.
Qed.

Lemma pre_next i k s q m ms its ts : pre i k s -> nth_error (a_qs s) k = Some q -> c_queue (q_conn q) = m :: ms ->
  forall k', (k' < length (a_qs s))%nat -> pre i k' (took k i m its ts (set_q k (try_get i q) s)).
Proof.
  intros P Q E k' L'. destruct P as [P1 P2 P3 P4 P5 P6 P7].
  destruct (P1 k q Q) as (Iq & Lq). destruct (P7 k q Q) as [R|(_ & R)].
  all: assert (It : qinv (try_get i q)) by (eapply try_get_inv; [exact Iq|exact R|auto]).
  all: assert (Rt : q_readers (try_get i q) = setnth i RIdle (q_readers q)) by (unfold try_get; rewrite E; reflexivity).
  all: split; cbn [took set_q a_qs a_at a_cur]; rewrite ?setnth_length; try assumption.
  1,4: intros k0 q0 E0; destruct (Nat.eq_dec k k0) as [<-|N]; [rewrite setnth_same in E0 by exact P6; assert (q0 = try_get i q) by congruence; subst q0; split; [exact It|rewrite Rt, setnth_length; exact Lq]|
    rewrite setnth_other in E0 by exact N; apply (P1 k0 q0 E0)].
  1,3: intros j k0 q0 x Nj E0 Rx; destruct (Nat.eq_dec k k0) as [<-|N]; [rewrite setnth_same in E0 by exact P6; assert (q0 = try_get i q) by congruence; subst q0; rewrite Rt, setnth_other in Rx by congruence;
    apply (P2 j k q x Nj Q Rx)|rewrite setnth_other in E0 by exact N; apply (P2 j k0 q0 x Nj E0 Rx)].
  all: intros k0 q0 E0; left; destruct (Nat.eq_dec k k0) as [<-|N]; [rewrite setnth_same in E0 by exact P6; assert (q0 = try_get i q) by congruence; subst q0; rewrite Rt; apply setnth_same; rewrite Lq; exact P5|
    rewrite setnth_other in E0 by exact N; destruct (P7 k0 q0 E0) as [X|(-> & _)]; [exact X|contradiction]].
Qed.

(** A task which has left is nowhere. *)
Lemma pre_leave i s o : (forall k', (k' < length (a_qs s))%nat -> pre i k' s) -> (0 < length (a_qs s))%nat -> (forall k' q, nth_error (a_qs s) k' = Some q -> nth_error (q_readers q) i = Some RIdle) -> rinv (leave i o s).
Proof.
  intros P L Id. destruct (P 0%nat L) as [P1 P2 P3 P4 P5 P6 P7]. split; cbn [leave a_qs a_at a_cur]; rewrite ?setnth_length; try assumption.
  - intros j k q x Q R. destruct (Nat.eq_dec i j) as [<-|N].
    + rewrite setnth_same by exact P5. rewrite (Id k q Q) in R. assert (x = RIdle) by congruence. subst x. split; [contradiction|discriminate].
    + rewrite setnth_other by exact N. apply (P2 j k q x); congruence.
  - intros j k H. destruct (Nat.eq_dec i j) as [<-|N]; [rewrite setnth_same in H by exact P5; discriminate|]. rewrite setnth_other in H by exact N. apply (P3 j k); congruence.
Qed.

Lemma go_rinv v fuel i : forall k s, pre i k s -> (pending s < fuel)%nat -> rinv (go v fuel i k s).
Proof.
  induction fuel as [|fuel IH]; intros k s P F; [lia|]. cbn [go]. destruct (nth_error (a_qs s) k) as [q|] eqn:Q; [|apply nth_error_None in Q; pose proof (pr_k _ _ _ P); lia].
  destruct (c_queue (q_conn q)) as [|m ms] eqn:E.
  - destruct P as [P1 P2 P3 P4 P5 P6 P7]. destruct (P1 k q Q) as (Iq & Lq).
    assert (It : qinv (try_get i q)) by (destruct (P7 k q Q) as [R|(_ & R)]; (eapply try_get_inv; [exact Iq|exact R|auto])).
    assert (Rt : q_readers (try_get i q) = setnth i RWait (q_readers q)) by (unfold try_get; rewrite E; reflexivity).
    split; cbn [set_at set_q a_qs a_at a_cur]; rewrite ?setnth_length; try assumption.
    + intros k0 q0 E0; destruct (Nat.eq_dec k k0) as [<-|N]; [rewrite setnth_same in E0 by exact P6; assert (q0 = try_get i q) by congruence; subst q0; split; [exact It|rewrite Rt, setnth_length; exact Lq]|
        rewrite setnth_other in E0 by exact N; apply (P1 k0 q0 E0)].
    + intros j k0 q0 x E0 Rx. destruct (Nat.eq_dec i j) as [<-|Nj].
      * rewrite setnth_same by exact P5. destruct (Nat.eq_dec k k0) as [<-|N].
        -- rewrite setnth_same in E0 by exact P6. assert (q0 = try_get i q) by congruence. subst q0. rewrite Rt, setnth_same in Rx by (rewrite Lq; exact P5).
           assert (x = RWait) by congruence. subst x. split; [reflexivity|discriminate].
        -- rewrite setnth_other in E0 by exact N. destruct (P7 k0 q0 E0) as [X|(-> & _)]; [|contradiction]. assert (x = RIdle) by congruence. subst x. split; [contradiction|congruence].
      * rewrite setnth_other by exact Nj. destruct (Nat.eq_dec k k0) as [<-|N].
        -- rewrite setnth_same in E0 by exact P6. assert (q0 = try_get i q) by congruence. subst q0. rewrite Rt, setnth_other in Rx by exact Nj. apply (P2 j k q x); [congruence|exact Q|exact Rx].
        -- rewrite setnth_other in E0 by exact N. apply (P2 j k0 q0 x); [congruence|exact E0|exact Rx].
    + intros j k0 H. destruct (Nat.eq_dec i j) as [<-|Nj]; [rewrite setnth_same in H by exact P5; assert (k0 = k) by congruence; subst k0; exact P6|].
      rewrite setnth_other in H by exact Nj. apply (P3 j k0); congruence.
  - destruct (handle v (a_reg s) (a_items s) m) as [[its ts] x]. set (s2 := took k i m its ts (set_q k (try_get i q) s)).
    assert (P2 : forall k', (k' < length (a_qs s))%nat -> pre i k' s2) by (apply (pre_next i k s q m ms its ts P Q E)).
    assert (L2 : length (a_qs s2) = length (a_qs s)) by (cbn; apply setnth_length).
    assert (Pk : (k < length (a_qs s))%nat) by apply (pr_k _ _ _ P).
    assert (Id : forall k' q, nth_error (a_qs s2) k' = Some q -> nth_error (q_readers q) i = Some RIdle).
    { intros k' q' E'. cbn in E'. destruct (Nat.eq_dec k k') as [<-|N].
      - rewrite setnth_same in E' by exact Pk. assert (q' = try_get i q) by congruence. subst q'. unfold try_get. rewrite E. cbn. apply setnth_same.
        destruct (pr_q _ _ _ P k q Q) as (_ & ->). apply (pr_i _ _ _ P).
      - rewrite setnth_other in E' by exact N. destruct (pr_idle _ _ _ P k' q' E') as [X|(-> & _)]; [exact X|contradiction]. }
    assert (LV : forall o, rinv (leave i o s2)) by (intros o; apply pre_leave; [rewrite L2; exact P2|lia|exact Id]).
    destruct x as [e|]; [apply LV|]. destruct (a_cur s) as [k'|] eqn:C; [|apply LV]. destruct (up s k') eqn:U; [|apply LV]. apply IH.
    + apply P2, (pr_cur _ _ _ P), C.
    + pose proof (sum_set k (try_get i q) (a_qs s) q Q) as Z. rewrite E, (try_get_cons i q m ms E) in Z. unfold pending in *. cbn [s2 took set_q a_qs c_queue length] in *. lia.
Qed.

Lemma rinv_same s s' : a_qs s' = a_qs s -> a_at s' = a_at s -> a_cur s' = a_cur s -> rinv s -> rinv s'.
Proof. intros E1 E2 E3 [R1 R2 R3 R4]. split; rewrite ?E1, ?E2, ?E3; assumption. Qed.

(** A connection changes, and who is idle there does not. *)
Lemma rinv_q k q q' c s : rinv s -> nth_error (a_qs s) k = Some q -> qinv q' -> length (q_readers q') = length (q_readers q) ->
  (forall j, nth_error (q_readers q') j = Some RIdle <-> nth_error (q_readers q) j = Some RIdle) -> (c = a_cur s \/ c = None) ->
  forall s', a_qs s' = setnth k q' (a_qs s) -> a_at s' = a_at s -> a_cur s' = c -> rinv s'.
Proof.
  intros [R1 R2 R3 R4] Q I' L' D C s' E1 E2 E3. assert (Lk : (k < length (a_qs s))%nat) by (apply nth_error_Some; congruence).
  split; rewrite ?E1, ?E2, ?E3, ?setnth_length; try assumption.
  - intros k0 q0 E0; destruct (Nat.eq_dec k k0) as [<-|N]; [rewrite setnth_same in E0 by exact Lk; assert (q0 = q') by congruence; subst q0; split; [exact I'|rewrite L'; apply (R1 k q Q)]|
      rewrite setnth_other in E0 by exact N; apply (R1 k0 q0 E0)].
  - intros j k0 q0 x E0 Rx. destruct (Nat.eq_dec k k0) as [<-|N].
    + rewrite setnth_same in E0 by exact Lk. assert (q0 = q') by congruence. subst q0.
      assert (exists y, nth_error (q_readers q) j = Some y) as (y & Ry).
      { destruct (nth_error (q_readers q) j) as [y|] eqn:Y; [eauto|]. apply nth_error_None in Y. assert (j < length (q_readers q'))%nat by (apply nth_error_Some; congruence). lia. }
      rewrite <- (R2 j k q y Q Ry). specialize (D j). rewrite Rx, Ry in D. split; intros A B; apply A; [|]; assert (Some y = Some RIdle <-> Some x = Some RIdle) by (rewrite D; tauto);
        subst; assert (Some RIdle = Some RIdle :> option rstat) by reflexivity; intuition congruence.
    + rewrite setnth_other in E0 by exact N. apply (R2 j k0 q0 x E0 Rx).
  - intros k0 H. destruct C as [-> | ->]; [apply R4, H|discriminate].
Qed.

Lemma shut_inv q : qinv q -> qinv (shut q).
Proof. intros I. exact I. Qed.

Lemma idle_of i k s q : rinv s -> nth_error (a_at s) i = Some None -> nth_error (a_qs s) k = Some q -> nth_error (q_readers q) i = Some RIdle.
Proof.
  intros R A Q. destruct (ri_q _ R k q Q) as (_ & L). destruct (nth_error (q_readers q) i) as [x|] eqn:Rx.
  - destruct (ri_at _ R i k q x Q Rx) as (D & _). destruct x; try reflexivity; (specialize (D ltac:(discriminate)); congruence).
  - apply nth_error_None in Rx. assert (i < length (a_at s))%nat by (apply nth_error_Some; congruence). lia.
Qed.

Lemma step_rinv v s e s' : rinv s -> astep v s e = Some s' -> rinv s'.
Proof.
  intros R H. destruct e as [| |i|i|i|k d|k|key c]; cbn [astep] in H.
  - injection H as <-. destruct R as [R1 R2 R3 R4].
    assert (Z : forall k q, nth_error (a_qs s ++ [qinit (length (a_at s))]) k = Some q -> nth_error (a_qs s) k = Some q \/ (k = length (a_qs s) /\ q = qinit (length (a_at s)))).
    { intros k q E. destruct (Nat.ltb_spec k (length (a_qs s))) as [B|B]; [rewrite nth_error_app1 in E by exact B; auto|]. rewrite nth_error_app2 in E by exact B.
      assert (k = length (a_qs s)) as ->. { assert (k - length (a_qs s) < 1)%nat by (change 1%nat with (length [qinit (length (a_at s))]); apply nth_error_Some; congruence). lia. }
      rewrite Nat.sub_diag in E. cbn in E. right. split; congruence. }
    split; cbn [a_qs a_at a_cur]; rewrite ?app_length.
    + intros k q E. apply Z in E as [E|(-> & ->)]; [apply (R1 k q E)|]. split; [apply qinv_init|cbn; apply repeat_length].
    + intros i k q x E Rx. apply Z in E as [E|(-> & ->)]; [apply (R2 i k q x E Rx)|]. cbn in Rx. apply nth_error_In, repeat_spec in Rx. subst x.
      split; [contradiction|]. intros B. apply R3 in B. lia.
    + intros i k B. apply R3 in B. lia.
    + intros k B. cbn. assert (k = length (a_qs s)) by congruence. lia.
  - destruct (a_cur s) as [k|] eqn:C; injection H as <-; [|exact R]. destruct (nth_error (a_qs s) k) as [q|] eqn:Q.
    + eapply (rinv_q k q (shut q) None s R Q); try reflexivity; [apply (ri_q _ R k q Q)|auto].
    + apply nth_error_None in Q. pose proof (ri_cur _ R k C). lia.
  - destruct (nth_error (a_at s) i) as [[x|]|] eqn:A; try discriminate. injection H as <-.
    assert (Li : (i < length (a_at s))%nat) by (apply nth_error_Some; congruence).
    assert (LV : forall o, rinv (leave i o s)).
    { intros o. destruct R as [R1 R2 R3 R4]. split; cbn [leave a_qs a_at a_cur]; rewrite ?setnth_length; try assumption.
      - intros j k q x Q Rx. destruct (Nat.eq_dec i j) as [<-|N]; [|rewrite setnth_other by exact N; apply (R2 j k q x Q Rx)]. rewrite setnth_same by exact Li. rewrite (R2 i k q x Q Rx), A. split; congruence.
      - intros j k B. destruct (Nat.eq_dec i j) as [<-|N]; [rewrite setnth_same in B by exact Li; discriminate|]. rewrite setnth_other in B by exact N. apply (R3 j k B). }
    destruct (a_cur s) as [k|] eqn:C; [|apply LV]. destruct (up s k); [|apply LV]. apply go_rinv; [|lia].
    split; [apply (ri_q _ R)|intros j k0 q x _; apply (ri_at _ R)|intros j k0 _; apply (ri_there _ R)|apply (ri_cur _ R)|exact Li|apply (ri_cur _ R k C)|].
    intros k' q Q. left. apply (idle_of i k' s q R A Q).
  - destruct (nth_error (a_at s) i) as [[k|]|] eqn:A; try discriminate. destruct (nth_error (a_qs s) k) as [q|] eqn:Q; [|discriminate].
    destruct (nth_error (q_readers q) i) as [x|] eqn:Rx; [|discriminate].
    assert (Li : (i < length (a_at s))%nat) by (apply nth_error_Some; congruence). assert (Lk : (k < length (a_qs s))%nat) by (apply nth_error_Some; congruence).
    assert (Els : forall k' q', nth_error (a_qs s) k' = Some q' -> k' <> k -> nth_error (q_readers q') i = Some RIdle).
    { intros k' q' Q' N. destruct (ri_q _ R k' q' Q') as (_ & L). destruct (nth_error (q_readers q') i) as [y|] eqn:Ry; [|apply nth_error_None in Ry; lia].
      destruct (ri_at _ R i k' q' y Q' Ry) as (D & _). destruct y; try reflexivity; (specialize (D ltac:(discriminate)); congruence). }
    assert (D : x = RWoken \/ x <> RWoken) by (destruct x; auto; right; discriminate). destruct D as [->|D].
    + injection H as <-. apply go_rinv; [|lia].
      split; [apply (ri_q _ R)|intros j k0 q0 x _; apply (ri_at _ R)|intros j k0 _; apply (ri_there _ R)|apply (ri_cur _ R)|exact Li|exact Lk|].
      intros k' q' Q'. destruct (Nat.eq_dec k' k) as [->|N]; [right; split; [reflexivity|congruence]|left; apply (Els k' q' Q' N)].
    + assert (H' : match qstep q (Queue.ERun i) with Some q' => Some (leave i OCancelled (set_q k q' s)) | None => None end = Some s') by (destruct x; try exact H; contradiction).
      clear H. destruct (qstep q (Queue.ERun i)) as [q'|] eqn:E; [|discriminate]. injection H' as <-.
      destruct (ri_q _ R k q Q) as (Iq & Lq). pose proof (qstep_inv q _ q' Iq E) as Iq'.
      assert (Ri : nth_error (q_readers q') i = Some RIdle /\ length (q_readers q') = length (q_readers q)).
      { assert (L : (i < length (q_readers q))%nat) by (apply nth_error_Some; congruence). cbn [qstep] in E. rewrite Rx in E. destruct x; try discriminate; try congruence.
        - pose proof (wakeup_readers (remove_getter i (q_getters q)) (setnth i RIdle (q_readers q)) i) as [Lw W]. rewrite setnth_same in W by exact L. rewrite setnth_length in Lw.
          destruct (c_queue (q_conn q)).
          + injection E as <-. cbn [q_readers]. rewrite setnth_length. split; [apply setnth_same, L|reflexivity].
          + destruct (wakeup _ _) as [gs rs]. injection E as <-. cbn [q_readers snd] in *. split; [|exact Lw]. destruct W as [W|[W _]]; [exact W|discriminate].
        - injection E as <-. cbn [q_readers]. rewrite setnth_length. split; [apply setnth_same, L|reflexivity]. }
      destruct Ri as (Ri & Lr). destruct R as [R1 R2 R3 R4]. split; cbn [leave set_q a_qs a_at a_cur]; rewrite ?setnth_length; try assumption.
      * intros k0 q0 E0; destruct (Nat.eq_dec k k0) as [<-|N]; [rewrite setnth_same in E0 by exact Lk; assert (q0 = q') by congruence; subst q0; split; [exact Iq'|congruence]|
          rewrite setnth_other in E0 by exact N; apply (R1 k0 q0 E0)].
      * intros j k0 q0 y E0 Ry. destruct (Nat.eq_dec i j) as [<-|Nj].
        -- rewrite setnth_same by exact Li. assert (y = RIdle).
           { destruct (Nat.eq_dec k k0) as [<-|N]; [rewrite setnth_same in E0 by exact Lk; assert (q0 = q') by congruence; subst q0; congruence|].
             rewrite setnth_other in E0 by exact N. rewrite (Els k0 q0 E0) in Ry by congruence. congruence. }
           subst y. split; [contradiction|discriminate].
        -- rewrite setnth_other by exact Nj. destruct (Nat.eq_dec k k0) as [<-|N].
           ++ rewrite setnth_same in E0 by exact Lk. assert (q0 = q') by congruence. subst q0.
              destruct (run_readers q i q' j E) as [X|[X1 X2]]; [congruence| |].
              ** rewrite X in Ry. apply (R2 j k q y Q Ry).
              ** rewrite <- (R2 j k q RWait Q X1). assert (y = RWoken) by congruence. subst y. split; discriminate.
           ++ rewrite setnth_other in E0 by exact N. apply (R2 j k0 q0 y E0 Ry).
      * intros j k0 B. destruct (Nat.eq_dec i j) as [<-|Nj]; [rewrite setnth_same in B by exact Li; discriminate|]. rewrite setnth_other in B by exact Nj. apply (R3 j k0 B).
  - destruct (nth_error (a_at s) i) as [[k|]|] eqn:A; try discriminate. destruct (nth_error (a_qs s) k) as [q|] eqn:Q; [|discriminate].
    destruct (qstep q (Queue.ECancel i)) as [q'|] eqn:E; [|discriminate]. injection H as <-. destruct (ri_q _ R k q Q) as (Iq & Lq).
    apply (rinv_q k q q' (a_cur s) s R Q (qstep_inv q _ q' Iq E)); auto; cbn [qstep] in E; destruct (nth_error (q_readers q) i) as [x|] eqn:Rx; try discriminate;
      assert (L : (i < length (q_readers q))%nat) by (apply nth_error_Some; congruence).
    + destruct x; try discriminate; injection E as <-; cbn [q_readers]; apply setnth_length.
    + intros j. destruct (Nat.eq_dec i j) as [<-|N].
      * destruct x; try discriminate; injection E as <-; cbn [q_readers]; rewrite Rx, setnth_same by exact L; split; discriminate.
      * destruct x; try discriminate; injection E as <-; cbn [q_readers]; rewrite setnth_other by exact N; tauto.
  - destruct (nth_error (a_qs s) k) as [q|] eqn:Q; [|discriminate]. destruct (qstep q (EPacket d)) as [q'|] eqn:E; [|discriminate]. injection H as <-.
    destruct (ri_q _ R k q Q) as (Iq & Lq). pose proof (qstep_inv q _ q' Iq E) as Iq'. cbn [qstep] in E.
    set (n := (length (c_queue (deliver (q_conn q) d)) - length (c_queue (q_conn q)))%nat) in *.
    pose proof (wakeups_readers n (q_getters q) (q_readers q)) as W. destruct (wakeups n _ _) as [gs rs]. assert (Er : q_readers q' = rs) by (injection E as <-; reflexivity). cbn [snd] in W.
    apply (rinv_q k q q' (a_cur s) s R Q Iq'); auto; rewrite Er.
    + apply (W 0%nat).
    + intros j. destruct (W j) as [_ [X|[X1 X2]]]; [rewrite X; tauto|rewrite X1, X2; split; discriminate].
  - destruct (nth_error (a_qs s) k) as [q|] eqn:Q; [|discriminate]. injection H as <-.
    apply (rinv_q k q (shut q) (a_cur s) s R Q); auto; [apply (ri_q _ R k q Q)|reflexivity].
  - injection H as <-. apply (rinv_same s); try reflexivity. exact R.
Qed.

Lemma rinv_init n r : rinv (ainit n r).
Proof.
  split; cbn.
  - intros [|k] q E; discriminate.
  - intros i [|k] q x E; discriminate.
  - intros i k E. apply nth_error_In, repeat_spec in E. discriminate.
  - discriminate.
Qed.
Lemma run_rinv v es : forall s s', rinv s -> arun v s es = Some s' -> rinv s'.
Proof.
  induction es as [|e es IH]; intros s s' R H; cbn [arun] in H; [injection H as <-; exact R|].
  destruct (astep v s e) as [s1|] eqn:E; [|discriminate]. apply (IH s1 s'); [eapply step_rinv; eassumption|exact H].
Qed.

(** ** Nobody waits while there is something to read *)

Lemma calm_reader v s i k q : rinv s -> calm v s -> waits_at s i k -> nth_error (a_qs s) k = Some q -> nth_error (q_readers q) i = Some RWait.
Proof.
  intros R K W Q. unfold waits_at in W. destruct (ri_q _ R k q Q) as (Iq & Lq). assert (Li : (i < length (q_readers q))%nat) by (rewrite Lq; apply nth_error_Some; congruence).
  destruct (nth_error (q_readers q) i) as [x|] eqn:Rx; [|apply nth_error_None in Rx; lia]. specialize (K i). cbn [astep] in K. rewrite W, Q, Rx in K.
  destruct (ri_at _ R i k q x Q Rx) as (_ & D). specialize (D W). destruct x; try contradiction; try reflexivity; try discriminate; exfalso; cbn [qstep] in K; rewrite Rx in K; [|discriminate].
  destruct (c_queue (q_conn q)); [discriminate|]. destruct (wakeup _ _); discriminate.
Qed.

Lemma calm_reads v s i k : rinv s -> calm v s -> waits_at s i k -> unread s k = [].
Proof.
  intros R K W. pose proof (ri_there _ R i k W) as Lk. unfold unread. destruct (nth_error (a_qs s) k) as [q|] eqn:Q; [|reflexivity].
  pose proof (calm_reader v s i k q R K W Q) as Rx. destruct (ri_q _ R k q Q) as ((_ & Iq) & _).
  assert (P : (0 < cnt RWait (q_readers q))%nat) by (apply cnt_pos; eauto). specialize (Iq P). destruct (c_queue (q_conn q)) as [|m ms]; [reflexivity|]. exfalso. cbn [length] in Iq.
  assert (exists j x, nth_error (q_readers q) j = Some x /\ (x = RWoken \/ x = RWokenC)) as (j & x & Rj & X).
  { unfold sched in Iq. destruct (Nat.eq_dec (cnt RWoken (q_readers q)) 0) as [Z|Z].
    - assert (Y : (0 < cnt RWokenC (q_readers q))%nat) by lia. apply cnt_pos in Y as (j & Y). eauto.
    - assert (Y : (0 < cnt RWoken (q_readers q))%nat) by lia. apply cnt_pos in Y as (j & Y). eauto. }
  assert (Wj : waits_at s j k) by (apply (ri_at _ R j k q x Q Rj); destruct X as [-> | ->]; discriminate).
  pose proof (calm_reader v s j k q R K Wj Q) as Y. destruct X; congruence.
Qed.
