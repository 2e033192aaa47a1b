(** * Theorems about concurrent calls *)
From Coq Require Import String List NArith ZArith Bool Lia.
From Verif Require Import PyStr Tags Messages Protocol SpecProto ProtoThms Queue QueueThms IO Client Items Conc SpecConc.
Import ListNotations.
Open Scope list_scope.

Lemma wakeups_waiting n gs rs :
  NoDup gs -> (forall i, In i gs -> nth_error rs i = Some RWait) ->
  exists rs', wakeups n gs rs = (skipn n gs, rs') /\ length rs' = length rs /\
    (forall i, In i (firstn n gs) -> nth_error rs' i = Some RWoken) /\
    (forall i, ~ In i (firstn n gs) -> nth_error rs' i = nth_error rs i).
Proof.
  revert gs rs. induction n as [|n IH]; intros gs rs ND H.
  - exists rs. cbn. repeat split; auto. contradiction.
  - destruct gs as [|g gs].
    + destruct (IH [] rs ND H) as (rs' & E & L & A & B). exists rs'. cbn [wakeups wakeup].
      rewrite E. destruct n; cbn in *; auto.
    + cbn [wakeups wakeup skipn firstn]. rewrite (H g (or_introl eq_refl)).
      inversion ND as [|? ? Ng ND']; subst.
      assert (Lg : (g < length rs)%nat) by (apply nth_error_Some; rewrite (H g (or_introl eq_refl)); discriminate).
      destruct (IH gs (setnth g RWoken rs) ND') as (rs' & E & L & A & B).
      { intros i Hi. rewrite setnth_other; [apply H; right; exact Hi|]. intros ->. contradiction. }
      exists rs'. rewrite E. split; [reflexivity|]. split; [rewrite L; apply setnth_length|].
      assert (Nf : ~ In g (firstn n gs)).
      { intros X. apply Ng. rewrite <- (firstn_skipn n gs). apply in_or_app. left. exact X. }
      split.
      * intros i [<-|Hi]; [|apply A, Hi]. rewrite (B g Nf). apply setnth_same, Lg.
      * intros i Hi. assert (g <> i /\ ~ In i (firstn n gs)) as [N1 N2] by (split; intros X; apply Hi; [left|right]; exact X).
        rewrite (B i N2). apply setnth_other, N1.
Qed.

Definition settled (s : cstate) : list (nat * res unit) := map (fun p => (fst p, verdict (snd p))) (q_out (k_q s)).

Definition inv (w : list nat) (s : cstate) (ps : list (list N)) : Prop :=
  let q := k_q s in
  (forall i, nth_error (q_readers q) i = Some RWait <-> In i (q_getters q)) /\
  (forall i, nth_error (q_readers q) i = Some RWoken <-> In i w) /\
  (forall i, nth_error (q_readers q) i <> Some RCancel /\ nth_error (q_readers q) i <> Some RWokenC) /\
  NoDup (w ++ q_getters q) /\
  map fst (k_writes s) = map fst (q_out q) ++ w ++ q_getters q /\
  (length w <= length (c_queue (q_conn q)))%nat /\
  (q_getters q <> [] -> length w = length (c_queue (q_conn q))) /\
  k_done s = settled s /\
  (forall i, In i (w ++ q_getters q) -> nth_error (k_pc s) i = Some PCommand) /\
  log_ok q ps.

Lemma react_command m : react PCommand m = Some (verdict m).
Proof. destruct m; reflexivity. Qed.

Lemma go_command i s :
  go i PCommand s = match c_queue (q_conn (k_q s)) with
                    | [] => moved (try_get i (k_q s)) s
                    | m :: _ => finished i (verdict m) (try_get i (k_q s)) s
                    end.
Proof. unfold go. cbn [pump]. destruct (c_queue (q_conn (k_q s))) as [|m q]; [reflexivity|]. rewrite react_command. reflexivity. Qed.

Lemma nodup_app_r {A} (a b : list A) : NoDup (a ++ b) -> NoDup b.
Proof. induction a; cbn; [auto|]. intros H. inversion H; auto. Qed.

Lemma nodup_snoc {A} (l : list A) x : NoDup l -> ~ In x l -> NoDup (l ++ [x]).
Proof.
  intros H N. induction H as [|y l Hy H IH]; cbn; [constructor; [exact N|constructor]|].
  constructor; [|apply IH; intros X; apply N; right; exact X].
  rewrite in_app_iff. intros [X|[->|[]]]; [contradiction|]. apply N. left. reflexivity.
Qed.

Lemma inv_call i b s s' ps :
  inv [] s ps -> cstep s (KCall i PCommand b) = Some s' -> inv [] s' ps.
Proof.
  intros (R1 & R2 & R3 & ND & WR & L1 & L2 & DN & PC & LG). cbn [cstep].
  destruct (nth_error (k_pc s) i) as [[]|] eqn:P; try discriminate.
  destruct (nth_error (q_readers (k_q s)) i) as [[]|] eqn:R; try discriminate. intros [= <-].
  assert (Li : (i < length (q_readers (k_q s)))%nat) by (apply nth_error_Some; congruence).
  assert (Lp : (i < length (k_pc s))%nat) by (apply nth_error_Some; congruence).
  assert (Ng : ~ In i (q_getters (k_q s))) by (intros X; apply R1 in X; congruence).
  rewrite go_command. cbn [k_q k_pc k_writes k_done app] in *.
  destruct (try_get_log i (k_q s)) as [T1 T2].
  destruct (c_queue (q_conn (k_q s))) as [|m q] eqn:Q; unfold inv, moved, finished, try_get, settled; rewrite Q; cbn [k_q k_pc k_writes k_done q_readers q_getters q_out q_conn c_queue].
  - split.
    { intros j. destruct (Nat.eq_dec i j) as [<-|N].
      - rewrite setnth_same by exact Li. split; [intros _; apply in_or_app; right; left; reflexivity|reflexivity].
      - rewrite setnth_other by exact N. rewrite R1, in_app_iff. cbn. intuition. }
    split.
    { intros j. destruct (Nat.eq_dec i j) as [<-|N]; [rewrite setnth_same by exact Li; split; [discriminate|contradiction]|].
      rewrite setnth_other by exact N. apply R2. }
    split.
    { intros j. destruct (Nat.eq_dec i j) as [<-|N]; [rewrite setnth_same by exact Li; split; discriminate|].
      rewrite setnth_other by exact N. apply R3. }
    cbn [app]. split; [apply nodup_snoc; assumption|].
    split; [rewrite map_app, WR, <- app_assoc; reflexivity|].
    split; [cbn; lia|]. split; [intros _; rewrite Q; reflexivity|]. split; [exact DN|]. split.
    { intros j Hj. apply in_app_or in Hj as [Hj|[<-|[]]]; [|apply setnth_same, Lp].
      rewrite setnth_other; [apply PC, Hj|]. intros ->. contradiction. }
    unfold log_ok in *. cbn [q_out q_conn]. exact LG.
  - assert (G : q_getters (k_q s) = []).
    { destruct (q_getters (k_q s)) eqn:G; [reflexivity|]. assert (X : n :: l <> []) by discriminate. specialize (L2 X). discriminate. }
    rewrite G in *. split.
    { intros j. destruct (Nat.eq_dec i j) as [<-|N]; [rewrite setnth_same by exact Li; split; [discriminate|contradiction]|].
      rewrite setnth_other by exact N. apply R1. }
    split.
    { intros j. destruct (Nat.eq_dec i j) as [<-|N]; [rewrite setnth_same by exact Li; split; [discriminate|contradiction]|].
      rewrite setnth_other by exact N. apply R2. }
    split.
    { intros j. destruct (Nat.eq_dec i j) as [<-|N]; [rewrite setnth_same by exact Li; split; discriminate|].
      rewrite setnth_other by exact N. apply R3. }
    cbn [app]. split; [constructor|]. split; [rewrite !map_app, WR; cbn [app]; rewrite !app_nil_r; reflexivity|].
    split; [cbn; lia|]. split; [congruence|]. split.
    { unfold settled in DN. rewrite DN, map_app. reflexivity. }
    split; [contradiction|]. unfold log_ok in *. cbn [q_out q_conn c_open c_queue]. rewrite LG, Q, map_app, <- app_assoc. reflexivity.
Qed.

Lemma inv_run i w s s' ps :
  inv (i :: w) s ps -> cstep s (KRun i) = Some s' -> inv w s' ps.
Proof.
  intros (R1 & R2 & R3 & ND & WR & L1 & L2 & DN & PC & LG). cbn [cstep].
  assert (R : nth_error (q_readers (k_q s)) i = Some RWoken) by (apply R2; left; reflexivity).
  rewrite R, (PC i (or_introl eq_refl)). intros [= <-].
  assert (Li : (i < length (q_readers (k_q s)))%nat) by (apply nth_error_Some; congruence).
  cbn [app] in ND. inversion ND as [|? ? Ni ND']; subst. rewrite in_app_iff in Ni.
  rewrite go_command. destruct (c_queue (q_conn (k_q s))) as [|m q] eqn:Q; [cbn in L1; lia|].
  unfold inv, finished, try_get, settled. rewrite Q. cbn [k_q k_pc k_writes k_done q_readers q_getters q_out q_conn c_queue].
  split.
  { intros j. destruct (Nat.eq_dec i j) as [<-|N]; [rewrite setnth_same by exact Li; split; [discriminate|intuition]|].
    rewrite setnth_other by exact N. apply R1. }
  split.
  { intros j. destruct (Nat.eq_dec i j) as [<-|N]; [rewrite setnth_same by exact Li; split; [discriminate|intuition]|].
    rewrite setnth_other by exact N. rewrite R2. cbn. intuition congruence. }
  split.
  { intros j. destruct (Nat.eq_dec i j) as [<-|N]; [rewrite setnth_same by exact Li; split; discriminate|].
    rewrite setnth_other by exact N. apply R3. }
  split; [exact ND'|]. split; [rewrite WR, map_app, <- app_assoc; reflexivity|].
  cbn [length] in *. split; [lia|]. split; [intros G; specialize (L2 G); lia|]. split.
  { unfold settled in DN. rewrite DN, map_app. reflexivity. }
  split.
  { intros j Hj. rewrite setnth_other; [apply PC; right; exact Hj|]. intros ->. apply Ni, in_app_iff, Hj. }
  unfold log_ok in *. cbn [q_out q_conn c_open c_queue]. rewrite LG, Q, map_app, <- app_assoc. reflexivity.
Qed.

Lemma inv_packet d w s s' ps :
  inv w s ps -> cstep s (KPacket d) = Some s' ->
  inv (w ++ firstn (length (c_queue (q_conn (k_q s'))) - length (c_queue (q_conn (k_q s)))) (q_getters (k_q s))) s' (ps ++ [d]).
Proof.
  intros (R1 & R2 & R3 & ND & WR & L1 & L2 & DN & PC & LG). cbn [cstep].
  destruct (qstep (k_q s) (EPacket d)) as [q'|] eqn:SQ; [|discriminate]. intros [= <-].
  pose proof (qstep_log _ _ _ _ LG SQ) as LG'. cbn [packets_of map concat app] in LG'.
  cbn [qstep] in SQ. set (n := (length (c_queue (deliver (q_conn (k_q s)) d)) - length (c_queue (q_conn (k_q s))))%nat) in *.
  destruct (wakeups_waiting n (q_getters (k_q s)) (q_readers (k_q s))) as (rs' & E & LR & A & B).
  { exact (nodup_app_r _ _ ND). }
  { intros i Hi. apply R1, Hi. }
  rewrite E in SQ. injection SQ as <-.
  pose proof (deliver_length (q_conn (k_q s)) d) as DL.
  unfold inv, moved, settled. cbn [k_q k_pc k_writes k_done q_readers q_getters q_out q_conn c_queue] in *. fold n.
  assert (GS : q_getters (k_q s) = firstn n (q_getters (k_q s)) ++ skipn n (q_getters (k_q s))) by (symmetry; apply firstn_skipn).
  remember (firstn n (q_getters (k_q s))) as f eqn:Ef. remember (skipn n (q_getters (k_q s))) as k eqn:Ek.
  rewrite GS in ND.
  assert (NDg : NoDup (f ++ k)) by exact (nodup_app_r _ _ ND).
  assert (FK : forall i, In i f -> ~ In i k).
  { intros i Hf Hk. apply in_split in Hf as (l1 & l2 & ->). rewrite <- app_assoc in NDg. apply nodup_app_r in NDg. cbn in NDg.
    inversion NDg as [|? ? X _]; subst. apply X, in_or_app. right. exact Hk. }
  assert (WG : forall i, In i w -> ~ In i (f ++ k)).
  { intros i Hw Hk. apply in_split in Hw as (l1 & l2 & ->). rewrite <- app_assoc in ND. apply nodup_app_r in ND. cbn in ND.
    inversion ND as [|? ? X _]; subst. apply X, in_or_app. right. exact Hk. }
  split.
  { intros i. destruct (in_dec Nat.eq_dec i f) as [Hf|Hf].
    - rewrite (A i Hf). split; [discriminate|]. intros Hk. exfalso. exact (FK i Hf Hk).
    - rewrite (B i Hf), R1, GS, in_app_iff. intuition. }
  split.
  { intros i. rewrite in_app_iff. destruct (in_dec Nat.eq_dec i f) as [Hf|Hf].
    - rewrite (A i Hf). intuition.
    - rewrite (B i Hf), R2. intuition. }
  split.
  { intros i. destruct (in_dec Nat.eq_dec i f) as [Hf|Hf]; [rewrite (A i Hf); split; discriminate|]. rewrite (B i Hf). apply R3. }
  split; [rewrite <- app_assoc; exact ND|].
  split; [rewrite <- app_assoc, <- GS; exact WR|].
  assert (Lf : length f = Nat.min n (length (q_getters (k_q s)))) by (rewrite Ef; apply firstn_length).
  split; [rewrite app_length; unfold n in *; lia|].
  split.
  { intros Hk. assert (Lk : (n < length (q_getters (k_q s)))%nat).
    { destruct (Nat.lt_ge_cases n (length (q_getters (k_q s)))) as [H|H]; [exact H|]. exfalso. apply Hk. rewrite Ek. apply skipn_all2, H. }
    assert (NE : q_getters (k_q s) <> []) by (intros X; rewrite X in Lk; cbn in Lk; lia).
    specialize (L2 NE). rewrite app_length. unfold n in *. lia. }
  split; [exact DN|]. split; [|exact LG'].
  intros i Hi. apply PC. rewrite <- app_assoc, <- GS in Hi. exact Hi.
Qed.

Lemma inv_init n : inv [] (cinit n) [].
Proof.
  unfold inv, cinit, settled. cbn.
  assert (Z : forall i x, nth_error (repeat RIdle n) i = Some x -> x = RIdle).
  { intros i x H. apply nth_error_In, repeat_spec in H. exact H. }
  split; [intros i; split; [intros H; apply Z in H; discriminate|contradiction]|].
  split; [intros i; split; [intros H; apply Z in H; discriminate|contradiction]|].
  split; [intros i; split; intros H; apply Z in H; discriminate|].
  split; [constructor|]. repeat split; auto; try contradiction.
Qed.

Lemma inv_orderly w s es s' w' ps : orderly w s es s' w' -> inv w s ps -> inv w' s' (ps ++ received_packets es).
Proof.
  intros H. revert ps. induction H; intros ps J; cbn [received_packets].
  - rewrite app_nil_r. exact J.
  - apply IHorderly. eapply inv_call; eauto.
  - replace (ps ++ d :: received_packets es) with ((ps ++ [d]) ++ received_packets es) by (rewrite <- app_assoc; reflexivity).
    apply IHorderly. eapply inv_packet; eauto.
  - apply IHorderly. eapply inv_run; eauto.
Qed.

Theorem orderly_commands n es s w j i r :
  orderly [] (cinit n) es s w -> nth_error (k_done s) j = Some (i, r) ->
  exists b m, nth_error (k_writes s) j = Some (i, b) /\ nth_error (answers es) j = Some m /\ r = verdict m.
Proof.
  intros O D. destruct (inv_orderly _ _ _ _ _ [] O (inv_init n)) as (_ & _ & _ & _ & WR & _ & _ & DN & _ & LG).
  cbn [app] in LG. rewrite DN in D. unfold settled in D. rewrite nth_error_map in D.
  destruct (nth_error (q_out (k_q s)) j) as [[i' m]|] eqn:E; [|discriminate]. cbn in D. injection D as -> <-.
  assert (W : nth_error (map fst (k_writes s)) j = Some i).
  { rewrite WR, nth_error_app1; [|rewrite map_length; apply nth_error_Some; congruence]. rewrite nth_error_map, E. reflexivity. }
  rewrite nth_error_map in W. destruct (nth_error (k_writes s) j) as [[i2 b]|]; [|discriminate]. cbn in W. injection W as ->.
  exists b, m. split; [reflexivity|]. split; [|reflexivity].
  unfold answers. unfold log_ok in LG. rewrite LG. cbn [c_queue].
  rewrite nth_error_app1; [|rewrite map_length; apply nth_error_Some; congruence]. rewrite nth_error_map, E. reflexivity.
Qed.

Theorem orderly_progress n es s :
  orderly [] (cinit n) es s [] -> length (k_done s) = Nat.min (length (k_writes s)) (length (answers es)).
Proof.
  intros O. destruct (inv_orderly _ _ _ _ _ [] O (inv_init n)) as (_ & _ & _ & _ & WR & _ & L2 & DN & _ & LG).
  cbn [app] in *. apply (f_equal (@length _)) in WR. rewrite map_length, app_length, map_length in WR.
  rewrite DN. unfold settled. rewrite map_length. unfold answers. unfold log_ok in LG. rewrite LG. cbn [c_queue].
  rewrite app_length, map_length. destruct (q_getters (k_q s)) as [|g l] eqn:G.
  - cbn in WR. lia.
  - assert (X : g :: l <> []) by discriminate. specialize (L2 X). cbn [length] in L2. lia.
Qed.

(** ** The steps of a call are those of the item methods *)

Lemma react_check m s : check_ack (Y:=Empty_set) m s = ([], s, match react PCommand m with Some r => r | None => Ok tt end).
Proof. unfold check_ack. cbn. destruct (mtype_eqb (msg_type m) T_ACK); reflexivity. Qed.

Lemma react_replies {Y} keep (body : msg -> res (list Y)) m s :
  replies keep body (Some m :: s) =
  match react (PRequest keep) m with
  | Some r => ([Got m], s, r)
  | None => match body m with
            | Err e => ([Got m], s, Err e)
            | Ok ys => match replies keep body s with (es, s', r) => (Got m :: map Yielded ys ++ es, s', r) end
            end
  end.
Proof.
  cbn. destruct (mtype_eqb (msg_type m) T_NACK); [reflexivity|]. destruct (mtype_eqb (msg_type m) T_ACK); [reflexivity|].
  destruct (keep m); reflexivity.
Qed.

(** ** Mixed-up answers *)

Definition nack_packet : list N := lit "*#*0##".
Definition ack_packet : list N := lit "*#*1##".
Definition status_packet : list N := lit "*1*1*12##".

Lemma barging a b :
  exists s, crun (cinit 2) [KCall 0 PCommand a; KPacket nack_packet; KCall 1 PCommand b; KRun 0; KPacket ack_packet; KRun 0] = Some s /\
    k_writes s = [(0%nat, a); (1%nat, b)] /\ answers [KPacket nack_packet; KPacket ack_packet] = [MNack; MAck] /\
    k_done s = [(1%nat, Err ResponseError); (0%nat, Ok tt)].
Proof. eexists. split; [vm_compute; reflexivity|]. repeat split. Qed.

Lemma mixed a b :
  exists s, crun (cinit 2) [KCall 0 (PRequest is_normal) a; KCall 1 PCommand b; KPacket status_packet; KRun 0;
                            KPacket ack_packet; KRun 1; KPacket nack_packet; KRun 0] = Some s /\
    k_writes s = [(0%nat, a); (1%nat, b)] /\
    answers [KPacket status_packet; KPacket ack_packet; KPacket nack_packet] = [MNormal LIGHTING (lit "1") (lit "12"); MAck; MNack] /\
    k_done s = [(1%nat, Ok tt); (0%nat, Err ResponseError)].
Proof. eexists. split; [vm_compute; reflexivity|]. repeat split. Qed.

Lemma two_requests a b :
  exists s, crun (cinit 2) [KCall 0 (PRequest is_normal) a; KCall 1 (PRequest is_normal) b; KPacket status_packet; KRun 0;
                            KPacket ack_packet; KRun 1; KPacket status_packet; KRun 0; KPacket ack_packet; KRun 0] = Some s /\
    k_done s = [(1%nat, Ok tt); (0%nat, Ok tt)] /\
    q_out (k_q s) = [(0%nat, MNormal LIGHTING (lit "1") (lit "12")); (1%nat, MAck);
                     (0%nat, MNormal LIGHTING (lit "1") (lit "12")); (0%nat, MAck)].
Proof. eexists. split; [vm_compute; reflexivity|]. repeat split. Qed.
