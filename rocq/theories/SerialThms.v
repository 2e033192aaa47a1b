(** * Proofs about calls that do not overlap *)
From Coq Require Import String List NArith ZArith Bool Lia.
From Verif Require Import PyStr Tags Messages Protocol Queue QueueThms IO Client Items HandshakeThms ItemThms Conc SpecConc ConcThms SpecSingle SingleThms SpecSerial.
Import ListNotations.
Open Scope list_scope.

Lemma all_calls_app a b : all_calls (a ++ b) = all_calls a ++ all_calls b.
Proof. induction a as [|[] a IH]; cbn; congruence. Qed.

Lemma combine_snoc {A B} (a : list A) (b : list B) x y : length a = length b -> combine (a ++ [x]) (b ++ [y]) = combine a b ++ [(x, y)].
Proof. revert b. induction a as [|u a IH]; intros [|v b] H; cbn in *; try discriminate; [reflexivity|]. rewrite IH by congruence. reflexivity. Qed.

Lemma forall2_length {A B} (P : A -> B -> Prop) a b : Forall2 P a b -> length a = length b.
Proof. induction 1; cbn; congruence. Qed.

Lemma sequential_length cs t rs : sequential cs t rs -> length cs = length rs.
Proof. induction 1; [reflexivity|]. rewrite !app_length, IHsequential. reflexivity. Qed.

(** ** The calls of all tasks as one sequence *)

Lemma pump_serial fuel i p b : p <> PIdle -> forall s cs t rs read, (length (c_queue (q_conn (k_q s))) < fuel)%nat ->
  sequential cs t rs -> map snd (q_out (k_q s)) = somes t ++ read -> Forall (fun m => react p m = None) read ->
  let s' := pump fuel i p s in k_writes s' = k_writes s /\
  ((exists read', map snd (q_out (k_q s')) = somes t ++ read' /\ Forall (fun m => react p m = None) read' /\ k_done s' = k_done s /\ k_pc s' = k_pc s) \/
   (exists t1 r, sequential (cs ++ [(p, b)]) (t ++ t1) (rs ++ [r]) /\ map snd (q_out (k_q s')) = somes (t ++ t1) /\ ~ In None t1 /\
      k_done s' = k_done s ++ [(i, r)] /\ k_pc s' = setnth i PIdle (k_pc s))).
Proof.
  intros Hp. induction fuel as [|fuel IH]; intros s cs t rs read Hf Sq O F; [lia|]. cbn zeta. cbn [pump].
  destruct (c_queue (q_conn (k_q s))) as [|m q] eqn:Q.
  - split; [reflexivity|]. left. exists read. cbn [moved k_q k_done k_pc]. unfold try_get. rewrite Q. cbn [q_out]. auto.
  - assert (T : q_out (try_get i (k_q s)) = q_out (k_q s) ++ [(i, m)] /\ c_queue (q_conn (try_get i (k_q s))) = q) by (unfold try_get; rewrite Q; auto).
    destruct T as (T1 & T2). destruct (react p m) as [r|] eqn:E.
    + split; [reflexivity|]. right. destruct (prog_ends p b read m r Hp F E) as (es & X). exists (map Some read ++ [Some m]), r.
      split; [eapply Q_next; eassumption|]. cbn [finished k_q k_done k_pc]. split.
      { rewrite T1, map_app, O, !somes_app, somes_map, <- app_assoc. reflexivity. }
      split; [|auto]. rewrite in_app_iff. intros [H|[H|[]]]; [|discriminate]. apply in_map_iff in H as (? & X1 & _). discriminate.
    + apply (IH (moved (try_get i (k_q s)) s) cs t rs (read ++ [m])); [cbn [moved k_q]; rewrite T2; cbn in Hf; lia|exact Sq| |apply Forall_app; auto].
      cbn [moved k_q]. rewrite T1, map_app, O, <- app_assoc. reflexivity.
Qed.

(** Nobody but the task of the pending call is busy. *)
Definition busy (pend : list (nat * (pc * list N))) (read : list msg) (s : cstate) : Prop :=
  (pend = [] /\ read = [] /\ forall k q, nth_error (k_pc s) k = Some q -> q = PIdle) \/
  (exists i p b, pend = [(i, (p, b))] /\ p <> PIdle /\ nth_error (k_pc s) i = Some p /\ Forall (fun m => react p m = None) read /\
     forall k q, nth_error (k_pc s) k = Some q -> q <> PIdle -> k = i).

Record sinv (s : cstate) (es : list kevent) : Prop := {
  si_view : exists cs pend t rs read, all_calls es = cs ++ pend /\ sequential (map snd cs) t rs /\ k_done s = combine (map fst cs) rs /\
    map snd (q_out (k_q s)) = somes t ++ read /\ busy pend read s /\ (In None t -> exists i, In (KTimeout i) es);
  si_writes : k_writes s = map (fun c => (fst c, snd (snd c))) (all_calls es) }.

Lemma go_sinv i p b s es e cs t rs read : p <> PIdle -> nth_error (k_pc s) i = Some p -> (forall k q, nth_error (k_pc s) k = Some q -> q <> PIdle -> k = i) ->
  all_calls (es ++ [e]) = cs ++ [(i, (p, b))] -> sequential (map snd cs) t rs -> k_done s = combine (map fst cs) rs ->
  map snd (q_out (k_q s)) = somes t ++ read -> Forall (fun m => react p m = None) read -> (In None t -> exists i, In (KTimeout i) (es ++ [e])) ->
  k_writes s = map (fun c => (fst c, snd (snd c))) (all_calls (es ++ [e])) ->
  sinv (go i p s) (es ++ [e]).
Proof.
  intros Hp P K C Sq D O F N W. unfold go.
  pose proof (pump_serial (S (length (c_queue (q_conn (k_q s))))) i p b Hp s (map snd cs) t rs read ltac:(lia) Sq O F) as X. cbn zeta in X. destruct X as (W' & X).
  split; [|rewrite W'; exact W]. destruct X as [(read' & A1 & A2 & A3 & A4)|(t1 & r & A1 & A2 & A3 & A4 & A5)].
  - exists cs, [(i, (p, b))], t, rs, read'. split; [exact C|]. split; [exact Sq|]. split; [congruence|]. split; [exact A1|]. split; [|exact N].
    right. exists i, p, b. rewrite A4. auto.
  - exists (cs ++ [(i, (p, b))]), [], (t ++ t1), (rs ++ [r]), []. rewrite !app_nil_r, !map_app. split; [exact C|]. split; [exact A1|].
    split. { rewrite A4, D. cbn [map]. rewrite combine_snoc; [reflexivity|]. rewrite map_length, <- (map_length snd). exact (sequential_length _ _ _ Sq). }
    split; [exact A2|]. split.
    + left. split; [reflexivity|]. split; [reflexivity|]. rewrite A5. intros k q H. destruct (Nat.eq_dec k i) as [->|Nk].
      * rewrite setnth_same in H by (apply nth_error_Some; congruence). congruence.
      * rewrite setnth_other in H by congruence. destruct q; [reflexivity| |]; exfalso; apply Nk; eapply K; try eassumption; discriminate.
    + rewrite in_app_iff. intros [H|H]; [auto|contradiction].
Qed.

Lemma sinv_step n s e s' es : (forall i, (i < n)%nat -> tinv i s es) -> length (q_readers (k_q s)) = n -> sinv s es ->
  (forall i p b, e = KCall i p b -> Forall (eq PIdle) (k_pc s)) -> cstep s e = Some s' -> sinv s' (es ++ [e]).
Proof.
  intros T L [(cs & pend & t & rs & read & C & Sq & D & O & B & N) W] Id H.
  assert (N' : In None t -> exists i, In (KTimeout i) (es ++ [e])) by (intros X; destruct (N X) as (k & Hk); exists k; apply in_or_app; auto).
  assert (Same : forall q, q_out q = q_out (k_q s) -> all_calls [e] = [] -> sinv (moved q s) (es ++ [e])).
  { intros q Eq Ec. split; cbn [moved k_q k_done k_writes]; rewrite all_calls_app, Ec, app_nil_r; [|exact W].
    exists cs, pend, t, rs, read. rewrite Eq. auto 8. }
  assert (R : forall j x, nth_error (q_readers (k_q s)) j = Some x -> x <> RIdle -> exists p b, pend = [(j, (p, b))] /\ p <> PIdle /\ nth_error (k_pc s) j = Some p /\
     Forall (fun m => react p m = None) read /\ forall k q, nth_error (k_pc s) k = Some q -> q <> PIdle -> k = j).
  { intros j x Rj Nx. assert (Hj : (j < n)%nat) by (rewrite <- L; apply nth_error_Some; congruence).
    destruct (ti_view _ _ _ (T j Hj)) as (cs' & t' & p & read' & pend' & M & _ & _ & _ & I). pose proof (mid_pc _ _ _ _ _ _ M) as Pj.
    assert (Np : p <> PIdle) by (intros ->; destruct I as [I _]; specialize (I eq_refl); congruence).
    destruct B as [(_ & _ & All)|(i & p' & b & E & Np' & Pi & F & K)]; [exfalso; eauto|].
    assert (j = i) by eauto. subst j. rewrite Pj in Pi. injection Pi as ->. exists p', b. auto. }
  destruct e as [j p b|d|j|j].
  - specialize (Id j p b eq_refl). cbn [cstep] in H. destruct (nth_error (k_pc s) j) as [[]|] eqn:Pj; try discriminate.
    assert (Hp : p <> PIdle) by (intros ->; discriminate).
    assert (X : s' = go j p {| k_q := k_q s; k_pc := setnth j p (k_pc s); k_writes := k_writes s ++ [(j, b)]; k_done := k_done s |}).
    { destruct p; [congruence| |]; destruct (nth_error (q_readers (k_q s)) j) as [[]|]; try discriminate; injection H as <-; reflexivity. }
    subst s'. rewrite Forall_forall in Id.
    assert (B' : pend = [] /\ read = []).
    { destruct B as [(-> & -> & _)|(i & p' & b' & _ & Np' & Pi & _)]; [auto|]. exfalso. apply Np'. symmetry. apply Id. eapply nth_error_In, Pi. }
    destruct B' as [-> ->]. rewrite app_nil_r in C.
    eapply (go_sinv j p b _ es _ cs t rs []); cbn [k_pc k_done k_q k_writes]; try assumption.
    + apply setnth_same. apply nth_error_Some. congruence.
    + intros k q Hk Nq. destruct (Nat.eq_dec k j) as [->|Nk]; [reflexivity|]. rewrite setnth_other in Hk by congruence. exfalso. apply Nq. symmetry. apply Id. eapply nth_error_In, Hk.
    + rewrite all_calls_app, C. reflexivity.
    + constructor.
    + rewrite all_calls_app, map_app, W. reflexivity.
  - cbn [cstep] in H. destruct (qstep (k_q s) (EPacket d)) as [q|] eqn:Q; [|discriminate]. injection H as <-. apply Same; [|reflexivity].
    cbn [qstep] in Q. destruct (wakeups _ _ _). injection Q as <-. reflexivity.
  - destruct (run_shape s j s' H) as (x & p & Rj & Pj & [(-> & ->)|(Hx & q & Q & ->)]).
    + destruct (R j _ Rj ltac:(discriminate)) as (p' & b & -> & Np & Pj' & F & K). rewrite Pj in Pj'. injection Pj' as <-.
      eapply (go_sinv j p b s es _ cs t rs read); try assumption; rewrite all_calls_app, app_nil_r; [exact C|exact W].
    + destruct (R j x Rj ltac:(destruct Hx; congruence)) as (p' & b & -> & Np & Pj' & F & K). rewrite Pj in Pj'. injection Pj' as <-.
      destruct (prog_times_out p b read Np F) as (evs & X).
      assert (Ti : In (KTimeout j) es).
      { assert (Hj : (j < n)%nat) by (rewrite <- L; apply nth_error_Some; congruence). eapply (ti_cancel _ _ _ (T j Hj)); eassumption. }
      assert (Oq : q_out q = q_out (k_q s)).
      { cbn [qstep] in Q. rewrite Rj in Q. destruct Hx as [-> | ->]; [destruct (match c_queue (q_conn (k_q s)) with [] => _ | _ => _ end)|]; injection Q as <-; reflexivity. }
      split; cbn [finished k_writes]; rewrite all_calls_app, app_nil_r; [|exact W].
      exists (cs ++ [(j, (p, b))]), [], (t ++ (map Some read ++ [None])), (rs ++ [Err TimeoutError]), []. rewrite !app_nil_r, !map_app. cbn [finished k_done k_q k_pc].
      split; [exact C|]. split; [eapply Q_next; eassumption|].
      split. { rewrite D. cbn [map]. rewrite combine_snoc; [reflexivity|]. rewrite map_length, <- (map_length snd). exact (sequential_length _ _ _ Sq). }
      split. { rewrite Oq, O, !somes_app, somes_map. cbn [somes]. rewrite app_nil_r. reflexivity. }
      split; [|intros _; exists j; apply in_or_app; auto].
      left. split; [reflexivity|]. split; [reflexivity|]. intros k q' Hk. cbn [finished k_pc] in Hk. destruct (Nat.eq_dec k j) as [->|Nk].
      * rewrite setnth_same in Hk by (apply nth_error_Some; congruence). congruence.
      * rewrite setnth_other in Hk by congruence. destruct q'; [reflexivity| |]; exfalso; apply Nk; eapply K; try eassumption; discriminate.
  - cbn [cstep] in H. destruct (qstep (k_q s) (ECancel j)) as [q|] eqn:Q; [|discriminate]. injection H as <-. apply Same; [|reflexivity].
    cbn [qstep] in Q. destruct (nth_error (q_readers (k_q s)) j) as [[]|]; try discriminate; injection Q as <-; reflexivity.
Qed.

Lemma crun_readers es : forall s s', crun s es = Some s' -> length (q_readers (k_q s')) = length (q_readers (k_q s)).
Proof.
  assert (TG : forall i q, length (q_readers (try_get i q)) = length (q_readers q)) by (intros i q; unfold try_get; destruct (c_queue (q_conn q)); apply setnth_length).
  assert (PL : forall fuel i p s, length (q_readers (k_q (pump fuel i p s))) = length (q_readers (k_q s))).
  { induction fuel as [|fuel IH]; intros i p u; cbn [pump]; [reflexivity|]. destruct (c_queue (q_conn (k_q u))); [apply TG|].
    destruct (react p m); [apply TG|]. rewrite IH. apply TG. }
  assert (QL : forall q e q', qstep q e = Some q' -> length (q_readers q') = length (q_readers q)).
  { intros q e q' H. destruct e as [d|i|i|i]; cbn [qstep] in H.
    - pose proof (wakeups_readers (length (c_queue (deliver (q_conn q) d)) - length (c_queue (q_conn q))) (q_getters q) (q_readers q) 0) as [X _].
      destruct (wakeups _ _ _). injection H as <-. exact X.
    - destruct (nth_error (q_readers q) i) as [[]|]; try discriminate. injection H as <-. apply TG.
    - destruct (nth_error (q_readers q) i) as [[]|]; try discriminate; [injection H as <-; apply TG| |injection H as <-; apply setnth_length].
      pose proof (wakeup_readers (remove_getter i (q_getters q)) (setnth i RIdle (q_readers q)) 0) as [X _]. rewrite setnth_length in X.
      destruct (c_queue (q_conn q)); [injection H as <-; apply setnth_length|]. destruct (wakeup _ _). injection H as <-. exact X.
    - destruct (nth_error (q_readers q) i) as [[]|]; try discriminate; injection H as <-; apply setnth_length. }
  induction es as [|e es IH]; cbn [crun]; intros s s' R; [injection R as <-; reflexivity|]. destruct (cstep s e) as [s1|] eqn:E; [|discriminate].
  rewrite (IH _ _ R). clear R IH. destruct e as [j p b|d|j|j].
  - cbn [cstep] in E. destruct (nth_error (k_pc s) j) as [[]|]; try discriminate. destruct p; try discriminate;
      destruct (nth_error (q_readers (k_q s)) j) as [[]|]; try discriminate; injection E as <-; unfold go; rewrite PL; reflexivity.
  - cbn [cstep] in E. destruct (qstep _ _) eqn:Q; [|discriminate]. injection E as <-. exact (QL _ _ _ Q).
  - destruct (run_shape s j s1 E) as (x & p & _ & _ & [(_ & ->)|(_ & q & Q & ->)]); [unfold go; apply PL|exact (QL _ _ _ Q)].
  - cbn [cstep] in E. destruct (qstep _ _) eqn:Q; [|discriminate]. injection E as <-. exact (QL _ _ _ Q).
Qed.

Lemma pcs_readers es : forall s s', length (k_pc s) = length (q_readers (k_q s)) -> crun s es = Some s' -> length (k_pc s') = length (q_readers (k_q s')).
Proof.
  assert (G : forall es s s', crun s es = Some s' -> length (k_pc s') = length (k_pc s)).
  { assert (PL : forall fuel i p s, length (k_pc (pump fuel i p s)) = length (k_pc s)).
    { induction fuel as [|fuel IH]; intros i p u; cbn [pump]; [reflexivity|]. destruct (c_queue (q_conn (k_q u))); [reflexivity|].
      destruct (react p m); [apply setnth_length|]. rewrite IH. reflexivity. }
    induction es0 as [|e es0 IH]; cbn [crun]; intros s s' R; [injection R as <-; reflexivity|]. destruct (cstep s e) as [s1|] eqn:E; [|discriminate].
    rewrite (IH _ _ R). clear R IH. destruct e as [j p b|d|j|j].
    - cbn [cstep] in E. destruct (nth_error (k_pc s) j) as [[]|]; try discriminate. destruct p; try discriminate;
        destruct (nth_error (q_readers (k_q s)) j) as [[]|]; try discriminate; injection E as <-; unfold go; rewrite PL; apply setnth_length.
    - cbn [cstep] in E. destruct (qstep _ _); [|discriminate]. injection E as <-. reflexivity.
    - destruct (run_shape s j s1 E) as (x & p & _ & _ & [(_ & ->)|(_ & q & Q & ->)]); [unfold go; apply PL|apply setnth_length].
    - cbn [cstep] in E. destruct (qstep _ _); [|discriminate]. injection E as <-. reflexivity. }
  intros s s' E R. rewrite (G _ _ _ R), (crun_readers _ _ _ R). exact E.
Qed.

Lemma serial_app n a b : serial n (a ++ b) -> serial n a.
Proof. intros H pre i p x post s E R. apply (H pre i p x (post ++ b) s); [rewrite E, <- app_assoc; reflexivity|exact R]. Qed.

Lemma sinv_run n es : forall s, crun (cinit n) es = Some s -> serial n es -> sinv s es.
Proof.
  induction es as [|e es IH] using rev_ind; intros s R Se.
  - cbn in R. injection R as <-. split; [|reflexivity]. exists [], [], [], [], []. do 4 (split; [constructor|]). split; [|intros []].
    left. split; [reflexivity|]. split; [reflexivity|]. intros k q H. apply nth_error_In in H. exact (repeat_spec _ _ _ H).
  - destruct (crun_app es [e] _ _ R) as (s0 & R0 & R1). cbn [crun] in R1. destruct (cstep s0 e) as [s1|] eqn:E; [|discriminate]. injection R1 as ->.
    eapply (sinv_step n); [| |apply IH; [exact R0|eapply serial_app, Se]| |exact E].
    + intros i Hi. exact (tinv_run i _ _ _ [] (tinv_init i n Hi) R0).
    + rewrite (crun_readers _ _ _ R0). cbn. apply repeat_length.
    + intros i p b ->. eapply (Se es i p b [] s0); [reflexivity|exact R0].
Qed.

(** C102: the calls of all tasks, in order of their start, are one sequence of
    calls on what the gateway sent. *)
Theorem serial_view n es s : crun (cinit n) es = Some s -> serial n es ->
  exists cs pend t rs read, all_calls es = cs ++ pend /\ sequential (map snd cs) t rs /\ k_done s = combine (map fst cs) rs /\
    k_writes s = map (fun c => (fst c, snd (snd c))) (all_calls es) /\
    SpecConc.answers es = somes t ++ read ++ c_queue (q_conn (k_q s)) /\ busy pend read s /\ (In None t -> exists i, In (KTimeout i) es).
Proof.
  intros R Se. destruct (sinv_run n es s R Se) as [(cs & pend & t & rs & read & C & Sq & D & O & B & N) W].
  exists cs, pend, t, rs, read. repeat (split; [assumption|]). split; [|auto]. rewrite <- (all_views n es s R), O, <- app_assoc. reflexivity.
Qed.

(** ** A gateway that answers each call *)

Lemma react_ends p ms r : whole_answer p ms r -> p <> PIdle /\ exists read m, ms = read ++ [m] /\ Forall (fun m => react p m = None) read /\ react p m = Some r.
Proof.
  assert (K : forall keep ms, Forall (fun m => keep m = true /\ m <> MAck /\ m <> MNack) ms -> Forall (fun m => react (PRequest keep) m = None) ms).
  { intros keep l F. eapply Forall_impl; [|exact F]. intros m (E & A & B). cbn [react]. rewrite (type_not_ack m A), (type_not_nack m B), E. reflexivity. }
  intros W. destruct W as [|m Nm|keep ms F|keep ms m F Nm Hm]; (split; [discriminate|]).
  - exists [], MAck. repeat split. constructor.
  - exists [], m. split; [reflexivity|]. split; [constructor|]. cbn [react]. rewrite (type_not_ack m Nm). reflexivity.
  - exists ms, MAck. auto.
  - exists ms, m. split; [reflexivity|]. split; [auto|]. cbn [react]. destruct Hm as [-> | E]; [reflexivity|].
    destruct (mtype_eqb (msg_type m) T_NACK); [reflexivity|]. rewrite (type_not_ack m Nm), E. reflexivity.
Qed.

Lemma no_none t : ~ In None t -> t = map Some (somes t).
Proof. induction t as [|[m|] t IH]; intros N; cbn [somes map]; [reflexivity| |exfalso; apply N; left; reflexivity]. f_equal. apply IH. intros H. apply N. right. exact H. Qed.

Lemma map_Some_inj {A} (a b : list A) : map Some a = map Some b -> a = b.
Proof. revert b. induction a as [|x a IH]; intros [|y b] H; try discriminate; [reflexivity|]. injection H as -> H. f_equal. auto. Qed.

Lemma answer_unique p b t1 es r ms r' u v : (forall x, prog p b (t1 ++ x) = (es, x, r)) -> ~ In None t1 -> whole_answer p ms r' ->
  somes t1 ++ u = ms ++ v -> somes t1 = ms /\ r = r' /\ u = v.
Proof.
  intros X N W E. destruct (react_ends p ms r' W) as (Hp & read & m & -> & F & Rm). destruct (prog_ends p b read m r' Hp F Rm) as (es' & X').
  specialize (X (map Some u)). specialize (X' (map Some v)).
  assert (S : t1 ++ map Some u = (map Some read ++ [Some m]) ++ map Some v).
  { rewrite (no_none t1 N), <- map_app, E, !map_app. reflexivity. }
  rewrite S, X' in X. assert (U : u = v) by (apply map_Some_inj; congruence). subst v. split; [|split; [congruence|reflexivity]]. apply app_inv_tail in E. exact E.
Qed.

Lemma sequential_answers cs t rs : sequential cs t rs -> forall (c' : list (nat * (pc * list N))) pend ans u, map snd c' = cs -> dialogue (c' ++ pend) ans -> ~ In None t ->
  somes t ++ u = concat (map fst ans) ->
  somes t = concat (map fst (firstn (length c') ans)) /\ rs = map snd (firstn (length c') ans) /\ u = concat (map fst (skipn (length c') ans)).
Proof.
  induction 1 as [|cs t rs p b t1 r es Sq IH Hp X]; intros c' pend ans u E D N C.
  - destruct c'; [|discriminate]. cbn in *. auto.
  - assert (Nc : c' <> []) by (intros ->; destruct cs; discriminate). destruct (exists_last Nc) as (c0 & [i c] & ->). rewrite map_app in E. cbn [map snd] in E. apply app_inj_tail in E as [E1 ->].
    rewrite <- app_assoc in D. rewrite somes_app, <- app_assoc in C. rewrite in_app_iff in N.
    destruct (IH c0 ([(i, (p, b))] ++ pend) ans (somes t1 ++ u) E1 D ltac:(tauto) C) as (A1 & A2 & A3).
    apply Forall2_app_inv_l in D as (a1 & a2 & D1 & D2 & ->). pose proof (forall2_length _ _ _ D1) as L1.
    rewrite L1, firstn_app, Nat.sub_diag, firstn_all in A1, A2. rewrite L1, skipn_app, Nat.sub_diag, skipn_all in A3. cbn [firstn skipn app] in A1, A2, A3. rewrite app_nil_r in A1, A2.
    inversion D2 as [|? [ms r'] ? a3 W D3 E2 E3]; subst. cbn [fst snd] in W. cbn [map concat fst] in A3.
    destruct (answer_unique p b t1 es r ms r' u _ X ltac:(tauto) W A3) as (B1 & -> & ->).
    rewrite app_length, L1. cbn [length]. rewrite firstn_app, skipn_app.
    replace (length a1 + 1 - length a1)%nat with 1%nat by lia. rewrite firstn_all2, skipn_all2 by lia. cbn [firstn skipn app].
    rewrite !map_app, somes_app, concat_app. cbn [map concat fst snd]. rewrite app_nil_r. split; [congruence|]. split; reflexivity.
Qed.

Lemma pump_qinv fuel i p : forall s z, qinv (k_q s) -> nth_error (q_readers (k_q s)) i = Some z -> z = RIdle \/ z = RWoken -> qinv (k_q (pump fuel i p s)).
Proof.
  induction fuel as [|fuel IH]; intros s z I H Z; cbn [pump]; [exact I|]. pose proof (try_get_inv i z (k_q s) I H Z) as G.
  assert (L : (i < length (q_readers (k_q s)))%nat) by (apply nth_error_Some; congruence).
  destruct (c_queue (q_conn (k_q s))) as [|m q] eqn:Q; [exact G|]. destruct (react p m); [exact G|].
  apply (IH (moved (try_get i (k_q s)) s) RIdle); [exact G| |auto]. cbn [moved k_q]. unfold try_get. rewrite Q. cbn [q_readers]. apply setnth_same, L.
Qed.

Lemma crun_qinv es : forall s s', qinv (k_q s) -> crun s es = Some s' -> qinv (k_q s').
Proof.
  induction es as [|e es IH]; cbn [crun]; intros s s' I R; [injection R as <-; exact I|]. destruct (cstep s e) as [s1|] eqn:E; [|discriminate].
  apply (IH s1); [|exact R]. destruct e as [j p b|d|j|j].
  - cbn [cstep] in E. destruct (nth_error (k_pc s) j) as [[]|]; try discriminate. destruct p; try discriminate;
      destruct (nth_error (q_readers (k_q s)) j) as [[]|] eqn:Rj; try discriminate; injection E as <-; (eapply pump_qinv; [exact I|exact Rj|auto]).
  - cbn [cstep] in E. destruct (qstep _ _) eqn:Q; [|discriminate]. injection E as <-. exact (qstep_inv _ _ _ I Q).
  - destruct (run_shape s j s1 E) as (x & p & Rj & _ & [(-> & ->)|(_ & q & Q & ->)]); [eapply pump_qinv; [exact I|exact Rj|auto]|exact (qstep_inv _ _ _ I Q)].
  - cbn [cstep] in E. destruct (qstep _ _) eqn:Q; [|discriminate]. injection E as <-. exact (qstep_inv _ _ _ I Q).
Qed.

Lemma firstn_combine {A B} (a : list A) (b : list B) k : firstn k (combine a b) = combine (firstn k a) (firstn k b).
Proof. revert a b. induction k as [|k IH]; intros [|x a] [|y b]; cbn; try reflexivity. f_equal. apply IH. Qed.

Theorem serial_answers n es s ans later : crun (cinit n) es = Some s -> serial n es -> (forall i, ~ In (KTimeout i) es) -> dialogue (all_calls es) ans ->
  SpecConc.answers es ++ later = concat (map fst ans) ->
  (exists k, k_done s = firstn k (combine (map fst (all_calls es)) (map snd ans)) /\ (length (all_calls es) <= k + 1)%nat) /\
  (later = [] -> (forall j, cstep s (KRun j) = None) -> k_done s = combine (map fst (all_calls es)) (map snd ans) /\ c_queue (q_conn (k_q s)) = []).
Proof.
  intros R Se NT D C. destruct (serial_view n es s R Se) as (cs & pend & t & rs & read & Ca & Sq & Dn & W & An & B & Nn).
  assert (N : ~ In None t) by (intros H; destruct (Nn H) as (i & Hi); exact (NT i Hi)). rewrite Ca in D. rewrite An, <- !app_assoc in C.
  destruct (sequential_answers _ _ _ Sq cs pend ans _ eq_refl D N C) as (A1 & A2 & A3). pose proof (forall2_length _ _ _ D) as L. rewrite app_length in L. split.
  - exists (length cs). rewrite Ca, map_app. split.
    + rewrite Dn, A2, firstn_combine, firstn_map, firstn_app, map_length, Nat.sub_diag. cbn [firstn]. rewrite app_nil_r.
      rewrite <- (map_length fst cs) at 2. rewrite firstn_all. reflexivity.
    + rewrite app_length. destruct B as [(-> & _)|(i & p & b & -> & _)]; cbn; lia.
  - intros -> Nr. rewrite app_nil_r in A3. destruct B as [(-> & -> & _)|(i & p & b & -> & Hp & Pi & F & _)].
    + cbn [app length] in *. rewrite Nat.add_0_r in L. rewrite L, skipn_all in A3. rewrite L, firstn_all in A2. cbn in A3. split; [|exact A3]. rewrite Ca, app_nil_r, Dn, A2. reflexivity.
    + exfalso.
      assert (Li : (i < n)%nat).
      { pose proof (crun_readers _ _ _ R) as X. cbn [cinit k_q qinit q_readers] in X. rewrite repeat_length in X.
        pose proof (pcs_readers es (cinit n) s ltac:(cbn; rewrite !repeat_length; reflexivity) R) as Y. rewrite <- X, <- Y. apply nth_error_Some. congruence. }
      destruct (ti_view _ _ _ (tinv_run i _ _ _ [] (tinv_init i n Li) R)) as (cs' & t' & p' & read' & pend' & M & _ & _ & _ & I).
      pose proof (mid_pc _ _ _ _ _ _ M) as Pi'. rewrite Pi in Pi'. injection Pi' as <-.
      destruct (nth_error (q_readers (k_q s)) i) as [x|] eqn:Rx.
      2:{ apply nth_error_None in Rx. pose proof (mid_len _ _ _ _ _ _ M). lia. }
      assert (Dead : forall k x, nth_error (q_readers (k_q s)) k = Some x -> x <> RWoken /\ x <> RWokenC /\ x <> RCancel).
      { intros k y Ry. specialize (Nr k). cbn [cstep] in Nr. rewrite Ry in Nr.
        destruct (nth_error (k_pc s) k) as [q|] eqn:Pk.
        - unfold qstep in Nr. rewrite Ry in Nr. destruct y; try discriminate; repeat split; try discriminate.
          exfalso. destruct (match c_queue (q_conn (k_q s)) with [] => _ | _ => _ end). discriminate.
        - exfalso. apply nth_error_None in Pk. pose proof (pcs_readers es (cinit n) s ltac:(cbn; rewrite !repeat_length; reflexivity) R) as Y.
          assert (k < length (q_readers (k_q s)))%nat by (apply nth_error_Some; congruence). lia. }
      assert (x = RWait). { destruct (Dead i x Rx) as (X1 & X2 & X3). destruct x; try congruence. exfalso. apply Hp, I. reflexivity. } subst x.
      assert (Q : c_queue (q_conn (k_q s)) = []).
      { destruct (c_queue (q_conn (k_q s))) as [|m q] eqn:Q; [reflexivity|]. exfalso.
        destruct (crun_qinv es (cinit n) s (qinv_init n) R) as [_ Qi].
        assert (Wt : (0 < cnt RWait (q_readers (k_q s)))%nat) by (apply cnt_pos; eauto). specialize (Qi Wt). rewrite Q in Qi. cbn [length] in Qi. unfold sched in Qi.
        assert (X : (0 < cnt RWoken (q_readers (k_q s)) \/ 0 < cnt RWokenC (q_readers (k_q s)))%nat) by lia.
        destruct X as [X|X]; apply cnt_pos in X as (k & X); destruct (Dead k _ X) as (X1 & X2 & _); congruence. }
      rewrite Q, app_nil_r in A3. apply Forall2_app_inv_l in D as (a1 & a2 & D1 & D2 & ->). assert (X : exists ms r, a2 = [(ms, r)] /\ whole_answer p ms r).
      { clear - D2. inversion D2 as [|? [ms r] ? a3 Wa D3]; subst. inversion D3; subst. eauto. }
      destruct X as (ms & r & -> & Wa). pose proof (forall2_length _ _ _ D1) as L1. rewrite L1, skipn_app, Nat.sub_diag, skipn_all in A3. cbn [skipn app map concat fst] in A3. rewrite app_nil_r in A3. subst ms.
      destruct (react_ends p read r Wa) as (_ & rd & m & -> & _ & Rm). apply Forall_app in F as [_ F]. inversion F; subst. congruence.
Qed.
