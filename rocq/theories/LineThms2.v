(** * Calls over the whole line, one at a time, in front of a house *)
From Coq Require Import String List NArith ZArith Bool Lia.
From Verif Require Import PyStr Tags Messages MessageFacts SpecMsg SpecTag SpecProto ProtoThms Protocol Queue QueueThms Sender SenderThms IO Client SpecItem Items
  Conc SpecConc ConcThms SpecSingle SingleThms SpecSerial SerialThms SpecHouse HouseThms HouseThms2 SpecTogether SerialThms2 TogetherThms Line SpecLine LineThms.
Import ListNotations.
Open Scope list_scope.

(** ** Locked runs *)

Lemma serial_snoc n ks e s : serial n ks -> crun (cinit n) ks = Some s -> (forall i p b, e = KCall i p b -> Forall (eq PIdle) (k_pc s)) -> serial n (ks ++ [e]).
Proof.
  intros S R H pre i p b post s' E R'. destruct post as [|x post] using rev_ind.
  - apply app_inj_tail in E as (-> & ->). rewrite R in R'. injection R' as <-. eapply H; reflexivity.
  - clear IHpost. assert (E' : ks ++ [e] = (pre ++ KCall i p b :: post) ++ [x]) by (rewrite E, <- app_assoc; reflexivity).
    apply app_inj_tail in E' as (-> & _). eapply S; [reflexivity|exact R'].
Qed.

Lemma idle_step c ke c' : Forall (eq PIdle) (k_pc c) -> (forall i p b, ke <> KCall i p b) -> cstep c ke = Some c' -> Forall (eq PIdle) (k_pc c').
Proof.
  intros F N H. rewrite Forall_forall in F.
  assert (P : forall fuel i s, k_pc (pump fuel i PIdle s) = k_pc s).
  { induction fuel as [|fuel IH]; intros i s; cbn [pump]; [reflexivity|]. destruct (c_queue (q_conn (k_q s))); [reflexivity|]. cbn [Conc.react]. rewrite IH. reflexivity. }
  destruct ke as [i p b|d|j|j]; [exfalso; eapply N; reflexivity| | |].
  - cbn [cstep] in H. destruct (qstep _ _); [|discriminate]. injection H as <-. apply Forall_forall, F.
  - destruct (run_shape c j c' H) as (x & p & _ & Pj & [(_ & ->)|(_ & q & _ & ->)]).
    + rewrite <- (F p (nth_error_In _ _ Pj)). unfold go. rewrite P. apply Forall_forall, F.
    + cbn [finished k_pc]. apply Forall_forall. intros y Hy. apply In_nth_error in Hy as (k & Hk).
      destruct (Nat.eq_dec k j) as [->|Nk].
      * rewrite setnth_same in Hk by (apply nth_error_Some; congruence). congruence.
      * rewrite setnth_other in Hk by congruence. apply F. eapply nth_error_In, Hk.
  - cbn [cstep] in H. destruct (qstep _ _); [|discriminate]. injection H as <-. apply Forall_forall, F.
Qed.

Section water.
Variables high low : nat.
Notation lrun := (lrun high low).
Notation lstep := (lstep high low).

Lemma locked_app n a b : locked high low n (a ++ b) -> locked high low n a.
Proof. intros H pre i p m k post l E. apply (H pre i p m k (post ++ b) l). rewrite E, <- app_assoc. reflexivity. Qed.

(** The call that waits for the transport. *)
Inductive dozing (l : lstate) : list (nat * (pc * list N)) -> Prop :=
| Dz_none : Forall (eq SIdle) (s_tasks (l_s l)) -> dozing l []
| Dz_one i p m : nth_error (s_tasks (l_s l)) i = Some (SSleep m (msg_str m)) -> nth_error (l_next l) i = Some p ->
    (forall j t, nth_error (s_tasks (l_s l)) j = Some t -> j <> i -> t = SIdle) -> Forall (eq PIdle) (k_pc (l_c l)) -> dozing l [(i, (p, msg_str m))].

Definition under_lock (n : nat) (es : list levent) (l : lstate) : Prop := exists ks w,
  crun (cinit n) ks = Some (l_c l) /\ received_packets ks = packets es /\ (forall i, In (KTimeout i) ks -> In (LTimeout i) es) /\ serial n ks /\
  all_calls ks ++ w = started es /\ dozing l w /\ s_lost (l_s l) = false /\ Forall (fun x => snd x = OWritten) (s_done (l_s l)) /\
  map who_wrote (all_calls ks) = map as_frame (map fst (s_done (l_s l))) /\ length (l_next l) = length (s_tasks (l_s l)).

Lemma all_idle_set (ts : list sstat) i : (forall j t, nth_error ts j = Some t -> j <> i -> t = SIdle) -> Forall (eq SIdle) (setnth i SIdle ts).
Proof.
  intros H. apply Forall_forall. intros t Ht. apply In_nth_error in Ht as (k & Hk). destruct (Nat.eq_dec k i) as [->|Nk].
  - destruct (Nat.lt_ge_cases i (length ts)) as [L|L]; [rewrite setnth_same in Hk by exact L; congruence|].
    assert (nth_error (setnth i SIdle ts) i = None) by (apply nth_error_None; rewrite setnth_length; exact L). congruence.
  - rewrite setnth_other in Hk by congruence. symmetry. eapply H; eassumption.
Qed.

Lemma tried_lock n es e l l' i p m ks : crun (cinit n) ks = Some (l_c l) -> received_packets ks = packets (es ++ [e]) -> (forall i, In (KTimeout i) ks -> In (LTimeout i) (es ++ [e])) -> serial n ks ->
  all_calls ks ++ [(i, (p, msg_str m))] = started (es ++ [e]) -> s_lost (l_s l) = false -> Forall (fun x => snd x = OWritten) (s_done (l_s l)) ->
  map who_wrote (all_calls ks) = map as_frame (map fst (s_done (l_s l))) -> length (l_next l) = length (s_tasks (l_s l)) ->
  (i < length (s_tasks (l_s l)))%nat -> (forall j t, nth_error (s_tasks (l_s l)) j = Some t -> j <> i -> t = SIdle) -> Forall (eq PIdle) (k_pc (l_c l)) ->
  tried i p m l l' -> under_lock n (es ++ [e]) l'.
Proof.
  intros C P T S A L D W N Li O I [A1 A2 A3 A4 A5|A1 A2 A3 A4 A5].
  - exists ks, [(i, (p, msg_str m))]. rewrite A4. repeat (split; [assumption|]). split.
    { apply Dz_one; rewrite ?A1, ?A5, ?A4; [apply setnth_same, Li|apply setnth_same; congruence| |exact I].
      intros j t Hj Nj. rewrite setnth_other in Hj by congruence. eapply O; eassumption. }
    split; [congruence|]. split; [congruence|]. split; [rewrite A2; exact W|]. rewrite A5, A1, !setnth_length. exact N.
  - rewrite L in A2. exists (ks ++ [KCall i p (msg_str m)]), []. rewrite app_nil_r.
    split; [eapply crun_join; [exact C|apply crun_one, A4]|]. split; [rewrite received_app; cbn [received_packets]; rewrite app_nil_r; exact P|].
    split; [intros j; rewrite in_app_iff; intros [H|[H|[]]]; [exact (T j H)|discriminate]|].
    split; [eapply serial_snoc; [exact S|exact C|auto]|]. split; [rewrite all_calls_app; exact A|].
    split; [apply Dz_none; rewrite A1; apply all_idle_set, O|]. split; [congruence|].
    split; [rewrite A2; apply Forall_app; split; [exact D|constructor; [reflexivity|constructor]]|].
    split; [rewrite all_calls_app, A2, !map_app, W; reflexivity|]. rewrite A5, A1, !setnth_length. exact N.
Qed.

Lemma lock_calm n es : forall l, lrun (linit n) es = Some l -> locked high low n es -> calm es -> under_lock n es l.
Proof.
  induction es as [|e es IH] using rev_ind; intros l R Lk U.
  - cbn in R. injection R as <-. exists [], []. split; [reflexivity|]. split; [reflexivity|]. split; [intros i []|]. split; [intros pre i p b post s E; destruct pre; discriminate|].
    split; [reflexivity|]. split; [apply Dz_none; cbn; apply Forall_forall; intros x Hx; symmetry; exact (repeat_spec _ _ _ Hx)|].
    split; [reflexivity|]. split; [constructor|]. split; [reflexivity|]. cbn. rewrite !repeat_length. reflexivity.
  - destruct (lrun_app high low es [e] _ _ R) as (l0 & R0 & R1). cbn [Line.lrun] in R1. destruct (lstep l0 e) as [l1|] eqn:E; [|discriminate]. injection R1 as ->.
    unfold calm in U. apply Forall_app in U as (U0 & U1). inversion U1 as [|? ? Ue _]; subst.
    destruct (IH l0 R0 (locked_app _ _ _ Lk) U0) as (ks & w & C & P & T & S & A & Dz & L & D & W & N).
    destruct (sides high low n es l0 R0) as (Sr & _). pose proof (b_sleep _ (bytes_reachable high low n _ _ Sr)) as As.
    pose proof (lstep_shape high low l0 e l As E) as H.
    assert (K : forall i p m k, e = LCall i p m k -> Forall (eq SIdle) (s_tasks (l_s l0)) /\ Forall (eq PIdle) (k_pc (l_c l0)) /\ w = []).
    { intros i p m k ->. destruct (Lk es i p m k [] l0 eq_refl R0) as (K1 & K2). split; [exact K1|]. split; [exact K2|].
      destruct Dz as [|i' p' m' Hs _ _ _]; [reflexivity|]. rewrite Forall_forall in K1. pose proof (K1 _ (nth_error_In _ _ Hs)) as X. discriminate X. }
    destruct H as [i p m k l' Ti Pi Hp B Es Tr|i p m k x l' Ti B Es A1 A2 A3 A4|i k m p l' Ti Ni Es Tr|i m l' Es A1 A2|k l' Es A1 A2 A3 A4 A5|l' Es A1 A2 A3|e ke l' Ck Sk Nk Kk].
    + destruct (K _ _ _ _ eq_refl) as (K1 & K2 & ->). rewrite app_nil_r in A.
      eapply (tried_lock n es _ l0 l' i p m ks); try eassumption.
      * rewrite packets_app, P. cbn. rewrite app_nil_r. reflexivity.
      * intros j Hj. apply in_or_app. left. exact (T j Hj).
      * rewrite started_app, A. reflexivity.
      * apply nth_error_Some. congruence.
      * intros j t Hj _. rewrite Forall_forall in K1. symmetry. apply K1. eapply nth_error_In, Hj.
    + congruence.
    + destruct Dz as [I|i' p' m' Hs Hn O I].
      { rewrite Forall_forall in I. pose proof (I _ (nth_error_In _ _ Ti)) as X. discriminate X. }
      assert (i = i') by (destruct (Nat.eq_dec i i') as [X|X]; [exact X|]; pose proof (O _ _ Ti X) as Y; discriminate Y). subst i'.
      rewrite Hs in Ti. injection Ti as <-. rewrite Hn in Ni. injection Ni as <-.
      eapply (tried_lock n es _ l0 l' i p' m' ks); try eassumption.
      * rewrite packets_app, P. cbn. rewrite app_nil_r. reflexivity.
      * intros j Hj. apply in_or_app. left. exact (T j Hj).
      * rewrite started_app, A. cbn. rewrite app_nil_r. reflexivity.
      * apply nth_error_Some. congruence.
    + destruct Ue.
    + exists ks, w. rewrite A4, A2, A3, packets_app, started_app. cbn [packets started]. rewrite !app_nil_r. split; [assumption|]. split; [assumption|]. split; [intros j Hj; apply in_or_app; left; exact (T j Hj)|]. repeat (split; [assumption|]).
      split; [|repeat (split; [assumption|]); congruence].
      destruct Dz as [I|i p m Hs Hn O I]; [apply Dz_none; congruence|apply Dz_one; rewrite ?A1, ?A5, ?A4; assumption].
    + destruct Ue.
    + assert (Nc : forall i p b, ke <> KCall i p b) by (intros i p b ->; destruct Kk as [X|[(j & X)|[(j & X)|(d & X)]]]; discriminate X).
      exists (ks ++ [ke]), w. rewrite Sk, Nk. split; [eapply crun_join; [exact C|apply crun_one, Ck]|].
      assert (X1 : received_packets [ke] = packets [e]) by (destruct Kk as [X|[(j & X)|[(j & X)|(d & X)]]]; injection X as -> ->; reflexivity).
      assert (X2 : all_calls [ke] = []) by (destruct Kk as [X|[(j & X)|[(j & X)|(d & X)]]]; injection X as -> ->; reflexivity).
      assert (X3 : started [e] = []) by (destruct Kk as [X|[(j & X)|[(j & X)|(d & X)]]]; injection X as -> ->; reflexivity).
      assert (X4 : forall j, ke = KTimeout j -> e = LTimeout j) by (intros j ->; destruct Kk as [X|[(j' & X)|[(j' & X)|(d & X)]]]; try discriminate X; injection X as -> ->; reflexivity).
      split; [rewrite received_app, packets_app, P, X1; reflexivity|].
      split; [intros j; rewrite !in_app_iff; intros [H|[H|[]]]; [left; exact (T j H)|right; left; exact (X4 j H)]|].
      split; [eapply serial_snoc; [exact S|exact C|]; intros i p b X; destruct (Nc i p b X)|].
      rewrite all_calls_app, X2, app_nil_r, started_app, X3, app_nil_r. split; [exact A|].
      split; [|repeat (split; [assumption|]); assumption].
      destruct Dz as [I|i p m Hs Hn O I]; [apply Dz_none; rewrite Sk; exact I|apply Dz_one; rewrite ?Sk, ?Nk; try assumption]. eapply idle_step; eassumption.
Qed.

Lemma undisturbed_calm es : undisturbed es -> calm es /\ forall i, ~ In (LTimeout i) es.
Proof.
  intros U. split.
  - unfold calm, undisturbed in *. rewrite Forall_forall in *. intros e He. specialize (U e He). destruct e; auto.
  - intros i Hi. unfold undisturbed in U. rewrite Forall_forall in U. exact (U _ Hi).
Qed.
Lemma lock_run n es l : lrun (linit n) es = Some l -> locked high low n es -> undisturbed es -> exists ks w,
  crun (cinit n) ks = Some (l_c l) /\ received_packets ks = packets es /\ (forall i, ~ In (KTimeout i) ks) /\ serial n ks /\
  all_calls ks ++ w = started es /\ dozing l w /\ s_lost (l_s l) = false /\ Forall (fun x => snd x = OWritten) (s_done (l_s l)) /\
  map who_wrote (all_calls ks) = map as_frame (map fst (s_done (l_s l))) /\ length (l_next l) = length (s_tasks (l_s l)).
Proof.
  intros R Lk U. destruct (undisturbed_calm es U) as (Cm & Nt). destruct (lock_calm n es l R Lk Cm) as (ks & w & C & P & T & Rest).
  exists ks, w. split; [exact C|]. split; [exact P|]. split; [|exact Rest]. intros i Hi. exact (Nt i (T i Hi)).
Qed.
End water.
