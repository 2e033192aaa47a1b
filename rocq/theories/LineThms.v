(** * Calls over the whole line: the two sides *)
From Coq Require Import String List NArith ZArith Bool Lia.
From Verif Require Import PyStr Tags Messages Protocol Queue QueueThms Sender SenderThms IO Conc SpecConc ConcThms SpecSingle SingleThms SpecSerial SerialThms SpecHouse Line SpecLine.
Import ListNotations.
Open Scope list_scope.

Lemma packets_app a b : packets (a ++ b) = packets a ++ packets b.
Proof. induction a as [|[] a IH]; cbn; congruence. Qed.
Lemma sending_app a b : sending (a ++ b) = sending a ++ sending b.
Proof. induction a as [|[] a IH]; cbn; congruence. Qed.
Lemma started_app a b : started (a ++ b) = started a ++ started b.
Proof. induction a as [|e a IH]; [reflexivity|]. destruct e; cbn [started app]; rewrite ?IH; reflexivity. Qed.
Lemma received_app a b : received_packets (a ++ b) = received_packets a ++ received_packets b.
Proof. induction a as [|[] a IH]; cbn; congruence. Qed.
Lemma handed_app a b : handed (a ++ b) = handed a ++ handed b.
Proof. unfold handed. rewrite filter_app, map_app. reflexivity. Qed.
Lemma crun_join a b : forall s s1 s2, crun s a = Some s1 -> crun s1 b = Some s2 -> crun s (a ++ b) = Some s2.
Proof. induction a as [|e a IH]; cbn [crun app]; intros s s1 s2 A B; [injection A as ->; exact B|]. destruct (cstep s e); [|discriminate]. eapply IH; eassumption. Qed.

Definition who_wrote (c : nat * (pc * list N)) : nat * list N := (fst c, snd (snd c)).
Definition as_frame (c : nat * msg) : nat * list N := (fst c, msg_str (snd c)).

Section water.
Variables high low : nat.
Notation lrun := (lrun high low).
Notation lstep := (lstep high low).
Notation srun := (srun high low).
Notation sstep := (sstep high low).

Lemma srun_join a b : forall s s1 s2, srun s a = Some s1 -> srun s1 b = Some s2 -> srun s (a ++ b) = Some s2.
Proof. induction a as [|e a IH]; cbn [Sender.srun app]; intros s s1 s2 A B; [injection A as ->; exact B|]. destruct (sstep s e); [|discriminate]. eapply IH; eassumption. Qed.
Lemma lrun_app a b : forall l l', lrun l (a ++ b) = Some l' -> exists l1, lrun l a = Some l1 /\ lrun l1 b = Some l'.
Proof. induction a as [|e a IH]; cbn [Line.lrun app]; intros l l' H; [exists l; auto|]. destruct (lstep l e) as [l1|]; [|discriminate]. apply IH, H. Qed.
Lemma lrun_join a b : forall s s1 s2, lrun s a = Some s1 -> lrun s1 b = Some s2 -> lrun s (a ++ b) = Some s2.
Proof. induction a as [|e a IH]; cbn [Line.lrun app]; intros s s1 s2 A B; [injection A as ->; exact B|]. destruct (lstep s e); [|discriminate]. eapply IH; eassumption. Qed.

(** ** One attempt to write *)

Lemma try_shape i k m d s : (i < length (s_tasks s))%nat -> let s' := try_write high i k m d s in
  (s_tasks s' = setnth i (SSleep m d) (s_tasks s) /\ s_done s' = s_done s /\ s_lost s' = s_lost s) \/
  (s_tasks s' = setnth i SIdle (s_tasks s) /\ s_done s' = s_done s ++ [(i, m, if s_lost s then ODropped else OWritten)] /\ s_lost s' = s_lost s).
Proof.
  intros L. cbn zeta. unfold try_write. destruct (s_lock s); [left; auto|]. right.
  destruct (write_same high k d s) as (E1 & E2 & E3 & E4 & _). cbn [finish s_tasks s_done s_lost]. rewrite E1, E2, E4. auto.
Qed.

(** What becomes of an attempt. *)
Inductive tried (i : nat) (p : pc) (m : msg) (l l' : lstate) : Prop :=
| Tr_sleep : s_tasks (l_s l') = setnth i (SSleep m (msg_str m)) (s_tasks (l_s l)) -> s_done (l_s l') = s_done (l_s l) ->
    s_lost (l_s l') = s_lost (l_s l) -> l_c l' = l_c l -> l_next l' = setnth i p (l_next l) -> tried i p m l l'
| Tr_sent : s_tasks (l_s l') = setnth i SIdle (s_tasks (l_s l)) ->
    s_done (l_s l') = s_done (l_s l) ++ [(i, m, if s_lost (l_s l) then ODropped else OWritten)] -> s_lost (l_s l') = s_lost (l_s l) ->
    cstep (l_c l) (KCall i p (msg_str m)) = Some (l_c l') -> l_next l' = setnth i PIdle (l_next l) -> tried i p m l l'.

Lemma attempt_shape i p k m s l l' : (i < length (s_tasks s))%nat -> s_tasks s = s_tasks (l_s l) -> s_done s = s_done (l_s l) -> s_lost s = s_lost (l_s l) ->
  attempt i p (msg_str m) (try_write high i k m (msg_str m) s) l = Some l' -> l_s l' = try_write high i k m (msg_str m) s /\ tried i p m l l'.
Proof.
  intros L Et Ed El H. unfold attempt in H.
  destruct (try_shape i k m (msg_str m) s L) as [(A & B & C)|(A & B & C)]; rewrite A, setnth_same in H by exact L.
  - injection H as <-. split; [reflexivity|]. apply Tr_sleep; cbn [l_s l_c l_next]; [rewrite A, Et|rewrite B, Ed|rewrite C, El| |]; reflexivity.
  - destruct (cstep (l_c l) (KCall i p (msg_str m))) as [c|] eqn:E; [|discriminate]. injection H as <-. split; [reflexivity|].
    apply Tr_sent; cbn [l_s l_c l_next]; [rewrite A, Et|rewrite B, Ed, El|rewrite C, El|exact E|]; reflexivity.
Qed.

(** One event of the line. *)
Inductive lshape (l : lstate) : levent -> lstate -> Prop :=
| Ls_call i p m k l' : nth_error (s_tasks (l_s l)) i = Some SIdle -> nth_error (k_pc (l_c l)) i = Some PIdle -> p <> PIdle -> msg_bytes m = Ok (msg_str m) ->
    sstep (l_s l) (ESend i m k) = Some (l_s l') -> tried i p m l l' -> lshape l (LCall i p m k) l'
| Ls_raise i p m k x l' : nth_error (s_tasks (l_s l)) i = Some SIdle -> msg_bytes m = Err x -> sstep (l_s l) (ESend i m k) = Some (l_s l') ->
    s_tasks (l_s l') = setnth i SIdle (s_tasks (l_s l)) -> s_done (l_s l') = s_done (l_s l) ++ [(i, m, ORaised x)] ->
    s_lost (l_s l') = s_lost (l_s l) -> l_c l' = l_c l -> lshape l (LCall i p m k) l'
| Ls_wake i k m p l' : nth_error (s_tasks (l_s l)) i = Some (SSleep m (msg_str m)) -> nth_error (l_next l) i = Some p ->
    sstep (l_s l) (EWake i k) = Some (l_s l') -> tried i p m l l' -> lshape l (LWake i k) l'
| Ls_cancel i m l' : sstep (l_s l) (ECancelSend i) = Some (l_s l') -> s_done (l_s l') = s_done (l_s l) ++ [(i, m, OCancelled)] -> l_c l' = l_c l -> lshape l (LCancel i) l'
| Ls_drain k l' : sstep (l_s l) (EDrain k) = Some (l_s l') -> s_tasks (l_s l') = s_tasks (l_s l) -> s_done (l_s l') = s_done (l_s l) ->
    s_lost (l_s l') = s_lost (l_s l) -> l_c l' = l_c l -> l_next l' = l_next l -> lshape l (LDrain k) l'
| Ls_lost l' : sstep (l_s l) ELost = Some (l_s l') -> s_tasks (l_s l') = s_tasks (l_s l) -> s_done (l_s l') = s_done (l_s l) -> l_c l' = l_c l -> lshape l LLost l'
| Ls_read e ke l' : cstep (l_c l) ke = Some (l_c l') -> l_s l' = l_s l -> l_next l' = l_next l ->
    (e, ke) = (LRun 0, KRun 0) \/ (exists i, (e, ke) = (LRun i, KRun i)) \/ (exists i, (e, ke) = (LTimeout i, KTimeout i)) \/ (exists d, (e, ke) = (LPacket d, KPacket d)) -> lshape l e l'.

Lemma lstep_shape l e l' : asleep_ok (l_s l) -> lstep l e = Some l' -> lshape l e l'.
Proof.
  intros As H. destruct e as [i p m k|i k|i|k| |d|i|i]; cbn [Line.lstep] in H.
  - destruct (nth_error (k_pc (l_c l)) i) as [[]|] eqn:Pi; try discriminate.
    assert (Hp : p <> PIdle) by (intros ->; discriminate).
    assert (H' : match sstep (l_s l) (ESend i m k) with Some s => match msg_bytes m with Ok data => attempt i p data s l
      | Err x => Some {| l_s := s; l_c := l_c l; l_next := l_next l; l_raised := l_raised l ++ [(i, x)] |} end | None => None end = Some l') by (destruct p; [congruence|exact H|exact H]).
    clear H. destruct (sstep (l_s l) (ESend i m k)) as [s|] eqn:E; [|discriminate]. pose proof E as E0. cbn [Sender.sstep] in E.
    destruct (nth_error (s_tasks (l_s l)) i) as [[]|] eqn:Ti; try discriminate.
    assert (Li : (i < length (s_tasks (l_s l)))%nat) by (apply nth_error_Some; congruence).
    destruct (msg_bytes m) as [data|x] eqn:B.
    + pose proof (bytes_str m data B) as ->. injection E as <-.
      destruct (attempt_shape i p k m (log_call i m (l_s l)) l l' Li eq_refl eq_refl eq_refl H') as (Es & T).
      apply Ls_call; try assumption. rewrite Es. exact E0.
    + injection E as <-. injection H' as <-. eapply Ls_raise; try eassumption; try reflexivity.
  - destruct (nth_error (s_tasks (l_s l)) i) as [[|m data]|] eqn:Ti; try discriminate.
    destruct (nth_error (l_next l) i) as [p|] eqn:Ni; [|discriminate].
    destruct (sstep (l_s l) (EWake i k)) as [s|] eqn:E; [|discriminate]. pose proof E as E0. cbn [Sender.sstep] in E. rewrite Ti in E. injection E as <-.
    assert (Li : (i < length (s_tasks (l_s l)))%nat) by (apply nth_error_Some; congruence).
    pose proof (As i m data Ti) as ->. destruct (attempt_shape i p k m (l_s l) l l' Li eq_refl eq_refl eq_refl H) as (Es & T).
    eapply Ls_wake; try eassumption. rewrite Es. exact E0.
  - destruct (sstep (l_s l) (ECancelSend i)) as [s|] eqn:E; [|discriminate]. injection H as <-. pose proof E as E0. cbn [Sender.sstep] in E.
    destruct (nth_error (s_tasks (l_s l)) i) as [[|m data]|] eqn:Ti; try discriminate. injection E as <-. eapply (Ls_cancel l i m); [exact E0|reflexivity|reflexivity].
  - destruct (sstep (l_s l) (EDrain k)) as [s|] eqn:E; [|discriminate]. injection H as <-. pose proof E as E0. cbn [Sender.sstep] in E.
    destruct (s_lost (l_s l)) eqn:Lo; [discriminate|]. destruct (s_buffer (l_s l)) as [|b bs]; [discriminate|]. destruct (_ && _)%bool; [|discriminate]. injection E as <-.
    match type of E0 with _ = Some (maybe_resume low ?x) => destruct (maybe_resume_same low x) as (M1 & M2 & M3 & M4 & M5 & M6) end.
    apply Ls_drain; cbn [only_s l_s l_c l_next]; try reflexivity; try assumption; congruence.
  - destruct (sstep (l_s l) ELost) as [s|] eqn:E; [|discriminate]. injection H as <-. pose proof E as E0. cbn [Sender.sstep] in E.
    destruct (s_lost (l_s l)); [discriminate|]. injection E as <-. apply Ls_lost; cbn [only_s l_s l_c]; try reflexivity. exact E0.
  - unfold lift_c in H. destruct (cstep (l_c l) (KPacket d)) as [c|] eqn:E; [|discriminate]. injection H as <-. eapply Ls_read; [exact E|reflexivity|reflexivity|eauto 8].
  - unfold lift_c in H. destruct (cstep (l_c l) (KRun i)) as [c|] eqn:E; [|discriminate]. injection H as <-. eapply Ls_read; [exact E|reflexivity|reflexivity|eauto 8].
  - unfold lift_c in H. destruct (cstep (l_c l) (KTimeout i)) as [c|] eqn:E; [|discriminate]. injection H as <-. eapply Ls_read; [exact E|reflexivity|reflexivity|eauto 8].
Qed.

(** ** The two sides of a run *)

Lemma crun_one s e s' : cstep s e = Some s' -> crun s [e] = Some s'.
Proof. cbn [crun]. intros ->. reflexivity. Qed.
Lemma srun_one s e s' : sstep s e = Some s' -> srun s [e] = Some s'.
Proof. cbn [Sender.srun]. intros ->. reflexivity. Qed.

Lemma step_sides l e l' : lshape l e l' -> exists ke x, srun (l_s l) (sending [e]) = Some (l_s l') /\ crun (l_c l) ke = Some (l_c l') /\
  received_packets ke = packets [e] /\ (forall i, In (KTimeout i) ke -> In (LTimeout i) [e]) /\
  s_done (l_s l') = s_done (l_s l) ++ x /\ map as_frame (handed x) = map who_wrote (all_calls ke).
Proof.
  assert (T : forall i p m l l', tried i p m l l' -> exists ke x, crun (l_c l) ke = Some (l_c l') /\ received_packets ke = [] /\ (forall j, ~ In (KTimeout j) ke) /\
    s_done (l_s l') = s_done (l_s l) ++ x /\ map as_frame (handed x) = map who_wrote (all_calls ke)).
  { intros i p m l0 l1 [A B L C D|A B L C D].
    - exists [], []. rewrite C, B, app_nil_r. repeat split; auto.
    - exists [KCall i p (msg_str m)], [(i, m, if s_lost (l_s l0) then ODropped else OWritten)]. split; [apply crun_one, C|]. split; [reflexivity|].
      split; [intros j [H|[]]; discriminate|]. split; [exact B|]. destruct (s_lost (l_s l0)); reflexivity. }
  intros H. destruct H as [i p m k l' Ti Pi Hp B E Tr|i p m k x l' Ti B E A1 A2 A3 A4|i k m p l' Ti Ni E Tr|i m l' E A1 A2|k l' E A1 A2 A3 A4 A5|l' E A1 A2 A3|e ke l' C S N K].
  - destruct (T _ _ _ _ _ Tr) as (ke & x & C1 & C2 & C3 & C4 & C5). exists ke, x. split; [apply srun_one, E|]. repeat (split; [assumption|]). split; [|auto].
    intros j Hj. destruct (C3 j Hj).
  - exists [], [(i, m, ORaised x)]. split; [apply srun_one, E|]. rewrite A4. repeat split; auto. intros j [].
  - destruct (T _ _ _ _ _ Tr) as (ke & x & C1 & C2 & C3 & C4 & C5). exists ke, x. split; [apply srun_one, E|]. repeat (split; [assumption|]). split; [|auto].
    intros j Hj. destruct (C3 j Hj).
  - exists [], [(i, m, OCancelled)]. split; [apply srun_one, E|]. rewrite A2. repeat split; auto. intros j [].
  - exists [], []. split; [apply srun_one, E|]. rewrite A4, A2, app_nil_r. repeat split; auto. intros j [].
  - exists [], []. split; [apply srun_one, E|]. rewrite A3, A2, app_nil_r. repeat split; auto. intros j [].
  - exists [ke], []. rewrite S, app_nil_r.
    destruct K as [K|[(j & K)|[(j & K)|(d & K)]]]; injection K as -> ->; (split; [reflexivity|]; split; [apply crun_one, C|]; split; [reflexivity|]; split; [|auto]);
      intros i [H|[]]; try discriminate; injection H as ->; left; reflexivity.
Qed.

(** Every run over the line is a run of the sending side and a run of the
    readers, in which a call starts when the transport takes its frame. *)
Theorem sides n es : forall l, lrun (linit n) es = Some l ->
  srun (sinit n) (sending es) = Some (l_s l) /\
  exists ks, crun (cinit n) ks = Some (l_c l) /\ received_packets ks = packets es /\ (forall i, In (KTimeout i) ks -> In (LTimeout i) es) /\
    map who_wrote (all_calls ks) = map as_frame (handed (s_done (l_s l))).
Proof.
  induction es as [|e es IH] using rev_ind; intros l R.
  - cbn in R. injection R as <-. split; [reflexivity|]. exists []. repeat split; auto.
  - destruct (lrun_app es [e] _ _ R) as (l0 & R0 & R1). cbn [Line.lrun] in R1. destruct (lstep l0 e) as [l1|] eqn:E; [|discriminate]. injection R1 as ->.
    destruct (IH l0 R0) as (S & ks & C & P & T & W).
    pose proof (b_sleep _ (bytes_reachable high low n _ _ S)) as As.
    destruct (step_sides l0 e l (lstep_shape _ _ _ As E)) as (ke & x & S1 & C1 & P1 & T1 & D1 & W1).
    split; [rewrite sending_app; eapply srun_join; eassumption|]. exists (ks ++ ke). split; [eapply crun_join; eassumption|].
    rewrite received_app, packets_app, P, P1. split; [reflexivity|]. split.
    + intros i. rewrite !in_app_iff. intros [H|H]; auto.
    + rewrite all_calls_app, map_app, W, <- W1, D1, handed_app, map_app. reflexivity.
Qed.
End water.
