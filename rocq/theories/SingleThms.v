(** * Proofs: what one task sees of a shared client *)
From Coq Require Import String List NArith ZArith Bool Lia.
From Verif Require Import PyStr Tags Messages SpecMsg Protocol Queue QueueThms IO Client SpecItem Items HandshakeThms ItemThms Conc SpecConc ConcThms SpecSingle.
Import ListNotations.
Open Scope list_scope.

Lemma own_app {A} i (a b : list (nat * A)) : own i (a ++ b) = own i a ++ own i b.
Proof. induction a as [|[j x] a IH]; cbn; [reflexivity|]. destruct (Nat.eqb j i); cbn; congruence. Qed.

Lemma own_same {A} i (x : A) : own i [(i, x)] = [x].
Proof. cbn. rewrite Nat.eqb_refl. reflexivity. Qed.

Lemma own_other {A} i j (x : A) : j <> i -> own i [(j, x)] = [].
Proof. intros H. cbn. apply Nat.eqb_neq in H. rewrite H. reflexivity. Qed.

Lemma calls_app i a b : calls i (a ++ b) = calls i a ++ calls i b.
Proof. induction a as [|[] a IH]; cbn; try assumption; [reflexivity|]. destruct (Nat.eqb i0 i); cbn; congruence. Qed.

Lemma somes_app a b : somes (a ++ b) = somes a ++ somes b.
Proof. induction a as [|[m|] a IH]; cbn; congruence. Qed.

Lemma somes_map l : somes (map Some l) = l.
Proof. induction l; cbn; congruence. Qed.

(** ** The program of a call *)

Lemma replies_read keep read x : Forall (fun m => react (PRequest keep) m = None) read ->
  forall es y r, replies (Y:=Empty_set) keep (fun _ => Ok []) x = (es, y, r) ->
  replies (Y:=Empty_set) keep (fun _ => Ok []) (map Some read ++ x) = (map Got read ++ es, y, r).
Proof.
  induction 1 as [|m read E _ IH]; intros es y r H; cbn [map app]; [exact H|].
  rewrite (react_replies keep (fun _ => Ok [])), E. rewrite (IH _ _ _ H). reflexivity.
Qed.

Lemma prog_ends p b read m r : p <> PIdle -> Forall (fun m => react p m = None) read -> react p m = Some r ->
  exists es, forall x, prog p b ((map Some read ++ [Some m]) ++ x) = (es, x, r).
Proof.
  intros Hp F E. destruct p as [| |keep]; [congruence| |].
  - destruct F as [|m' read X F]; [|rewrite react_command in X; discriminate]. exists [Sent b; Got m]. intros x.
    cbn [prog map app]. unfold andthen, put, take. rewrite react_check, E. reflexivity.
  - exists (Sent b :: map Got read ++ [Got m]). intros x. rewrite <- app_assoc. cbn [prog app]. unfold andthen, put.
    rewrite (replies_read keep read (Some m :: x) F [Got m] x r); [reflexivity|].
    rewrite (react_replies keep (fun _ => Ok [])), E. reflexivity.
Qed.

Lemma prog_times_out p b read : p <> PIdle -> Forall (fun m => react p m = None) read ->
  exists es, forall x, prog p b ((map Some read ++ [None]) ++ x) = (es, x, Err TimeoutError).
Proof.
  intros Hp F. destruct p as [| |keep]; [congruence| |].
  - destruct F as [|m' read X F]; [|rewrite react_command in X; discriminate]. exists [Sent b]. intros x. reflexivity.
  - exists (Sent b :: map Got read ++ []). intros x. rewrite <- app_assoc. cbn [prog app]. unfold andthen, put.
    rewrite (replies_read keep read (None :: x) F [] x (Err TimeoutError)); reflexivity.
Qed.

(** ** Waking *)

Lemma wakeup_readers gs rs k : length (snd (wakeup gs rs)) = length rs /\
  (nth_error (snd (wakeup gs rs)) k = nth_error rs k \/ (nth_error rs k = Some RWait /\ nth_error (snd (wakeup gs rs)) k = Some RWoken)).
Proof.
  revert rs. induction gs as [|g gs IH]; intros rs; cbn [wakeup snd]; [auto|].
  destruct (nth_error rs g) as [[]|] eqn:E; try apply IH. cbn [snd]. split; [apply setnth_length|].
  destruct (Nat.eq_dec g k) as [<-|N]; [|left; apply setnth_other; exact N].
  right. split; [exact E|]. apply setnth_same. apply nth_error_Some. congruence.
Qed.

Lemma wakeups_readers n gs rs k : length (snd (wakeups n gs rs)) = length rs /\
  (nth_error (snd (wakeups n gs rs)) k = nth_error rs k \/ (nth_error rs k = Some RWait /\ nth_error (snd (wakeups n gs rs)) k = Some RWoken)).
Proof.
  revert gs rs. induction n as [|n IH]; intros gs rs; cbn [wakeups snd]; [auto|].
  pose proof (wakeup_readers gs rs k) as [L W]. destruct (wakeup gs rs) as [gs1 rs1]. cbn [snd] in *.
  destruct (IH gs1 rs1) as [L2 W2]. split; [congruence|].
  destruct W as [W|[W1 W2']], W2 as [X|[X1 X2]].
  - left. congruence.
  - right. split; congruence.
  - right. split; congruence.
  - congruence.
Qed.

(** ** The invariant of task [i] *)

(** Within a call: [cs] are done, [t] is what they read, the call of [p] read [read]. *)
Record mid (i : nat) (s : cstate) (cs : list (pc * list N)) (t : script) (p : pc) (read : list msg) : Prop := {
  mid_done : sequential cs t (own i (k_done s));
  mid_out : own i (q_out (k_q s)) = somes t ++ read;
  mid_pc : nth_error (k_pc s) i = Some p;
  mid_len : (i < length (q_readers (k_q s)))%nat }.

Record tinv (i : nat) (s : cstate) (es : list kevent) : Prop := {
  ti_view : exists cs t p read pend, mid i s cs t p read /\ calls i es = cs ++ pend /\ in_progress p read pend /\
    (In None t -> In (KTimeout i) es) /\ (p = PIdle <-> nth_error (q_readers (k_q s)) i = Some RIdle);
  ti_writes : own i (k_writes s) = map snd (calls i es);
  ti_cancel : forall x, nth_error (q_readers (k_q s)) i = Some x -> x = RWokenC \/ x = RCancel -> In (KTimeout i) es }.

Lemma finished_view i s r q cs t p read b : mid i s cs t p read -> p <> PIdle ->
  forall t1 es, (forall x, prog p b (t1 ++ x) = (es, x, r)) -> own i (q_out q) = somes t ++ somes t1 ->
  length (q_readers q) = length (q_readers (k_q s)) ->
  mid i (finished i r q s) (cs ++ [(p, b)]) (t ++ t1) PIdle [].
Proof.
  intros [D O P L] Hp t1 es E Oq Lq. split; cbn [finished k_done k_q k_pc].
  - rewrite own_app, own_same. eapply Q_next; eassumption.
  - rewrite app_nil_r, somes_app. exact Oq.
  - apply setnth_same. apply nth_error_Some. congruence.
  - congruence.
Qed.

Lemma pump_view fuel i p b : forall s cs t read, (length (c_queue (q_conn (k_q s))) < fuel)%nat -> p <> PIdle ->
  mid i s cs t p read -> Forall (fun m => react p m = None) read ->
  k_writes (pump fuel i p s) = k_writes s /\
  exists cs' t' p' read' pend, mid i (pump fuel i p s) cs' t' p' read' /\ cs ++ [(p, b)] = cs' ++ pend /\ in_progress p' read' pend /\
    (In None t' -> In None t) /\ (p' = PIdle /\ nth_error (q_readers (k_q (pump fuel i p s))) i = Some RIdle \/
                                  p' <> PIdle /\ nth_error (q_readers (k_q (pump fuel i p s))) i = Some RWait).
Proof.
  induction fuel as [|fuel IH]; intros s cs t read Hf Hp M F; [lia|]. cbn [pump].
  destruct (c_queue (q_conn (k_q s))) as [|m q] eqn:Q.
  - split; [reflexivity|]. exists cs, t, p, read, [(p, b)]. destruct M as [D O P L].
    assert (T : q_readers (try_get i (k_q s)) = setnth i RWait (q_readers (k_q s)) /\ q_out (try_get i (k_q s)) = q_out (k_q s))
      by (unfold try_get; rewrite Q; auto). destruct T as [T1 T2].
    split; [split; cbn [moved k_done k_q k_pc]; [exact D|rewrite T2; exact O|exact P|rewrite T1, setnth_length; exact L]|].
    split; [reflexivity|]. split; [right; split; [exact Hp|]; exists b; auto|]. split; [auto|]. right. split; [exact Hp|].
    cbn [moved k_q]. rewrite T1. apply setnth_same, L.
  - assert (T : q_readers (try_get i (k_q s)) = setnth i RIdle (q_readers (k_q s)) /\ q_out (try_get i (k_q s)) = q_out (k_q s) ++ [(i, m)] /\
      c_queue (q_conn (try_get i (k_q s))) = q) by (unfold try_get; rewrite Q; auto). destruct T as (T1 & T2 & T3).
    destruct (react p m) as [r|] eqn:E.
    + split; [reflexivity|]. destruct (prog_ends p b read m r Hp F E) as (es & X).
      exists (cs ++ [(p, b)]), (t ++ (map Some read ++ [Some m])), PIdle, [], [].
      split. { eapply finished_view; [exact M|exact Hp|exact X| |rewrite T1; apply setnth_length].
        rewrite T2, own_app, own_same, (mid_out _ _ _ _ _ _ M), somes_app, somes_map, <- app_assoc. reflexivity. }
      split; [rewrite app_nil_r; reflexivity|]. split; [left; auto|]. split.
      { rewrite !in_app_iff. intros [H|[H|[H|[]]]]; [exact H| |discriminate]. apply in_map_iff in H as (? & X1 & _). discriminate. }
      left. split; [reflexivity|]. cbn [finished k_q]. rewrite T1. apply setnth_same, (mid_len _ _ _ _ _ _ M).
    + destruct (IH (moved (try_get i (k_q s)) s) cs t (read ++ [m])) as (W & R); [cbn [moved k_q]; rewrite T3; cbn in Hf; lia|exact Hp| |apply Forall_app; auto|].
      { destruct M as [D O P L]. split; cbn [moved k_done k_q k_pc];
          [exact D|rewrite T2, own_app, own_same, O, <- app_assoc; reflexivity|exact P|rewrite T1, setnth_length; exact L]. }
      split; [exact W|exact R].
Qed.

(** Only task [j] moves in [pump j]. *)
Lemma pump_other fuel i j p : j <> i -> forall s,
  own i (k_done (pump fuel j p s)) = own i (k_done s) /\ own i (q_out (k_q (pump fuel j p s))) = own i (q_out (k_q s)) /\
  nth_error (k_pc (pump fuel j p s)) i = nth_error (k_pc s) i /\ k_writes (pump fuel j p s) = k_writes s /\
  nth_error (q_readers (k_q (pump fuel j p s))) i = nth_error (q_readers (k_q s)) i /\
  length (q_readers (k_q (pump fuel j p s))) = length (q_readers (k_q s)).
Proof.
  intros N. induction fuel as [|fuel IH]; intros s; cbn [pump]; [repeat split; reflexivity|].
  destruct (c_queue (q_conn (k_q s))) as [|m q] eqn:Q.
  - cbn [moved k_done k_q k_pc k_writes]. unfold try_get. rewrite Q. cbn [q_out q_readers]. rewrite setnth_other, setnth_length by exact N. repeat split; reflexivity.
  - destruct (react p m) as [r|].
    + cbn [finished k_done k_q k_pc k_writes]. unfold try_get. rewrite Q. cbn [q_out q_readers].
      rewrite !own_app, !own_other, !app_nil_r, !setnth_other, setnth_length by exact N. repeat split; reflexivity.
    + destruct (IH (moved (try_get j (k_q s)) s)) as (A & B & C & D & E & F). rewrite A, B, C, D, E, F.
      cbn [moved k_done k_q k_pc k_writes]. unfold try_get. rewrite Q. cbn [q_out q_readers].
      rewrite own_app, own_other, app_nil_r, setnth_other, setnth_length by exact N. repeat split; reflexivity.
Qed.

(** A step that leaves task [i] alone, but for waking its reader. *)
Lemma tinv_keep i s s' es e : tinv i s es -> calls i [e] = [] ->
  own i (k_done s') = own i (k_done s) -> own i (q_out (k_q s')) = own i (q_out (k_q s)) -> nth_error (k_pc s') i = nth_error (k_pc s) i ->
  own i (k_writes s') = own i (k_writes s) -> length (q_readers (k_q s')) = length (q_readers (k_q s)) ->
  (nth_error (q_readers (k_q s')) i = nth_error (q_readers (k_q s)) i \/
   (nth_error (q_readers (k_q s)) i = Some RWait /\ nth_error (q_readers (k_q s')) i = Some RWoken)) ->
  tinv i s' (es ++ [e]).
Proof.
  intros [(cs & t & p & read & pend & [D O P L] & C & I & Nt & Rd) W K] Ce E1 E2 E3 E4 E5 E6. split.
  - exists cs, t, p, read, pend. split; [split; [rewrite E1; exact D|rewrite E2; exact O|rewrite E3; exact P|rewrite E5; exact L]|].
    split; [rewrite calls_app, Ce, app_nil_r; exact C|]. split; [exact I|]. split; [intros H; apply in_or_app; left; auto|].
    destruct E6 as [E6|[E6 E7]]; [rewrite E6; exact Rd|]. rewrite Rd, E6, E7. split; discriminate.
  - rewrite E4, calls_app, Ce, app_nil_r. exact W.
  - intros x Hx Hc. apply in_or_app. left. destruct E6 as [E6|[E6 E7]]; [rewrite E6 in Hx; eapply K; eassumption|].
    rewrite E7 in Hx. injection Hx as <-. destruct Hc; discriminate.
Qed.

Lemma tinv_go i s es e p read cs t b : mid i s cs t p read -> p <> PIdle -> Forall (fun m => react p m = None) read ->
  calls i (es ++ [e]) = cs ++ [(p, b)] -> (In None t -> In (KTimeout i) (es ++ [e])) -> own i (k_writes s) = map snd (calls i (es ++ [e])) ->
  tinv i (go i p s) (es ++ [e]).
Proof.
  intros M Hp F C Nt W. unfold go.
  destruct (pump_view (S (length (c_queue (q_conn (k_q s))))) i p b s cs t read ltac:(lia) Hp M F) as (W' & cs' & t' & p' & read' & pend & M' & C' & I' & N' & R').
  split.
  - exists cs', t', p', read', pend. split; [exact M'|]. split; [congruence|]. split; [exact I'|]. split; [auto|].
    destruct R' as [[-> R]|[R1 R2]]; [rewrite R; split; auto|]. rewrite R2. split; [contradiction|discriminate].
  - rewrite W'. exact W.
  - intros x Hx Hc. destruct R' as [[_ R]|[_ R]]; rewrite R in Hx; injection Hx as <-; destruct Hc; discriminate.
Qed.

Lemma calls_other i e : (forall p b, e <> KCall i p b) -> calls i [e] = [].
Proof. intros H. destruct e as [j p b| | |]; cbn; try reflexivity. destruct (Nat.eqb j i) eqn:E; [|reflexivity]. apply Nat.eqb_eq in E. subst j. exfalso. eapply H. reflexivity. Qed.

Lemma tinv_step i s e s' es : tinv i s es -> cstep s e = Some s' -> tinv i s' (es ++ [e]).
Proof.
  intros T H. destruct e as [j p b|d|j|j]; cbn [cstep] in H.
  - destruct (nth_error (k_pc s) j) as [pj|] eqn:Pj; [|discriminate]. destruct pj; try discriminate.
    assert (Hp : p <> PIdle) by (intros ->; discriminate).
    assert (H2 : match nth_error (q_readers (k_q s)) j with
          | Some RIdle => Some (go j p {| k_q := k_q s; k_pc := setnth j p (k_pc s); k_writes := k_writes s ++ [(j, b)]; k_done := k_done s |})
          | _ => None end = Some s') by (destruct p; [congruence|exact H..]). clear H.
    destruct (nth_error (q_readers (k_q s)) j) as [[]|] eqn:Rj; try discriminate. injection H2 as <-.
    destruct (Nat.eq_dec j i) as [->|N].
    + destruct T as [(cs & t & p0 & read & pend & [D O P L] & C & I & Nt & Rd) W K].
      rewrite Pj in P. injection P as <-. destruct I as [(_ & -> & ->)|(X & _)]; [|congruence]. rewrite app_nil_r in C, O.
      apply (tinv_go i _ es (KCall i p b) p [] cs t b); [|exact Hp|constructor| | |].
      * split; cbn [k_done k_q k_pc]; [exact D|rewrite app_nil_r; exact O| |exact L]. apply setnth_same. apply nth_error_Some. congruence.
      * rewrite calls_app, C. cbn. rewrite Nat.eqb_refl. reflexivity.
      * intros X. apply in_or_app. left. auto.
      * cbn [k_writes]. rewrite own_app, own_same, W, calls_app, map_app. cbn. rewrite Nat.eqb_refl. reflexivity.
    + unfold go. match goal with |- tinv _ (pump ?f _ _ ?x) _ => destruct (pump_other f i j p N x) as (A & B & C' & D' & E & F) end.
      apply (tinv_keep i s); [exact T|apply calls_other; intros ? ? [= X _ _]; congruence|rewrite A; reflexivity|rewrite B; reflexivity
        |rewrite C'; cbn [k_pc]; apply setnth_other; exact N|rewrite D'; cbn [k_writes]; rewrite own_app, own_other, app_nil_r by exact N; reflexivity
        |rewrite F; reflexivity|left; rewrite E; reflexivity].
  - cbn [qstep] in H.
    set (n := (length (c_queue (deliver (q_conn (k_q s)) d)) - length (c_queue (q_conn (k_q s))))%nat) in *.
    pose proof (wakeups_readers n (q_getters (k_q s)) (q_readers (k_q s)) i) as [WL WR].
    destruct (wakeups n (q_getters (k_q s)) (q_readers (k_q s))) as [gs rs]. cbn [snd] in WL, WR. injection H as <-.
    apply (tinv_keep i s); try reflexivity; [exact T|exact WL|exact WR].
  - destruct (nth_error (q_readers (k_q s)) j) as [x|] eqn:Rj; [|discriminate].
    destruct (nth_error (k_pc s) j) as [pj|] eqn:Pj; [|destruct x; discriminate].
    assert (H2 : (x = RWoken /\ s' = go j pj s) \/
      ((x = RWokenC \/ x = RCancel) /\ exists q, qstep (k_q s) (ERun j) = Some q /\ s' = finished j (Err TimeoutError) q s)).
    { destruct x; try (left; split; congruence); right.
      - destruct (qstep (k_q s) (ERun j)) as [q|] eqn:Q; [|discriminate]. cbn [qstep] in Q. rewrite Rj in Q. discriminate.
      - destruct (qstep (k_q s) (ERun j)) as [q|] eqn:Q; [|discriminate]. cbn [qstep] in Q. rewrite Rj in Q. discriminate.
      - split; [auto|]. destruct (qstep (k_q s) (ERun j)) as [q|] eqn:Q; [|discriminate]. exists q. split; congruence.
      - split; [auto|]. destruct (qstep (k_q s) (ERun j)) as [q|] eqn:Q; [|discriminate]. exists q. split; congruence. }
    clear H. destruct H2 as [(-> & ->)|(Hx & q & Q & ->)].
    + destruct (Nat.eq_dec j i) as [->|N].
      * destruct T as [(cs & t & p0 & read & pend & M & C & I & Nt & Rd) W K].
        pose proof (mid_pc _ _ _ _ _ _ M) as P. rewrite Pj in P. injection P as <-.
        destruct I as [(-> & _)|(X & b & -> & F)]; [exfalso; destruct Rd as [Rd _]; specialize (Rd eq_refl); congruence|].
        apply (tinv_go i s es (KRun i) pj read cs t b); [exact M|exact X|exact F| | |].
        -- rewrite calls_app, C. cbn. rewrite app_nil_r. reflexivity.
        -- intros Y. apply in_or_app. left. auto.
        -- rewrite W, calls_app. cbn. rewrite app_nil_r. reflexivity.
      * unfold go. match goal with |- tinv _ (pump ?f _ _ ?x) _ => destruct (pump_other f i j pj N x) as (A & B & C' & D' & E & F) end.
        apply (tinv_keep i s); [exact T|reflexivity|exact A|exact B|exact C'|rewrite D'; reflexivity|exact F|left; exact E].
    + assert (QR : q_out q = q_out (k_q s) /\ length (q_readers q) = length (q_readers (k_q s)) /\ nth_error (q_readers q) j = Some RIdle /\
        (forall k, k <> j -> nth_error (q_readers q) k = nth_error (q_readers (k_q s)) k \/
           (nth_error (q_readers (k_q s)) k = Some RWait /\ nth_error (q_readers q) k = Some RWoken))).
      { assert (Lj : (j < length (q_readers (k_q s)))%nat) by (apply nth_error_Some; congruence).
        cbn [qstep] in Q. rewrite Rj in Q. destruct Hx as [-> | ->].
        - set (gs := remove_getter j (q_getters (k_q s))) in *. set (rs := setnth j RIdle (q_readers (k_q s))) in *.
          assert (Lr : length rs = length (q_readers (k_q s))) by apply setnth_length.
          assert (Rr : nth_error rs j = Some RIdle) by (apply setnth_same; exact Lj).
          assert (Ro : forall k, k <> j -> nth_error rs k = nth_error (q_readers (k_q s)) k) by (intros k Hk; apply setnth_other; congruence).
          destruct (c_queue (q_conn (k_q s))) as [|m ms].
          + injection Q as <-. cbn [q_out q_readers]. split; [reflexivity|]. split; [exact Lr|]. split; [exact Rr|]. intros k Hk. left. auto.
          + pose proof (wakeup_readers gs rs) as WR. destruct (wakeup gs rs) as [gs' rs']. cbn [snd] in WR. injection Q as <-. cbn [q_out q_readers].
            split; [reflexivity|]. split; [rewrite (proj1 (WR 0%nat)); exact Lr|]. split.
            * destruct (WR j) as [_ [X|[X _]]]; congruence.
            * intros k Hk. destruct (WR k) as [_ [X|[X Y]]]; rewrite Ro in X by exact Hk; [left; exact X|right; split; assumption].
        - injection Q as <-. cbn [q_out q_readers]. split; [reflexivity|]. split; [apply setnth_length|]. split; [apply setnth_same; exact Lj|].
          intros k Hk. left. apply setnth_other. congruence. }
      destruct QR as (Q1 & Q2 & Q3 & Q4). destruct (Nat.eq_dec j i) as [->|N].
      * destruct T as [(cs & t & p0 & read & pend & M & C & I & Nt & Rd) W K].
        pose proof (mid_pc _ _ _ _ _ _ M) as P. rewrite Pj in P. injection P as <-.
        destruct I as [(-> & _)|(X & b & -> & F)]; [exfalso; destruct Rd as [Rd _]; specialize (Rd eq_refl); destruct Hx; congruence|].
        destruct (prog_times_out pj b read X F) as (es1 & Y). pose proof (K x Rj Hx) as Kx. split.
        -- exists (cs ++ [(pj, b)]), (t ++ (map Some read ++ [None])), PIdle, [], []. split.
           { eapply finished_view; [exact M|exact X|exact Y| |exact Q2]. rewrite Q1, (mid_out _ _ _ _ _ _ M), somes_app, somes_map. cbn. rewrite app_nil_r. reflexivity. }
           split; [rewrite calls_app, C; cbn; rewrite !app_nil_r; reflexivity|]. split; [left; auto|]. split; [intros _; apply in_or_app; left; exact Kx|].
           cbn [finished k_q]. rewrite Q3. split; reflexivity.
        -- cbn [finished k_writes]. rewrite W, calls_app. cbn. rewrite app_nil_r. reflexivity.
        -- cbn [finished k_q]. intros y Hy [-> | ->]; congruence.
      * apply (tinv_keep i s); [exact T|reflexivity|cbn [finished k_done]; rewrite own_app, own_other, app_nil_r by exact N; reflexivity
          |cbn [finished k_q]; rewrite Q1; reflexivity|cbn [finished k_pc]; apply setnth_other; exact N|reflexivity|exact Q2|apply Q4; congruence].
  - destruct (qstep (k_q s) (ECancel j)) as [q|] eqn:Q; [|discriminate]. injection H as <-. cbn [qstep] in Q.
    assert (QR : exists x y, nth_error (q_readers (k_q s)) j = Some x /\ x <> RIdle /\ y <> RIdle /\ q_out q = q_out (k_q s) /\
        q_readers q = setnth j y (q_readers (k_q s))).
    { destruct (nth_error (q_readers (k_q s)) j) as [[]|]; try discriminate; injection Q as <-.
      - exists RWait, RCancel. repeat split; discriminate.
      - exists RWoken, RWokenC. repeat split; discriminate. }
    destruct QR as (x & y & Rj & Hx & Hy & Q1 & Q2). destruct (Nat.eq_dec j i) as [->|N].
    + destruct T as [(cs & t & p0 & read & pend & [D O P L] & C & I & Nt & Rd) W K].
      assert (Ry : nth_error (q_readers q) i = Some y) by (rewrite Q2; apply setnth_same; exact L).
      split.
      * exists cs, t, p0, read, pend. split; [split; cbn [moved k_done k_q k_pc]; [exact D|rewrite Q1; exact O|exact P|rewrite Q2, setnth_length; exact L]|].
        split; [rewrite calls_app, C; cbn; rewrite app_nil_r; reflexivity|]. split; [exact I|]. split; [intros _; apply in_or_app; right; left; reflexivity|].
        cbn [moved k_q]. rewrite Rd, Rj, Ry. split; congruence.
      * cbn [moved k_writes]. rewrite W, calls_app. cbn. rewrite app_nil_r. reflexivity.
      * intros _ _ _. apply in_or_app. right. left. reflexivity.
    + apply (tinv_keep i s); [exact T|reflexivity|reflexivity|cbn [moved k_q]; rewrite Q1; reflexivity|reflexivity|reflexivity
        |cbn [moved k_q]; rewrite Q2; apply setnth_length|left; cbn [moved k_q]; rewrite Q2; apply setnth_other; exact N].
Qed.

Lemma tinv_init i n : (i < n)%nat -> tinv i (cinit n) [].
Proof.
  intros H. split.
  - exists [], [], PIdle, [], []. split.
    { split; cbn; [constructor|reflexivity| |rewrite repeat_length; exact H]. rewrite (nth_error_nth' _ PIdle) by (rewrite repeat_length; exact H).
      rewrite nth_repeat. reflexivity. }
    split; [reflexivity|]. split; [left; auto|]. split; [intros []|]. cbn. split; [intros _|auto].
    rewrite (nth_error_nth' _ RIdle) by (rewrite repeat_length; exact H). rewrite nth_repeat. reflexivity.
  - reflexivity.
  - cbn. intros x Hx. apply nth_error_In, repeat_spec in Hx. subst x. intros [X|X]; discriminate.
Qed.

Lemma tinv_run i s es s' pre : tinv i s pre -> crun s es = Some s' -> tinv i s' (pre ++ es).
Proof.
  revert s pre. induction es as [|e es IH]; cbn [crun]; intros s pre T R.
  - injection R as <-. rewrite app_nil_r. exact T.
  - destruct (cstep s e) as [s1|] eqn:S1; [|discriminate]. replace (pre ++ e :: es) with ((pre ++ [e]) ++ es) by (rewrite <- app_assoc; reflexivity).
    eapply IH; [|exact R]. eapply tinv_step; eassumption.
Qed.

(** ** The results *)

Theorem task_view n es s i : crun (cinit n) es = Some s -> (i < n)%nat ->
  exists cs pend t p read,
    calls i es = cs ++ pend /\ sequential cs t (own i (k_done s)) /\ own i (k_writes s) = map snd (calls i es) /\
    own i (q_out (k_q s)) = somes t ++ read /\ nth_error (k_pc s) i = Some p /\ in_progress p read pend /\
    (In None t -> In (KTimeout i) es).
Proof.
  intros R H. destruct (tinv_run i _ _ _ [] (tinv_init i n H) R) as [(cs & t & p & read & pend & [D O P L] & C & I & Nt & _) W _].
  cbn [app] in *. exists cs, pend, t, p, read. repeat (split; [assumption|]). exact Nt.
Qed.

Lemma pump_log fuel i p s ps : log_ok (k_q s) ps -> log_ok (k_q (pump fuel i p s)) ps.
Proof.
  revert s. induction fuel as [|fuel IH]; intros s H; cbn [pump]; [exact H|].
  assert (G : log_ok (try_get i (k_q s)) ps) by (unfold log_ok in *; destruct (try_get_log i (k_q s)) as [-> ->]; exact H).
  destruct (c_queue (q_conn (k_q s))) as [|m q]; [exact G|]. destruct (react p m); [exact G|]. apply IH. exact G.
Qed.

Lemma cstep_log s e s' ps : log_ok (k_q s) ps -> cstep s e = Some s' -> log_ok (k_q s') (ps ++ received_packets [e]).
Proof.
  intros H S. destruct e as [j p b|d|j|j]; cbn [cstep received_packets] in *; rewrite ?app_nil_r.
  - destruct (nth_error (k_pc s) j) as [[]|]; try discriminate. destruct p; [discriminate| |].
    + destruct (nth_error (q_readers (k_q s)) j) as [[]|]; try discriminate. injection S as <-. apply pump_log. exact H.
    + destruct (nth_error (q_readers (k_q s)) j) as [[]|]; try discriminate. injection S as <-. apply pump_log. exact H.
  - destruct (qstep (k_q s) (EPacket d)) as [q|] eqn:Q; [|discriminate]. injection S as <-. exact (qstep_log _ _ _ _ H Q).
  - destruct (nth_error (q_readers (k_q s)) j) as [x|] eqn:R; [|discriminate]. destruct (nth_error (k_pc s) j) as [p|]; [|destruct x; discriminate].
    assert (X : s' = go j p s \/ exists q, qstep (k_q s) (ERun j) = Some q /\ s' = finished j (Err TimeoutError) q s).
    { destruct x; try (left; congruence); right; (destruct (qstep (k_q s) (ERun j)) as [q|]; [|discriminate]); exists q; split; congruence. }
    destruct X as [->|(q & Q & ->)]; [apply pump_log; exact H|]. pose proof (qstep_log _ _ _ _ H Q) as L. cbn in L. rewrite app_nil_r in L. exact L.
  - destruct (qstep (k_q s) (ECancel j)) as [q|] eqn:Q; [|discriminate]. injection S as <-. pose proof (qstep_log _ _ _ _ H Q) as L. cbn in L. rewrite app_nil_r in L. exact L.
Qed.

Lemma received_packets_app a b : received_packets (a ++ b) = received_packets a ++ received_packets b.
Proof. induction a as [|[] a IH]; cbn; congruence. Qed.

Lemma crun_log s es s' pre : log_ok (k_q s) (received_packets pre) -> crun s es = Some s' -> log_ok (k_q s') (received_packets (pre ++ es)).
Proof.
  revert s pre. induction es as [|e es IH]; cbn [crun]; intros s pre H R.
  - injection R as <-. rewrite app_nil_r. exact H.
  - destruct (cstep s e) as [s1|] eqn:S1; [|discriminate]. replace (pre ++ e :: es) with ((pre ++ [e]) ++ es) by (rewrite <- app_assoc; reflexivity).
    eapply IH; [|exact R]. rewrite received_packets_app. eapply cstep_log; eassumption.
Qed.

(** Whatever the schedule, the tasks together read what arrived, in order. *)
Theorem all_views n es s : crun (cinit n) es = Some s -> map snd (q_out (k_q s)) ++ c_queue (q_conn (k_q s)) = SpecConc.answers es.
Proof.
  intros R. pose proof (crun_log (cinit n) es s [] eq_refl R) as H. unfold log_ok in H. cbn [app] in H. unfold SpecConc.answers. rewrite H. reflexivity.
Qed.

Lemma own_only {A} (l : list (nat * A)) : Forall (fun x => fst x = 0%nat) l -> own 0 l = map snd l.
Proof. induction 1 as [|[j a] l E _ IH]; cbn in *; [reflexivity|]. subst j. cbn. congruence. Qed.

Lemma pump_out fuel i p s : Forall (fun x => fst x = i) (q_out (k_q s)) -> Forall (fun x => fst x = i) (q_out (k_q (pump fuel i p s))).
Proof.
  revert s. induction fuel as [|fuel IH]; intros s H; cbn [pump]; [exact H|].
  assert (G : Forall (fun x => fst x = i) (q_out (try_get i (k_q s)))).
  { unfold try_get. destruct (c_queue (q_conn (k_q s))); [exact H|]. cbn [q_out]. apply Forall_app. split; [exact H|repeat constructor]. }
  destruct (c_queue (q_conn (k_q s))) as [|m q]; [exact G|]. destruct (react p m); [exact G|]. apply IH. exact G.
Qed.

Lemma one_reader s e s' : length (q_readers (k_q s)) = 1%nat -> Forall (fun x => fst x = 0%nat) (q_out (k_q s)) -> cstep s e = Some s' ->
  length (q_readers (k_q s')) = 1%nat /\ Forall (fun x => fst x = 0%nat) (q_out (k_q s')).
Proof.
  intros L H S.
  assert (Z : forall j x, nth_error (q_readers (k_q s)) j = Some x -> j = 0%nat).
  { intros j x E. assert (j < 1)%nat by (rewrite <- L; apply nth_error_Some; congruence). lia. }
  assert (PL : forall fuel i p u, length (q_readers (k_q (pump fuel i p u))) = length (q_readers (k_q u))).
  { induction fuel as [|fuel IH]; intros i p u; cbn [pump]; [reflexivity|].
    assert (G : length (q_readers (try_get i (k_q u))) = length (q_readers (k_q u))) by (unfold try_get; destruct (c_queue (q_conn (k_q u))); apply setnth_length).
    destruct (c_queue (q_conn (k_q u))) as [|m q]; [exact G|]. destruct (react p m); [exact G|]. rewrite IH. exact G. }
  destruct e as [j p b|d|j|j]; cbn [cstep] in S.
  - destruct (nth_error (k_pc s) j) as [[]|]; try discriminate. destruct p; [discriminate| |];
      (destruct (nth_error (q_readers (k_q s)) j) as [[]|] eqn:R; try discriminate); injection S as <-; pose proof (Z _ _ R); subst j;
      (split; [unfold go; rewrite PL; exact L|apply pump_out; exact H]).
  - cbn [qstep] in S. pose proof (wakeups_readers (length (c_queue (deliver (q_conn (k_q s)) d)) - length (c_queue (q_conn (k_q s)))) (q_getters (k_q s)) (q_readers (k_q s)) 0) as [WL _].
    destruct (wakeups _ _ _) as [gs rs]. injection S as <-. cbn [moved k_q q_readers q_out snd] in *. split; [congruence|exact H].
  - destruct (nth_error (q_readers (k_q s)) j) as [x|] eqn:R; [|discriminate]. destruct (nth_error (k_pc s) j) as [p|]; [|destruct x; discriminate].
    assert (X : s' = go j p s \/ exists q, qstep (k_q s) (ERun j) = Some q /\ s' = finished j (Err TimeoutError) q s).
    { destruct x; try (left; congruence); right; (destruct (qstep (k_q s) (ERun j)) as [q|]; [|discriminate]); exists q; split; congruence. }
    pose proof (Z _ _ R); subst j.
    destruct X as [->|(q & Q & ->)]; [split; [unfold go; rewrite PL; exact L|apply pump_out; exact H]|].
    cbn [finished k_q]. cbn [qstep] in Q. rewrite R in Q. destruct x; try discriminate.
    + injection Q as <-. unfold try_get. destruct (c_queue (q_conn (k_q s))) as [|m q]; cbn [q_readers q_out]; rewrite setnth_length; (split; [exact L|]).
      * exact H.
      * apply Forall_app. split; [exact H|repeat constructor].
    + set (gs := remove_getter 0 (q_getters (k_q s))) in *. set (rs := setnth 0 RIdle (q_readers (k_q s))) in *.
      pose proof (wakeup_readers gs rs 0) as [WL _]. assert (Lr : length rs = 1%nat) by (unfold rs; rewrite setnth_length; exact L).
      destruct (c_queue (q_conn (k_q s))); [injection Q as <-; split; [exact Lr|exact H]|].
      destruct (wakeup gs rs) as [gs' rs']. injection Q as <-. cbn [q_readers q_out snd] in *. split; [congruence|exact H].
    + injection Q as <-. cbn [q_readers q_out]. split; [exact (eq_trans (setnth_length 0%nat RIdle (q_readers (k_q s))) L)|exact H].
  - destruct (qstep (k_q s) (ECancel j)) as [q|] eqn:Q; [|discriminate]. injection S as <-. cbn [qstep] in Q. cbn [moved k_q].
    destruct (nth_error (q_readers (k_q s)) j) as [[]|]; try discriminate; injection Q as <-; cbn [q_readers q_out]; rewrite setnth_length; auto.
Qed.

Lemma one_reader_run s es s' : length (q_readers (k_q s)) = 1%nat -> Forall (fun x => fst x = 0%nat) (q_out (k_q s)) -> crun s es = Some s' ->
  Forall (fun x => fst x = 0%nat) (q_out (k_q s')).
Proof.
  revert s. induction es as [|e es IH]; cbn [crun]; intros s L H R; [injection R as <-; exact H|].
  destruct (cstep s e) as [s1|] eqn:S1; [|discriminate]. destruct (one_reader s e s1 L H S1) as [L1 H1]. eapply IH; eassumption.
Qed.

(** With one task the script is exactly what arrived. *)
Theorem alone es s : crun (cinit 1) es = Some s ->
  exists cs pend t p read, calls 0 es = cs ++ pend /\ sequential cs t (own 0 (k_done s)) /\ own 0 (k_writes s) = map snd (calls 0 es) /\
    SpecConc.answers es = somes t ++ read ++ c_queue (q_conn (k_q s)) /\ k_pc s = [p] /\ in_progress p read pend /\ (In None t -> In (KTimeout 0) es).
Proof.
  intros R. destruct (task_view 1 es s 0 R ltac:(lia)) as (cs & pend & t & p & read & C & Q & W & O & P & I & Nt).
  exists cs, pend, t, p, read. repeat (split; [assumption|]).
  split. { rewrite <- (all_views 1 es s R), app_assoc, <- O. f_equal. symmetry. apply own_only. eapply one_reader_run; [| |exact R]; [reflexivity|constructor]. }
  split; [|split; assumption].
  assert (Lp : length (k_pc s) = 1%nat).
  { clear - R. assert (G : forall es s, length (k_pc s) = 1%nat -> forall s', crun s es = Some s' -> length (k_pc s') = 1%nat).
    { assert (PL : forall fuel i p u, length (k_pc (pump fuel i p u)) = length (k_pc u)).
      { induction fuel as [|fuel IH]; intros i p u; cbn [pump]; [reflexivity|]. destruct (c_queue (q_conn (k_q u))) as [|m q]; [reflexivity|].
        destruct (react p m); [apply setnth_length|rewrite IH; reflexivity]. }
      induction es0 as [|e es0 IH]; cbn [crun]; intros u L s' H; [injection H as <-; exact L|].
      destruct (cstep u e) as [u1|] eqn:S1; [|discriminate]. apply (IH u1); [|exact H]. clear - L S1 PL. destruct e as [j p b|d|j|j]; cbn [cstep] in S1.
      - destruct (nth_error (k_pc u) j) as [[]|]; try discriminate. destruct p; [discriminate| |];
          (destruct (nth_error (q_readers (k_q u)) j) as [[]|]; try discriminate); injection S1 as <-; unfold go; rewrite PL; cbn [k_pc]; rewrite setnth_length; exact L.
      - destruct (qstep _ _); [|discriminate]. injection S1 as <-. exact L.
      - destruct (nth_error (q_readers (k_q u)) j) as [x|]; [|discriminate]. destruct (nth_error (k_pc u) j) as [p|]; [|destruct x; discriminate].
        destruct x; try (injection S1 as <-; unfold go; rewrite PL; exact L);
          (destruct (qstep _ _); [|discriminate]; injection S1 as <-; cbn [finished k_pc]; rewrite setnth_length; exact L).
      - destruct (qstep _ _); [|discriminate]. injection S1 as <-. exact L. }
    eapply G; [|exact R]. reflexivity. }
  destruct (k_pc s) as [|x [|]]; cbn in Lp; try lia. cbn in P. congruence.
Qed.

(** ** A call whose time is over *)

Definition doomed (i : nat) (s : cstate) : Prop :=
  exists x p, nth_error (q_readers (k_q s)) i = Some x /\ (x = RWokenC \/ x = RCancel) /\ nth_error (k_pc s) i = Some p.

Lemma run_shape s j s' : cstep s (KRun j) = Some s' -> exists x p, nth_error (q_readers (k_q s)) j = Some x /\ nth_error (k_pc s) j = Some p /\
  ((x = RWoken /\ s' = go j p s) \/ ((x = RWokenC \/ x = RCancel) /\ exists q, qstep (k_q s) (ERun j) = Some q /\ s' = finished j (Err TimeoutError) q s)).
Proof.
  cbn [cstep]. intros H. destruct (nth_error (q_readers (k_q s)) j) as [x|] eqn:Rj; [|discriminate].
  destruct (nth_error (k_pc s) j) as [p|] eqn:Pj; [|destruct x; discriminate]. exists x, p. split; [reflexivity|]. split; [reflexivity|].
  destruct x; try (left; split; congruence); right; (destruct (qstep (k_q s) (ERun j)) as [q|] eqn:Q; [|discriminate]).
  - cbn [qstep] in Q. rewrite Rj in Q. discriminate.
  - cbn [qstep] in Q. rewrite Rj in Q. discriminate.
  - split; [auto|]. exists q. split; congruence.
  - split; [auto|]. exists q. split; congruence.
Qed.

Lemma run_readers q j q' k : qstep q (ERun j) = Some q' -> k <> j ->
  nth_error (q_readers q') k = nth_error (q_readers q) k \/ (nth_error (q_readers q) k = Some RWait /\ nth_error (q_readers q') k = Some RWoken).
Proof.
  cbn [qstep]. intros H Hk. destruct (nth_error (q_readers q) j) as [[]|]; try discriminate.
  - injection H as <-. left. unfold try_get. destruct (c_queue (q_conn q)); apply setnth_other; congruence.
  - pose proof (wakeup_readers (remove_getter j (q_getters q)) (setnth j RIdle (q_readers q)) k) as [_ W].
    rewrite (setnth_other j k) in W by congruence. destruct (c_queue (q_conn q)).
    + injection H as <-. left. apply setnth_other. congruence.
    + destruct (wakeup _ _) as [gs rs]. injection H as <-. exact W.
  - injection H as <-. left. apply setnth_other. congruence.
Qed.

Lemma doomed_step i s e s' : doomed i s -> e <> KRun i -> cstep s e = Some s' -> doomed i s'.
Proof.
  intros (x & p & R & X & P) N H.
  assert (K : forall u, nth_error (k_pc u) i = nth_error (k_pc s) i ->
    (nth_error (q_readers (k_q u)) i = nth_error (q_readers (k_q s)) i \/
     (nth_error (q_readers (k_q s)) i = Some RWait /\ nth_error (q_readers (k_q u)) i = Some RWoken)) -> doomed i u).
  { intros u E1 [E2|[E2 _]]; [exists x, p; split; [congruence|split; [exact X|congruence]]|]. rewrite R in E2. injection E2 as ->. destruct X; discriminate. }
  destruct e as [j pj b|d|j|j].
  - cbn [cstep] in H. destruct (nth_error (k_pc s) j) as [[]|]; try discriminate.
    destruct (Nat.eq_dec j i) as [->|Ne].
    + rewrite R in H. destruct pj; [discriminate| |]; destruct X as [-> | ->]; discriminate.
    + destruct pj; [discriminate| |]; (destruct (nth_error (q_readers (k_q s)) j) as [[]|]; try discriminate); injection H as <-; unfold go;
        (match goal with |- doomed _ (pump ?f _ ?q ?u) => destruct (pump_other f i j q Ne u) as (_ & _ & C & _ & E & _) end);
        (apply K; [rewrite C; cbn [k_pc]; apply setnth_other; exact Ne|left; rewrite E; reflexivity]).
  - cbn [cstep qstep] in H.
    set (n := (length (c_queue (deliver (q_conn (k_q s)) d)) - length (c_queue (q_conn (k_q s))))%nat) in *.
    pose proof (wakeups_readers n (q_getters (k_q s)) (q_readers (k_q s)) i) as [_ WR].
    destruct (wakeups n (q_getters (k_q s)) (q_readers (k_q s))) as [gs rs]. injection H as <-. apply K; [reflexivity|exact WR].
  - assert (Ne : j <> i) by congruence. destruct (run_shape s j s' H) as (y & pj & Rj & Pj & [(_ & ->)|(_ & q & Q & ->)]).
    + unfold go. match goal with |- doomed _ (pump ?f _ ?q ?u) => destruct (pump_other f i j q Ne u) as (_ & _ & C & _ & E & _) end.
      apply K; [exact C|left; exact E].
    + apply K; [cbn [finished k_pc]; apply setnth_other; exact Ne|]. cbn [finished k_q]. apply (run_readers (k_q s) j q i Q). congruence.
  - cbn [cstep] in H. destruct (qstep (k_q s) (ECancel j)) as [q|] eqn:Q; [|discriminate]. injection H as <-. cbn [qstep] in Q.
    destruct (Nat.eq_dec j i) as [->|Ne]; [rewrite R in Q; destruct X as [-> | ->]; discriminate|].
    apply K; [reflexivity|]. left. cbn [moved k_q]. destruct (nth_error (q_readers (k_q s)) j) as [[]|]; try discriminate; injection Q as <-; apply setnth_other; exact Ne.
Qed.

Lemma doomed_run i es : forall s s', doomed i s -> ~ In (KRun i) es -> crun s es = Some s' -> doomed i s'.
Proof.
  induction es as [|e es IH]; cbn [crun]; intros s s' D N R; [injection R as <-; exact D|].
  destruct (cstep s e) as [s1|] eqn:S1; [|discriminate]. apply (IH s1); [|intros H; apply N; right; exact H|exact R].
  eapply doomed_step; [exact D| |exact S1]. intros ->. apply N. left. reflexivity.
Qed.

Lemma crun_app a b : forall s s', crun s (a ++ b) = Some s' -> exists s1, crun s a = Some s1 /\ crun s1 b = Some s'.
Proof.
  induction a as [|e a IH]; cbn [crun app]; intros s s' H; [exists s; auto|].
  destruct (cstep s e) as [s1|]; [|discriminate]. apply IH, H.
Qed.

Theorem timed_out n es fs i s : (i < n)%nat -> crun (cinit n) (es ++ KTimeout i :: fs ++ [KRun i]) = Some s -> ~ In (KRun i) fs ->
  exists s0, crun (cinit n) (es ++ KTimeout i :: fs) = Some s0 /\
    k_done s = k_done s0 ++ [(i, Err TimeoutError)] /\ q_out (k_q s) = q_out (k_q s0) /\ nth_error (k_pc s) i = Some PIdle /\
    c_queue (q_conn (k_q s)) = c_queue (q_conn (k_q s0)).
Proof.
  intros Hi R N. destruct (crun_app es _ _ _ R) as (s1 & R1 & R2).
  assert (E : crun s1 (([KTimeout i] ++ fs) ++ [KRun i]) = Some s) by exact R2. destruct (crun_app _ _ _ _ E) as (s0 & R3 & R4).
  exists s0. split.
  - assert (G : forall a b u v, crun u a = Some v -> crun u (a ++ b) = crun v b).
    { induction a as [|e a IH]; cbn [crun app]; intros b u v X; [injection X as ->; reflexivity|]. destruct (cstep u e); [|discriminate]. apply IH, X. }
    rewrite (G _ _ _ _ R1). exact R3.
  - destruct (tinv_run i _ _ _ [] (tinv_init i n Hi) R1) as [(cs & t & p & read & pend & [_ _ P _] & _) _ _].
    cbn [app crun] in R3. destruct (cstep s1 (KTimeout i)) as [s2|] eqn:S2; [|discriminate].
    assert (D : doomed i s2).
    { cbn [cstep] in S2. destruct (qstep (k_q s1) (ECancel i)) as [q|] eqn:Q; [|discriminate]. injection S2 as <-. cbn [qstep] in Q.
      destruct (nth_error (q_readers (k_q s1)) i) as [x|] eqn:X; [|discriminate].
      assert (L : (i < length (q_readers (k_q s1)))%nat) by (apply nth_error_Some; congruence).
      destruct x; try discriminate; injection Q as <-.
      - exists RCancel, p. cbn [moved k_q k_pc q_readers]. rewrite setnth_same by exact L. auto.
      - exists RWokenC, p. cbn [moved k_q k_pc q_readers]. rewrite setnth_same by exact L. auto. }
    destruct (doomed_run i fs s2 s0 D N R3) as (x & p' & X1 & X2 & X3). cbn [crun] in R4.
    destruct (cstep s0 (KRun i)) as [s3|] eqn:S3; [|discriminate]. injection R4 as <-.
    destruct (run_shape s0 i s3 S3) as (y & p2 & Y1 & Y2 & [(-> & _)|(_ & q & Q & ->)]); [rewrite X1 in Y1; injection Y1 as ->; destruct X2; discriminate|].
    cbn [finished k_done k_q k_pc]. split; [reflexivity|]. cbn [qstep] in Q. rewrite X1 in Q.
    assert (Lp : (i < length (k_pc s0))%nat) by (apply nth_error_Some; congruence).
    destruct X2 as [-> | ->].
    + destruct (match c_queue (q_conn (k_q s0)) with [] => _ | _ => _ end) as [gs rs]. injection Q as <-. cbn [q_out q_conn].
      split; [reflexivity|]. split; [apply setnth_same; exact Lp|reflexivity].
    + injection Q as <-. cbn [q_out q_conn]. split; [reflexivity|]. split; [apply setnth_same; exact Lp|reflexivity].
Qed.

(** ** The programs are the item methods *)

Lemma item_send_put {A} it m b (k : io Empty_set A) s : ready it -> msg_bytes m = Ok b ->
  (let* _ := item_send it m in k) s = (let* _ := put b in k) s.
Proof. intros Hr Hb. rewrite (andthen_ok _ _ _ _ _ _ (item_send_ok it m b s Hr Hb)). reflexivity. Qed.

Theorem item_calls it (s : script) : ready it -> placed it ->
  (forall what, tagtext what -> send_normal_message it what s = prog PCommand (frame_cmd (it_who it) what (it_where it)) s) /\
  (forall dim v vs, tagtext dim -> Forall tagtext (v :: vs) ->
     send_dimension_writing it dim (v :: vs) s = prog PCommand (frame_dimwri (it_who it) (it_where it) dim (v :: vs)) s) /\
  send_status_request it (fun _ => Ok []) s = prog (PRequest is_normal) (frame_status (it_who it) (it_where it)) s /\
  (forall dim, tagtext dim -> send_dimension_request it dim (fun _ => Ok []) s = prog (PRequest is_dimres) (frame_dimreq (it_who it) (it_where it) dim) s).
Proof.
  intros Hr Hp.
  assert (Hread : @item_read Empty_set it = take) by (unfold item_read, client_read; rewrite (proj2 Hr); reflexivity).
  assert (Hloop : forall keep body, @reply_loop Empty_set it keep body = replies keep body) by (intros; unfold reply_loop; rewrite (proj2 Hr); reflexivity).
  split; [|split; [|split]].
  - intros what Hw. unfold send_normal_message, create_normal_message. rewrite (proj2 (mk_ok what) Hw). cbn [bind]. rewrite andthen_lift.
    rewrite (item_send_put it _ _ _ s Hr (cmd_bytes (it_who it) what (it_where it) Hw Hp)). rewrite Hread. reflexivity.
  - intros dim v vs Hd Hv. unfold send_dimension_writing. rewrite (proj2 (mk_ok dim) Hd). rewrite andthen_lift.
    rewrite (item_send_put it _ _ _ s Hr (dimwri_bytes (it_who it) (it_where it) dim v vs Hp Hd Hv)). rewrite Hread. reflexivity.
  - unfold send_status_request. rewrite (item_send_put it _ _ _ s Hr (status_bytes (it_who it) (it_where it) Hp)). rewrite Hloop. reflexivity.
  - intros dim Hd. unfold send_dimension_request. rewrite (proj2 (mk_ok dim) Hd). rewrite andthen_lift.
    rewrite (item_send_put it _ _ _ s Hr (dimreq_bytes (it_who it) (it_where it) dim Hp Hd)). rewrite Hloop. reflexivity.
Qed.
