(** * Proofs about the life of a client *)
From Coq Require Import String List NArith ZArith Bool Lia.
From Verif Require Import PyStr Tags Messages Protocol Queue QueueThms Dispatch DispatchThms2 Restart SpecRestart.
Import ListNotations.
Open Scope N_scope.
Open Scope list_scope.

Lemma live_app s a b : live s (a ++ b) = live (live s a) b.
Proof. apply fold_left_app. Qed.
Lemma live_snoc s a x : live s (a ++ [x]) = lstep (live s a) x.
Proof. rewrite live_app. reflexivity. Qed.

Lemma update_same f i l c : nth_error l i = Some c -> nth_error (update_conn f i l) i = Some (f c).
Proof. intros H. unfold update_conn. rewrite H. apply setnth_same. apply nth_error_Some. congruence. Qed.
Lemma update_other f i j l : i <> j -> nth_error (update_conn f i l) j = nth_error l j.
Proof. intros N. unfold update_conn. destruct (nth_error l i); [apply setnth_other, N|reflexivity]. Qed.
Lemma update_length f i l : length (update_conn f i l) = length l.
Proof. unfold update_conn. destruct (nth_error l i); [apply setnth_length|reflexivity]. Qed.

Lemma deliver_ok c data ms : c_open c = true -> packet_messages data = Ok ms ->
  deliver c data = {| c_queue := c_queue c ++ ms; c_open := true |}.
Proof. intros O P. unfold deliver. rewrite O, (DispatchThms2.received (c_queue c) data ms P). reflexivity. Qed.
Lemma deliver_bad c data e : c_open c = true -> packet_messages data = Err e -> deliver c data = {| c_queue := c_queue c; c_open := false |}.
Proof. intros O P. unfold deliver, data_received. rewrite O, P. reflexivity. Qed.
Lemma deliver_late c data : c_open c = false -> deliver c data = c.
Proof. intros O. unfold deliver. rewrite O. reflexivity. Qed.

(** ** Clean restarts *)

Definition session_inv (n : nat) (reads0 : list (nat * msg)) (ms : list msg) (b : bool) (s : life) : Prop :=
  lc_current s = Some n /\
  exists got rest, ms = got ++ rest /\ lc_reads s = reads0 ++ map (pair n) got /\
    nth_error (lc_conns s) n = Some {| c_queue := rest; c_open := b |}.

Lemma app_inv_snoc {A} (l l' : list A) x y : l ++ [x] = l' ++ [y] -> l = l' /\ x = y.
Proof. apply app_inj_tail. Qed.

Lemma other_step n reads0 ms b s a : session_inv n reads0 ms b s -> a <> Connect -> a <> CloseClient ->
  (forall data, a <> Arrive n data) -> a <> Drop n -> session_inv n reads0 ms b (lstep s a).
Proof.
  intros (C & got & rest & E & R & Q) N1 N2 N3 N4. destruct a as [| |i data|i|i| |]; try congruence; cbn [lstep].
  - split; [exact C|]. exists got, rest. auto.
  - split; [exact C|]. exists got, rest. cbn [with_conns lc_reads lc_conns]. rewrite update_other by (intros ->; apply (N3 data); reflexivity). auto.
  - split; [exact C|]. exists got, rest. cbn [with_conns lc_reads lc_conns]. rewrite update_other by (intros ->; apply N4; reflexivity). auto.
  - destruct (nth_error (lc_conns s) i) as [c|]; [|split; [exact C|]; exists got, rest; auto].
    destruct (nth_error (lc_lost s) i) as [[|]|]; try (split; [exact C|]; exists got, rest; auto).
    destruct (c_open c); split; try exact C; exists got, rest; auto.
  - rewrite C, Q. cbn [c_queue]. destruct rest as [|m rest].
    + split; [exact C|]. exists got, []. auto.
    + split; [reflexivity|]. exists (got ++ [m]), rest. cbn [lc_reads lc_conns].
      rewrite <- app_assoc. split; [exact E|]. split; [rewrite R, map_app, app_assoc; reflexivity|].
      apply setnth_same. apply nth_error_Some. congruence.
Qed.

Lemma session_run n reads0 s acts ms b : received n acts ms b -> same_session acts -> session_inv n reads0 [] true s ->
  session_inv n reads0 ms b (live s acts).
Proof.
  intros H. induction H as [|acts ms data ms' H IH P|acts ms data e H IH P|acts ms data H IH|acts ms b H IH|acts ms b a H IH N3 N4];
    intros S0 I0; [exact I0| | | | |];
    (assert (S1 : same_session acts) by (destruct S0 as [A B]; split; intros X; [apply A|apply B]; apply in_or_app; left; exact X));
    specialize (IH S1 I0); rewrite live_snoc.
  - destruct IH as (C & got & rest & E & R & Q). split; [exact C|]. exists got, (rest ++ ms'). cbn [lstep with_conns lc_reads lc_conns].
    split; [rewrite E, app_assoc; reflexivity|]. split; [exact R|]. rewrite (update_same _ _ _ _ Q). rewrite (deliver_ok _ _ ms') by auto. reflexivity.
  - destruct IH as (C & got & rest & E & R & Q). split; [exact C|]. exists got, rest. cbn [lstep with_conns lc_reads lc_conns].
    split; [exact E|]. split; [exact R|]. rewrite (update_same _ _ _ _ Q). rewrite (deliver_bad _ _ e) by auto. reflexivity.
  - destruct IH as (C & got & rest & E & R & Q). split; [exact C|]. exists got, rest. cbn [lstep with_conns lc_reads lc_conns].
    split; [exact E|]. split; [exact R|]. rewrite (update_same _ _ _ _ Q). rewrite deliver_late by auto. reflexivity.
  - destruct IH as (C & got & rest & E & R & Q). split; [exact C|]. exists got, rest. cbn [lstep with_conns lc_reads lc_conns].
    split; [exact E|]. split; [exact R|]. rewrite (update_same _ _ _ _ Q). reflexivity.
  - destruct S0 as [A B]. apply other_step; auto; intros ->; [apply A|apply B]; apply in_or_app; right; left; reflexivity.
Qed.

(** After a start, and until the next one or close(), reads give the messages
    that arrived on the new connection, in order from the first, whatever
    happened before. *)
Theorem clean_restart acts1 acts2 ms b : let s1 := live born (acts1 ++ [Connect]) in
  let n := length (lc_conns (live born acts1)) in
  same_session acts2 -> received n acts2 ms b ->
  exists got rest, ms = got ++ rest /\ lc_reads (live s1 acts2) = lc_reads s1 ++ map (pair n) got /\
    lc_reads (lstep (live s1 acts2) Read) = lc_reads s1 ++ map (pair n) (got ++ firstn 1 rest).
Proof.
  intros s1 n S1 R.
  assert (I0 : session_inv n (lc_reads s1) [] true s1).
  { unfold s1. rewrite live_snoc. cbn [lstep]. split; [reflexivity|]. exists [], []. cbn [lc_reads lc_conns].
    split; [reflexivity|]. split; [rewrite app_nil_r; reflexivity|]. rewrite nth_error_app2 by (unfold n; lia). unfold n. rewrite Nat.sub_diag. reflexivity. }
  destruct (session_run n _ s1 acts2 ms b R S1 I0) as (C & got & rest & E & Rd & Q). exists got, rest. split; [exact E|]. split; [exact Rd|].
  cbn [lstep]. rewrite C, Q. cbn [c_queue]. destruct rest as [|m rest]; cbn [firstn].
  - rewrite app_nil_r. exact Rd.
  - cbn [lc_reads]. rewrite Rd, map_app, app_assoc. reflexivity.
Qed.

Theorem received_total n acts : exists ms b, received n acts ms b.
Proof.
  induction acts as [|a acts [ms [b IH]]] using rev_ind; [exists [], true; constructor|].
  destruct a as [| |i data|i|i| |]; try (exists ms, b; apply R_other; [exact IH|intros d; discriminate|discriminate]).
  - destruct (Nat.eq_dec i n) as [->|N]; [|exists ms, b; apply R_other; [exact IH|intros d; congruence|discriminate]].
    destruct b; [|exists ms, false; apply R_late, IH].
    destruct (packet_messages data) as [ms'|e] eqn:P; [exists (ms ++ ms'), true; apply R_packet; assumption|exists ms, false; eapply R_bad; eassumption].
  - destruct (Nat.eq_dec i n) as [->|N]; [|exists ms, b; apply R_other; [exact IH|intros d; discriminate|congruence]].
    exists ms, false. eapply R_drop, IH.
Qed.

Theorem received_unique n acts ms b : received n acts ms b -> forall ms' b', received n acts ms' b' -> ms' = ms /\ b' = b.
Proof.
  intros H. induction H as [|acts ms data m1 H IH P|acts ms data e H IH P|acts ms data H IH|acts ms b H IH|acts ms b a H IH N3 N4]; intros ms' b' H'.
  - inversion H' as [E|? ? ? ? ? ? E|? ? ? ? ? ? E|? ? ? ? E|? ? ? ? E|? ? ? ? ? ? ? E]; try (destruct acts; discriminate); auto.
  - remember (acts ++ [Arrive n data]) as l eqn:El. destruct H' as [|acts' ms2 data' m2 H' P'|acts' ms2 data' e' H' P'|acts' ms2 data' H'|acts' ms2 b2 H'|acts' ms2 b2 a H' N3 N4].
    + destruct acts; discriminate.
    + apply app_inv_snoc in El. destruct El as [-> El]. injection El as ->. destruct (IH _ _ H') as [-> _]. rewrite P in P'. injection P' as ->. auto.
    + apply app_inv_snoc in El. destruct El as [-> El]. injection El as ->. congruence.
    + apply app_inv_snoc in El. destruct El as [-> El]. destruct (IH _ _ H'). discriminate.
    + apply app_inv_snoc in El. destruct El as [-> El]. discriminate.
    + apply app_inv_snoc in El. destruct El as [-> El]. exfalso. eapply N3, El.
  - remember (acts ++ [Arrive n data]) as l eqn:El. destruct H' as [|acts' ms2 data' m2 H' P'|acts' ms2 data' e' H' P'|acts' ms2 data' H'|acts' ms2 b2 H'|acts' ms2 b2 a H' N3 N4].
    + destruct acts; discriminate.
    + apply app_inv_snoc in El. destruct El as [-> El]. injection El as ->. congruence.
    + apply app_inv_snoc in El. destruct El as [-> El]. destruct (IH _ _ H') as [-> _]. auto.
    + apply app_inv_snoc in El. destruct El as [-> El]. destruct (IH _ _ H'). discriminate.
    + apply app_inv_snoc in El. destruct El as [-> El]. discriminate.
    + apply app_inv_snoc in El. destruct El as [-> El]. exfalso. eapply N3, El.
  - remember (acts ++ [Arrive n data]) as l eqn:El. destruct H' as [|acts' ms2 data' m2 H' P'|acts' ms2 data' e' H' P'|acts' ms2 data' H'|acts' ms2 b2 H'|acts' ms2 b2 a H' N3 N4].
    + destruct acts; discriminate.
    + apply app_inv_snoc in El. destruct El as [-> El]. destruct (IH _ _ H'). discriminate.
    + apply app_inv_snoc in El. destruct El as [-> El]. destruct (IH _ _ H'). discriminate.
    + apply app_inv_snoc in El. destruct El as [-> El]. destruct (IH _ _ H') as [-> _]. auto.
    + apply app_inv_snoc in El. destruct El as [-> El]. discriminate.
    + apply app_inv_snoc in El. destruct El as [-> El]. exfalso. eapply N3, El.
  - remember (acts ++ [Drop n]) as l eqn:El. destruct H' as [|acts' ms2 data' m2 H' P'|acts' ms2 data' e' H' P'|acts' ms2 data' H'|acts' ms2 b2 H'|acts' ms2 b2 a H' N3 N4];
      try (destruct acts; discriminate); apply app_inv_snoc in El; destruct El as [-> El]; try discriminate El; [|congruence].
    destruct (IH _ _ H') as [-> _]. auto.
  - remember (acts ++ [a]) as l eqn:El. destruct H' as [|acts' ms2 data' m2 H' P'|acts' ms2 data' e' H' P'|acts' ms2 data' H'|acts' ms2 b2 H'|acts' ms2 b2 a' H' N3' N4'];
      try (destruct acts; discriminate); apply app_inv_snoc in El; destruct El as [-> El].
    + exfalso. eapply N3. symmetry. exact El.
    + exfalso. eapply N3. symmetry. exact El.
    + exfalso. eapply N3. symmetry. exact El.
    + exfalso. apply N4. symmetry. exact El.
    + apply IH, H'.
Qed.

(** ** Errors *)

Lemma filter_set_true i l : nth_error l i = Some false -> length (filter (fun b : bool => b) (setnth i true l)) = S (length (filter (fun b : bool => b) l)).
Proof. revert i. induction l as [|x l IH]; intros [|i] H; cbn in *; try discriminate; [injection H as ->; reflexivity|]. destruct x; cbn; rewrite IH by exact H; reflexivity. Qed.

Definition errors_inv (n : nat) (s : life) : Prop :=
  (lc_start s = Pending <-> n = 0%nat) /\ (lc_end s = Pending <-> losts s = 0%nat) /\
  lc_errors s = ((n - 1) + (losts s - 1))%nat.

Lemma errors_step n s a : errors_inv n s ->
  errors_inv (match a with Connect => S n | _ => n end) (lstep s a).
Proof.
  intros (A & B & C). destruct a as [| |i data|i|i| |]; cbn [lstep]; try (split; [exact A|split; [exact B|exact C]]).
  - assert (L : losts {| lc_conns := lc_conns s ++ [fresh]; lc_lost := lc_lost s ++ [false]; lc_current := Some (length (lc_conns s));
         lc_start := Done; lc_end := lc_end s; lc_errors := match lc_start s with Pending => lc_errors s | Done => S (lc_errors s) end;
         lc_reads := lc_reads s |} = losts s) by (unfold losts; cbn [lc_lost]; rewrite filter_app; cbn; rewrite app_nil_r; reflexivity).
    split; [split; discriminate|]. split; [rewrite L; exact B|]. rewrite L. cbn [lc_errors].
    destruct (lc_start s) eqn:E.
    + pose proof (proj1 A eq_refl). lia.
    + destruct n as [|n]; [pose proof (proj2 A eq_refl); discriminate|]. lia.
  - assert (K : errors_inv n s) by (split; [exact A|split; [exact B|exact C]]).
    destruct (nth_error (lc_conns s) i) as [c|]; [|exact K]. destruct (nth_error (lc_lost s) i) as [[|]|] eqn:L; try exact K.
    destruct (c_open c); [exact K|]. split; [exact A|].
    assert (LL : losts {| lc_conns := lc_conns s; lc_lost := setnth i true (lc_lost s); lc_current := lc_current s;
                  lc_start := lc_start s; lc_end := Done;
                  lc_errors := match lc_end s with Pending => lc_errors s | Done => S (lc_errors s) end;
                  lc_reads := lc_reads s |} = S (losts s)) by (unfold losts; cbn [lc_lost]; apply filter_set_true, L).
    rewrite LL. split; [split; discriminate|]. cbn [lc_errors]. destruct (lc_end s) eqn:E.
    + pose proof (proj1 B eq_refl). lia.
    + destruct (losts s) as [|k]; [pose proof (proj2 B eq_refl); discriminate|]. lia.
  - assert (K : errors_inv n s) by (split; [exact A|split; [exact B|exact C]]). destruct (lc_current s); exact K.
  - assert (K : errors_inv n s) by (split; [exact A|split; [exact B|exact C]]).
    destruct (lc_current s) as [i|]; [|exact K]. destruct (nth_error (lc_conns s) i) as [c|]; [|exact K]. destruct (c_queue c); exact K.
Qed.

Lemma errors_run acts : forall n s, errors_inv n s -> errors_inv (n + connects acts) (live s acts).
Proof.
  induction acts as [|a acts IH]; intros n s I; [cbn; rewrite Nat.add_0_r; exact I|]. cbn [live fold_left].
  apply errors_step with (a := a) in I. specialize (IH _ _ I). unfold connects in *. destruct a; cbn in *; try exact IH.
  rewrite Nat.add_succ_r. exact IH.
Qed.

(** Every start after the first and every loss after the first raises
    InvalidStateError inside asyncio. *)
Theorem restart_errors acts : lc_errors (live born acts) = ((connects acts - 1) + (losts (live born acts) - 1))%nat.
Proof. apply (errors_run acts 0 born). repeat split; reflexivity. Qed.

(** ** Connections left open *)

Lemma open_step s i a : is_open s i -> lc_current s <> Some i -> a <> Drop i ->
  (forall data e, a = Arrive i data -> packet_messages data <> Err e) ->
  is_open (lstep s a) i /\ lc_current (lstep s a) <> Some i.
Proof.
  intros (c & Q & O) N1 N2 N3. assert (L : (i < length (lc_conns s))%nat) by (apply nth_error_Some; congruence).
  destruct a as [| |j data|j|j| |]; cbn [lstep].
  - cbn [lc_current]. split; [exists c; cbn [lc_conns]; rewrite nth_error_app1 by exact L; auto|]. intros E. injection E as E. lia.
  - split; [exists c; auto|exact N1].
  - split; [|exact N1]. destruct (Nat.eq_dec j i) as [->|N].
    + exists (deliver c data). cbn [with_conns lc_conns]. rewrite (update_same _ _ _ _ Q). split; [reflexivity|].
      destruct (packet_messages data) as [ms|e] eqn:P; [rewrite (deliver_ok _ _ ms O P); reflexivity|exfalso; eapply N3; [reflexivity|exact P]].
    + exists c. cbn [with_conns lc_conns]. rewrite update_other by exact N. auto.
  - split; [|exact N1]. exists c. cbn [with_conns lc_conns]. rewrite update_other by congruence. auto.
  - assert (K : is_open s i) by (exists c; auto).
    destruct (nth_error (lc_conns s) j) as [cj|]; [|auto]. destruct (nth_error (lc_lost s) j) as [[|]|]; auto.
    destruct (c_open cj); [auto|]. split; [exists c; auto|exact N1].
  - destruct (lc_current s) as [j|] eqn:C; [|split; [exists c; auto|rewrite C; exact N1]]. cbn [lc_current]. split; [|discriminate].
    exists c. cbn [lc_conns]. rewrite update_other by congruence. auto.
  - destruct (lc_current s) as [j|] eqn:C; [|split; [exists c; auto|rewrite C; exact N1]].
    destruct (nth_error (lc_conns s) j) as [cj|] eqn:J; [|split; [exists c; auto|rewrite C; exact N1]].
    destruct (c_queue cj) as [|m q]; [split; [exists c; auto|rewrite C; exact N1]|].
    split; [|exact N1]. exists c. cbn [lc_conns]. rewrite setnth_other by congruence. auto.
Qed.

(** A connection that is open but no longer the client's current one is never
    closed by the client. *)
Theorem abandoned_stays_open s i acts : is_open s i -> lc_current s <> Some i -> ~ In (Drop i) acts ->
  (forall data e, In (Arrive i data) acts -> packet_messages data <> Err e) -> is_open (live s acts) i.
Proof.
  revert s. induction acts as [|a acts IH]; intros s O N1 N2 N3; [exact O|]. cbn [live fold_left].
  destruct (open_step s i a O N1) as [O' N1'].
  - intros ->. apply N2. left. reflexivity.
  - intros data e -> . apply N3. left. reflexivity.
  - apply IH; [exact O'|exact N1'|intros X; apply N2; right; exact X|intros data e X; apply N3; right; exact X].
Qed.

Theorem second_start_leaks acts1 acts2 : let n := length (lc_conns (live born acts1)) in
  ~ In (Drop n) acts2 -> (forall data e, In (Arrive n data) acts2 -> packet_messages data <> Err e) ->
  is_open (live born (acts1 ++ [Connect; Connect] ++ acts2)) n.
Proof.
  intros n N2 N3. rewrite app_assoc, live_app. apply abandoned_stays_open; [| |exact N2|exact N3]; rewrite live_app; cbn [live fold_left]; fold (live born acts1).
  - cbn [lstep]. exists fresh. cbn [lc_conns]. split; [|reflexivity]. rewrite nth_error_app1 by (rewrite app_length; cbn; unfold n; lia).
    rewrite nth_error_app2 by (unfold n; lia). unfold n. rewrite Nat.sub_diag. reflexivity.
  - cbn [lstep lc_current lc_conns]. rewrite app_length. cbn. intros E. injection E as E. unfold n in E. lia.
Qed.

Definition tidy_inv (s : life) : Prop := (forall i, is_open s i -> lc_current s = Some i) /\ (forall i, lc_current s = Some i -> (i < length (lc_conns s))%nat).

Lemma open_update f i s j : (forall c, c_open (f c) = true -> c_open c = true) -> is_open (with_conns s (update_conn f i (lc_conns s))) j -> is_open s j.
Proof.
  intros F (c & Q & O). cbn [with_conns lc_conns] in Q. destruct (Nat.eq_dec i j) as [<-|N].
  - destruct (nth_error (lc_conns s) i) as [c0|] eqn:E.
    + rewrite (update_same _ _ _ _ E) in Q. injection Q as <-. exists c0. auto.
    + unfold update_conn in Q. rewrite E in Q. congruence.
  - rewrite update_other in Q by exact N. exists c. auto.
Qed.

Lemma deliver_open c data : c_open (deliver c data) = true -> c_open c = true.
Proof. unfold deliver. destruct (c_open c) eqn:E; [reflexivity|congruence]. Qed.

Lemma tidy_step s a : tidy_inv s -> (a = Connect -> forall i, lc_current s = Some i -> ~ is_open s i) -> tidy_inv (lstep s a).
Proof.
  intros [I1 I2] T. destruct a as [| |j data|j|j| |]; cbn [lstep].
  - split.
    + intros i (c & Q & O). cbn [lc_conns lc_current] in *. destruct (Nat.ltb_spec i (length (lc_conns s))) as [L|L].
      * rewrite nth_error_app1 in Q by exact L. exfalso. assert (K : is_open s i) by (exists c; auto). apply (T eq_refl i (I1 i K) K).
      * f_equal. assert (i < length (lc_conns s ++ [fresh]))%nat by (apply nth_error_Some; congruence). rewrite app_length in H. cbn in H. lia.
    + intros i E. cbn [lc_current lc_conns] in *. injection E as <-. rewrite app_length. cbn. lia.
  - split; assumption.
  - split; [|intros i E; cbn [with_conns lc_conns lc_current] in *; rewrite update_length; apply I2, E].
    intros i O. apply I1. eapply open_update; [|exact O]. intros c. apply deliver_open.
  - split; [|intros i E; cbn [with_conns lc_conns lc_current] in *; rewrite update_length; apply I2, E].
    intros i O. apply I1. eapply open_update; [|exact O]. intros c H. discriminate H.
  - destruct (nth_error (lc_conns s) j) as [cj|]; [|split; assumption]. destruct (nth_error (lc_lost s) j) as [[|]|]; try (split; assumption).
    destruct (c_open cj); split; assumption.
  - destruct (lc_current s) as [k|] eqn:C; [|split; rewrite C; assumption].
    split; [|discriminate]. intros i (c & Q & O). cbn [lc_conns lc_current] in *. exfalso.
    assert (K : is_open s i). { eapply (open_update shut k s i); [|exists c; split; [exact Q|exact O]]. intros c0 H. discriminate H. }
    pose proof (I1 i K) as E. injection E as ->.
    destruct (nth_error (lc_conns s) i) as [c0|] eqn:E0.
    + rewrite (update_same _ _ _ _ E0) in Q. injection Q as <-. discriminate O.
    + destruct K as (c1 & K1 & _). congruence.
  - destruct (lc_current s) as [k|] eqn:C; [|split; rewrite C; assumption].
    destruct (nth_error (lc_conns s) k) as [ck|] eqn:Ek; [|split; rewrite C; assumption].
    destruct (c_queue ck) as [|m q]; [split; rewrite C; assumption|]. split.
    + intros i (c & Q & O). cbn [lc_conns lc_current] in *. apply I1. destruct (Nat.eq_dec k i) as [->|N].
      * rewrite setnth_same in Q by (apply I2; reflexivity). injection Q as <-. exists ck. auto.
      * rewrite setnth_other in Q by exact N. exists c. auto.
    + intros i E. cbn [lc_conns lc_current] in *. rewrite setnth_length. apply I2, E.
Qed.

Lemma tidy_run acts : forall s, tidy_inv s -> tidy s acts -> tidy_inv (live s acts).
Proof.
  induction acts as [|a acts IH]; intros s I T; [exact I|]. destruct T as [T1 T2]. cbn [live fold_left]. apply IH; [|exact T2]. apply tidy_step; assumption.
Qed.

(** Closing before every new start leaves nothing open. *)
Theorem tidy_closed acts i : tidy born acts -> ~ is_open (live born (acts ++ [CloseClient])) i.
Proof.
  intros T O. rewrite live_snoc in O. assert (I : tidy_inv born) by (split; [intros [|j] (c & Q & _); discriminate Q|discriminate]).
  pose proof (tidy_run acts born I T) as I'. pose proof (tidy_step _ CloseClient I' ltac:(discriminate)) as [K _]. specialize (K i O).
  cbn [lstep] in K. destruct (lc_current (live born acts)) eqn:C; [discriminate K|rewrite C in K; discriminate K].
Qed.
