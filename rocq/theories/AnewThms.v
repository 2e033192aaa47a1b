(** * loop() on a client that is started again: proofs *)
From Coq Require Import String List NArith ZArith Bool Lia.
From Verif Require Import PyStr Tags Messages SpecMsg MessageThms MessageThms2 Protocol Queue QueueThms IO Client Items Dispatch SpecDispatch DispatchThms DispatchThms2
  SpecLoop LoopThms Loops LoopsThms Anew SpecAnew.
Import ListNotations.
Open Scope N_scope.
Open Scope list_scope.

Lemma arun_snoc v es e : forall s s', arun v s (es ++ [e]) = Some s' -> exists s0, arun v s es = Some s0 /\ astep v s0 e = Some s'.
Proof.
  induction es as [|x es IH]; intros s s' H; cbn [app arun] in *.
  - destruct (astep v s e) as [s1|] eqn:E; [|discriminate]. exists s. split; [reflexivity|]. congruence.
  - destruct (astep v s x) as [s1|]; [|discriminate]. apply IH, H.
Qed.
Lemma arun_app v a b : forall s s1, arun v s a = Some s1 -> arun v s (a ++ b) = arun v s1 b.
Proof. induction a as [|x a IH]; intros s s1 H; cbn [app arun] in *; [congruence|]. destruct (astep v s x); [|discriminate]. apply IH, H. Qed.

Lemma from_app k a b : from k (a ++ b) = from k a ++ from k b.
Proof. unfold from. rewrite filter_app, map_app. reflexivity. Qed.
Lemma from_one k k' i r m : from k [(k', i, (r, m))] = if Nat.eqb k' k then [m] else [].
Proof. unfold from. cbn. destruct (Nat.eqb k' k); reflexivity. Qed.

Lemma qs_set k q s k' : nth_error (a_qs (set_q k q s)) k' = if Nat.eqb k k' then match nth_error (a_qs s) k with Some _ => Some q | None => None end else nth_error (a_qs s) k'.
Proof.
  cbn [set_q a_qs]. destruct (Nat.eqb_spec k k') as [<-|N]; [|apply setnth_other, N].
  destruct (nth_error (a_qs s) k) eqn:E; [apply setnth_same, nth_error_Some; congruence|].
  apply nth_error_None. rewrite setnth_length. apply nth_error_None, E.
Qed.
Lemma unread_set k q0 q s k' : nth_error (a_qs s) k = Some q0 -> unread (set_q k q s) k' = if Nat.eqb k k' then c_queue (q_conn q) else unread s k'.
Proof. intros E. unfold unread. rewrite qs_set, E. destruct (Nat.eqb k k'); reflexivity. Qed.
Lemma up_set k q0 q s k' : nth_error (a_qs s) k = Some q0 -> up (set_q k q s) k' = if Nat.eqb k k' then c_open (q_conn q) else up s k'.
Proof. intros E. unfold up. rewrite qs_set, E. destruct (Nat.eqb k k'); reflexivity. Qed.
Lemma unread_at s k q : nth_error (a_qs s) k = Some q -> unread s k = c_queue (q_conn q).
Proof. intros E. unfold unread. rewrite E. reflexivity. Qed.
Lemma up_at s k q : nth_error (a_qs s) k = Some q -> up s k = c_open (q_conn q).
Proof. intros E. unfold up. rewrite E. reflexivity. Qed.
Lemma try_get_open i q : c_open (q_conn (try_get i q)) = c_open (q_conn q).
Proof. unfold try_get. destruct (c_queue (q_conn q)); reflexivity. Qed.

(** ** What a move of a loop does to the queues *)

(** Read first from [k], then from the connection of the client. *)
Definition fetched (k : nat) (cur : option nat) (i : nat) (r : registry) (tk : list (nat * nat * (registry * msg))) : Prop :=
  match tk with [] => True | t :: rest => fst (fst t) = k /\ Forall (fun t => Some (fst (fst t)) = cur) rest end /\
  Forall (fun t => snd (fst t) = i /\ fst (snd t) = r) tk.

Record moved (s g : again) (i k : nat) (tk : list (nat * nat * (registry * msg))) : Prop := {
  mv_taken : a_taken g = a_taken s ++ tk; mv_fetched : fetched k (a_cur s) i (a_reg s) tk;
  mv_unread : forall k', unread s k' = from k' tk ++ unread g k';
  mv_up : forall k', up g k' = up s k'; mv_length : length (a_qs g) = length (a_qs s);
  mv_cur : a_cur g = a_cur s; mv_reg : a_reg g = a_reg s; mv_at : length (a_at g) = length (a_at s);
  mv_others : forall j, j <> i -> nth_error (a_at g) j = nth_error (a_at s) j;
  mv_items : exists l, a_items g = a_items s ++ l }.

Lemma get_item_items its w whr its' x : get_item its w whr = (its', x) -> exists l, its' = its ++ l.
Proof.
  assert (N : exists l, its = its ++ l) by (exists []; rewrite app_nil_r; reflexivity).
  unfold get_item. destruct (position (w, whr) its); [intros H; assert (its' = its) by congruence; subst its'; exact N|].
  destruct (item_types w) as [f|]; [|intros H; assert (its' = its) by congruence; subst its'; exact N].
  destruct (construct f whr); intros H; [|assert (its' = its) by congruence; subst its'; exact N].
  exists [(w, whr)]. congruence.
Qed.
Lemma handle_items v r its m its' ts x : handle v r its m = (its', ts, x) -> exists l, its' = its ++ l.
Proof.
  assert (N : exists l, its = its ++ l) by (exists []; rewrite app_nil_r; reflexivity).
  assert (Z : (its, @nil task, @None exn) = (its', ts, x) -> exists l, its' = its ++ l) by (intros H; assert (its' = its) by congruence; subst its'; exact N).
  unfold handle. destruct (msg_type m); try exact Z.
  all: destruct (msg_who m) as [w|]; [|exact Z]; destruct (msg_where m) as [whr|]; [|exact Z]; destruct (get_item its w whr) as [i1 y] eqn:G; intros H.
  all: assert (E : its' = i1) by (destruct y as [n|[]]; congruence); rewrite E; apply (get_item_items its w whr i1 y G).
Qed.

Lemma go_moved v fuel i : forall k s, exists tk, moved s (go v fuel i k s) i k tk.
Proof.
  induction fuel as [|fuel IH]; intros k s; cbn [go].
  { exists []. split; try reflexivity; [rewrite app_nil_r; reflexivity|split; [exact I|constructor]|exists []; rewrite app_nil_r; reflexivity]. }
  destruct (nth_error (a_qs s) k) as [q|] eqn:Q.
  2:{ exists []. split; try reflexivity; [rewrite app_nil_r; reflexivity|split; [exact I|constructor]|exists []; rewrite app_nil_r; reflexivity]. }
  destruct (c_queue (q_conn q)) as [|m ms] eqn:E.
  - exists []. split; cbn [set_at set_q a_taken a_qs a_cur a_reg a_at a_items]; try reflexivity.
    + rewrite app_nil_r. reflexivity.
    + split; [exact I|constructor].
    + intros k'. cbn. change (unread s k' = unread (set_q k (try_get i q) s) k'). rewrite (unread_set k q _ s k' Q), (try_get_nil i q E).
      destruct (Nat.eqb_spec k k') as [<-|N]; [apply unread_at, Q|reflexivity].
    + intros k'. change (up (set_q k (try_get i q) s) k' = up s k'). rewrite (up_set k q _ s k' Q), try_get_open.
      destruct (Nat.eqb_spec k k') as [<-|N]; [symmetry; apply up_at, Q|reflexivity].
    + apply setnth_length.
    + apply setnth_length.
    + intros j N. apply setnth_other. congruence.
    + exists []. rewrite app_nil_r. reflexivity.
  - destruct (handle v (a_reg s) (a_items s) m) as [[its ts] x] eqn:H. destruct (handle_items v _ _ _ _ _ _ H) as (l & Hl).
    set (s2 := took k i m its ts (set_q k (try_get i q) s)).
    assert (U : forall k', unread s k' = from k' [(k, i, (a_reg s, m))] ++ unread s2 k').
    { intros k'. change (unread s2 k') with (unread (set_q k (try_get i q) s) k'). rewrite (unread_set k q _ s k' Q), (try_get_cons i q m ms E), from_one.
      destruct (Nat.eqb_spec k k') as [<-|N]; [rewrite (unread_at s k q Q), E; reflexivity|reflexivity]. }
    assert (P : forall k', up s2 k' = up s k').
    { intros k'. change (up s2 k') with (up (set_q k (try_get i q) s) k'). rewrite (up_set k q _ s k' Q), try_get_open.
      destruct (Nat.eqb_spec k k') as [<-|N]; [symmetry; apply up_at, Q|reflexivity]. }
    assert (L : forall o, moved s (leave i o s2) i k [(k, i, (a_reg s, m))]).
    { intros o. split; try reflexivity.
      - split; [split; [reflexivity|constructor]|constructor; [split; reflexivity|constructor]].
      - exact U.
      - exact P.
      - cbn. apply setnth_length.
      - cbn. apply setnth_length.
      - intros j N. cbn. apply setnth_other. congruence.
      - exists l. exact Hl. }
    destruct x as [e|]; [eexists; apply L|]. destruct (a_cur s) as [k'|] eqn:C; [|eexists; apply L]. destruct (up s k'); [|eexists; apply L].
    destruct (IH k' s2) as (tk & M). exists ((k, i, (a_reg s, m)) :: tk). destruct M as [M1 M2 M3 M4 M5 M6 M7 M8 M9 M10]. split.
    + rewrite M1. cbn. rewrite <- app_assoc. reflexivity.
    + destruct M2 as (F1 & F2). split; [split; [reflexivity|]|constructor; [split; reflexivity|exact F2]].
      rewrite C. change (a_cur s2) with (a_cur s) in F1. rewrite C in F1. destruct tk as [|t rest]; [constructor|]. destruct F1 as (F1 & F3). constructor; [congruence|exact F3].
    + intros k''. rewrite U, M3. change ((k, i, (a_reg s, m)) :: tk) with ([(k, i, (a_reg s, m))] ++ tk). rewrite from_app, <- app_assoc. reflexivity.
    + intros k''. rewrite M4. apply P.
    + rewrite M5. cbn. apply setnth_length.
    + exact M6.
    + exact M7.
    + exact M8.
    + intros j N. rewrite M9 by exact N. reflexivity.
    + destruct M10 as (l' & El). exists (l ++ l'). rewrite El. cbn [s2 took a_items]. rewrite Hl, app_assoc. reflexivity.
Qed.

(** ** Everything delivered is taken once or unread *)

Lemma starts_app a b : starts (a ++ b) = (starts a + starts b)%nat.
Proof. induction a as [|[] a IH]; cbn; rewrite ?IH; reflexivity. Qed.

(** What a step does to connection [k]. *)
Definition kept (k : nat) (s s' : again) : Prop :=
  (length (a_qs s) <= length (a_qs s'))%nat /\ up s' k = up s k /\ from k (a_taken s) ++ unread s k = from k (a_taken s') ++ unread s' k.

Lemma kept_moved k s g i k0 tk : moved s g i k0 tk -> kept k s g.
Proof.
  intros M. destruct M as [M1 M2 M3 M4 M5 M6 M7 M8 M9 M10]. split; [lia|]. split; [apply M4|]. rewrite M1, from_app, (M3 k), app_assoc. reflexivity.
Qed.
Lemma kept_same k s s' : a_qs s' = a_qs s -> a_taken s' = a_taken s -> kept k s s'.
Proof. intros E1 E2. unfold kept, up, unread. rewrite E1, E2. auto. Qed.
Lemma kept_q k k' q q' s : nth_error (a_qs s) k' = Some q -> q_conn q' = q_conn q -> kept k s (set_q k' q' s).
Proof.
  intros E1 E2. split; [cbn; rewrite setnth_length; lia|]. split.
  - rewrite (up_set k' q q' s k E1), E2. destruct (Nat.eqb_spec k' k) as [<-|N]; [symmetry; apply up_at, E1|reflexivity].
  - change (a_taken (set_q k' q' s)) with (a_taken s). rewrite (unread_set k' q q' s k E1), E2. destruct (Nat.eqb_spec k' k) as [<-|N]; [rewrite (unread_at _ _ _ E1)|]; reflexivity.
Qed.
Lemma kept_else k k' q q' s : nth_error (a_qs s) k' = Some q -> k' <> k -> kept k s (set_q k' q' s).
Proof.
  intros E1 N. apply Nat.eqb_neq in N. split; [cbn; rewrite setnth_length; lia|]. split.
  - rewrite (up_set k' q q' s k E1), N. reflexivity.
  - change (a_taken (set_q k' q' s)) with (a_taken s). rewrite (unread_set k' q q' s k E1), N. reflexivity.
Qed.
Lemma kept_trans k a b c : kept k a b -> kept k b c -> kept k a c.
Proof. intros (A1 & A2 & A3) (B1 & B2 & B3). split; [lia|]. split; congruence. Qed.

Lemma qstep_conn q e q' : (forall d, e <> EPacket d) -> (forall i, e <> EGet i) -> qstep q e = Some q' ->
  q_conn q' = q_conn q \/ exists i, nth_error (q_readers q) i = Some RWoken /\ e = Queue.ERun i.
Proof.
  intros N1 N2 H. destruct e as [d|i|i|i]; [destruct (N1 d eq_refl)|destruct (N2 i eq_refl)| |]; cbn [qstep] in H.
  - destruct (nth_error (q_readers q) i) as [[]|] eqn:R; try discriminate; [right; eauto| |]; left.
    + destruct (c_queue (q_conn q)); [injection H as <-; reflexivity|]. destruct (wakeup _ _). injection H as <-. reflexivity.
    + injection H as <-. reflexivity.
  - left. destruct (nth_error (q_readers q) i) as [[]|]; try discriminate; injection H as <-; reflexivity.
Qed.

Lemma step_kept k v s e s' : elsewhere k e -> astep v s e = Some s' -> kept k s s' /\ length (a_qs s') = length (a_qs s) /\ a_cur s' = a_cur s.
Proof.
  intros El H. destruct e as [| |i|i|i|k' d|k'|key c]; cbn [elsewhere] in El; try contradiction; cbn [astep] in H.
  - destruct (nth_error (a_at s) i) as [[x|]|]; try discriminate. injection H as <-. destruct (a_cur s) as [k'|] eqn:C; [|split; [apply kept_same; reflexivity|split; [reflexivity|exact C]]].
    destruct (up s k'); [|split; [apply kept_same; reflexivity|split; [reflexivity|exact C]]]. unfold going. destruct (go_moved v (S (pending s)) i k' s) as (tk & M).
    split; [eapply kept_moved, M|]. destruct M. split; [assumption|congruence].
  - destruct (nth_error (a_at s) i) as [[k'|]|]; try discriminate. destruct (nth_error (a_qs s) k') as [q|] eqn:Q; [|discriminate].
    destruct (nth_error (q_readers q) i) as [x|] eqn:R; [|discriminate].
    assert (D : x = RWoken \/ x <> RWoken) by (destruct x; auto; right; discriminate). destruct D as [->|D].
    + injection H as <-. unfold going. destruct (go_moved v (S (pending s)) i k' s) as (tk & M). split; [eapply kept_moved, M|]. destruct M. split; assumption.
    + assert (H' : match qstep q (Queue.ERun i) with Some q' => Some (leave i OCancelled (set_q k' q' s)) | None => None end = Some s') by (destruct x; try exact H; contradiction).
      clear H. destruct (qstep q (Queue.ERun i)) as [q'|] eqn:E; [|discriminate]. injection H' as <-.
      assert (Cq : q_conn q' = q_conn q).
      { destruct (qstep_conn q (Queue.ERun i) q') as [X|(j & Rj & Ej)]; try discriminate; [exact E|exact X|]. injection Ej as <-. congruence. }
      split; [|split; [cbn; apply setnth_length|reflexivity]]. eapply kept_trans; [apply (kept_q k k' q q' s Q Cq)|apply kept_same; reflexivity].
  - destruct (nth_error (a_at s) i) as [[k'|]|]; try discriminate. destruct (nth_error (a_qs s) k') as [q|] eqn:Q; [|discriminate].
    destruct (qstep q (Queue.ECancel i)) as [q'|] eqn:E; [|discriminate]. injection H as <-.
    assert (Cq : q_conn q' = q_conn q).
    { destruct (qstep_conn q (Queue.ECancel i) q') as [X|(j & Rj & Ej)]; try discriminate; [exact E|exact X]. }
    split; [apply (kept_q k k' q q' s Q Cq)|]. split; [cbn; apply setnth_length|reflexivity].
  - destruct (nth_error (a_qs s) k') as [q|] eqn:Q; [|discriminate]. destruct (qstep q (EPacket d)) as [q'|]; [|discriminate]. injection H as <-.
    split; [apply (kept_else k k' q q' s Q El)|]. split; [cbn; apply setnth_length|reflexivity].
  - destruct (nth_error (a_qs s) k') as [q|] eqn:Q; [|discriminate]. injection H as <-.
    split; [apply (kept_else k k' q _ s Q El)|]. split; [cbn; apply setnth_length|reflexivity].
  - injection H as <-. split; [apply kept_same; reflexivity|]. split; reflexivity.
Qed.

Lemma starts_length v n r es s : arun v (ainit n r) es = Some s -> length (a_qs s) = starts es.
Proof.
  revert s. induction es as [|e es IH] using rev_ind; intros s H; [injection H as <-; reflexivity|].
  apply arun_snoc in H as (s0 & H0 & H). specialize (IH s0 H0). rewrite starts_app.
  destruct e as [| |i|i|i|k' d|k'|key c].
  - cbn [astep] in H. injection H as <-. cbn. rewrite app_length. cbn. lia.
  - cbn [astep] in H. destruct (a_cur s0) as [k|]; injection H as <-; cbn; [|lia]. destruct (nth_error (a_qs s0) k); rewrite ?setnth_length; lia.
  - destruct (step_kept 0 v s0 (ALoop i) s I H) as (_ & L & _). cbn. lia.
  - destruct (step_kept 0 v s0 (ARun i) s I H) as (_ & L & _). cbn. lia.
  - destruct (step_kept 0 v s0 (ACancel i) s I H) as (_ & L & _). cbn. lia.
  - destruct (step_kept (S k') v s0 (APacket k' d) s) as (_ & L & _); [cbn; lia|exact H|]. cbn. lia.
  - destruct (step_kept (S k') v s0 (ADrop k') s) as (_ & L & _); [cbn; lia|exact H|]. cbn. lia.
  - destruct (step_kept 0 v s0 (ARegister key c) s I H) as (_ & L & _). cbn. lia.
Qed.

Lemma snoc_inj {A} (a b : list A) x y : a ++ [x] = b ++ [y] -> a = b /\ x = y.
Proof. apply app_inj_tail. Qed.

Lemma cur_holds v n r es o : holds es o -> forall s, arun v (ainit n r) es = Some s -> a_cur s = o.
Proof.
  induction 1 as [|es|es|es e o Ho IH N1 N2]; intros s H.
  - injection H as <-. reflexivity.
  - apply arun_snoc in H as (s0 & H0 & H). cbn in H. injection H as <-. cbn. rewrite (starts_length v n r es s0 H0). reflexivity.
  - apply arun_snoc in H as (s0 & H0 & H). cbn in H. destruct (a_cur s0) eqn:C; injection H as <-; [reflexivity|exact C].
  - apply arun_snoc in H as (s0 & H0 & H). rewrite <- (IH s0 H0).
    destruct e as [| |i|i|i|k' d|k'|key c]; try congruence.
    + apply (step_kept 0 v s0 (ALoop i) s I H).
    + apply (step_kept 0 v s0 (ARun i) s I H).
    + apply (step_kept 0 v s0 (ACancel i) s I H).
    + apply (step_kept (S k') v s0 (APacket k' d) s); [cbn; lia|exact H].
    + apply (step_kept (S k') v s0 (ADrop k') s); [cbn; lia|exact H].
    + apply (step_kept 0 v s0 (ARegister key c) s I H).
Qed.
