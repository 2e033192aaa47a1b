(** * loop() on a client that is started again: what is read and what is not *)
From Coq Require Import String List NArith ZArith Bool Lia.
From Verif Require Import PyStr Tags Messages SpecMsg MessageThms MessageThms2 Protocol Queue QueueThms IO Client Items Dispatch SpecDispatch DispatchThms DispatchThms2
  SpecLoop LoopThms SingleThms Loops LoopsThms Anew SpecAnew AnewThms AnewThms2.
Import ListNotations.
Open Scope N_scope.
Open Scope list_scope.

Lemma deliver_cases q d q' : qstep q (EPacket d) = Some q' -> q_conn q' = deliver (q_conn q) d.
Proof. cbn [qstep]. destruct (wakeups _ _ _). intros H. injection H as <-. reflexivity. Qed.
Lemma deliver_shut c d : c_open c = false -> deliver c d = c.
Proof. unfold deliver. intros ->. reflexivity. Qed.
Lemma deliver_ok c d ms : c_open c = true -> packet_messages d = Ok ms -> deliver c d = {| c_queue := c_queue c ++ ms; c_open := true |}.
Proof. unfold deliver. intros -> H. rewrite (received _ _ _ H). reflexivity. Qed.
Lemma deliver_bad c d e : c_open c = true -> packet_messages d = Err e -> deliver c d = {| c_queue := c_queue c; c_open := false |}.
Proof. unfold deliver, data_received. intros -> ->. reflexivity. Qed.

(** ** Every message that arrives is taken once, or unread *)

Definition lineok (k : nat) (s : again) (l : line) : Prop :=
  match l with NotYet => (length (a_qs s) <= k)%nat | Up => (k < length (a_qs s))%nat /\ up s k = true | Down => (k < length (a_qs s))%nat /\ up s k = false end.

Lemma lineok_kept k s s' l : kept k s s' -> length (a_qs s') = length (a_qs s) -> lineok k s l -> lineok k s' l.
Proof. intros (_ & U & _) L. destruct l; cbn; rewrite ?L, ?U; auto. Qed.

Lemma conserved v n r k es ms l : delivered k es ms l -> forall s, arun v (ainit n r) es = Some s -> ms = from k (a_taken s) ++ unread s k /\ lineok k s l.
Proof.
  induction 1 as [|es ms l D IH|es ms d new D IH P|es ms d e D IH P|es ms d D IH|es ms l D IH|es ms l D IH Ho|es ms l o D IH Ho N|es ms l e D IH El]; intros s H.
  - injection H as <-. split; [|cbn; lia]. unfold unread. cbn. destruct k; reflexivity.
  - apply arun_snoc in H as (s0 & H0 & H). destruct (IH s0 H0) as (E & LO). pose proof (starts_length v n r es s0 H0) as SL. cbn [astep] in H. injection H as <-.
    set (s1 := {| a_qs := _ |}). assert (Ek : forall k', k' <> length (a_qs s0) -> nth_error (a_qs s1) k' = nth_error (a_qs s0) k').
    { intros k' N. cbn. destruct (Nat.ltb_spec k' (length (a_qs s0))) as [B|B]; [apply nth_error_app1, B|].
      rewrite (proj2 (nth_error_None (a_qs s0) k') B). apply nth_error_None. rewrite app_length. cbn. lia. }
    destruct (Nat.eqb_spec (starts es) k) as [Z|Z].
    + subst k. rewrite <- SL in *. assert (Q : nth_error (a_qs s1) (length (a_qs s0)) = Some (qinit (length (a_at s0)))) by (cbn; rewrite nth_error_app2, Nat.sub_diag; [reflexivity|lia]).
      split.
      * rewrite E. change (a_taken s1) with (a_taken s0). f_equal. unfold unread. rewrite Q, (proj2 (nth_error_None (a_qs s0) _)) by lia. reflexivity.
      * cbn [lineok]. split; [cbn; rewrite app_length; cbn; lia|]. unfold up. rewrite Q. reflexivity.
    + rewrite <- SL in Z. split.
      * rewrite E. change (a_taken s1) with (a_taken s0). unfold unread. rewrite Ek by congruence. reflexivity.
      * unfold lineok, up in *. rewrite Ek by congruence. assert (L1 : length (a_qs s1) = S (length (a_qs s0))) by (cbn; rewrite app_length; cbn; lia). rewrite L1. destruct l; [lia| |]; (destruct LO; split; [lia|assumption]).
  - apply arun_snoc in H as (s0 & H0 & H). destruct (IH s0 H0) as (E & Lk & U). cbn [astep] in H. destruct (nth_error (a_qs s0) k) as [q|] eqn:Q; [|discriminate].
    destruct (qstep q (EPacket d)) as [q'|] eqn:S1; [|discriminate]. injection H as <-. pose proof (deliver_cases _ _ _ S1) as C. rewrite (up_at s0 k q Q) in U. rewrite (deliver_ok _ _ _ U P) in C.
    split; [|cbn [lineok]; split; [cbn; rewrite setnth_length; exact Lk|rewrite (up_set k q q' s0 k Q), Nat.eqb_refl, C; reflexivity]].
    rewrite (unread_set k q q' s0 k Q), Nat.eqb_refl, C. cbn [c_queue]. rewrite E, (unread_at s0 k q Q), app_assoc. reflexivity.
  - apply arun_snoc in H as (s0 & H0 & H). destruct (IH s0 H0) as (E & Lk & U). cbn [astep] in H. destruct (nth_error (a_qs s0) k) as [q|] eqn:Q; [|discriminate].
    destruct (qstep q (EPacket d)) as [q'|] eqn:S1; [|discriminate]. injection H as <-. pose proof (deliver_cases _ _ _ S1) as C. rewrite (up_at s0 k q Q) in U. rewrite (deliver_bad _ _ _ U P) in C.
    split; [|cbn [lineok]; split; [cbn; rewrite setnth_length; exact Lk|rewrite (up_set k q q' s0 k Q), Nat.eqb_refl, C; reflexivity]].
    rewrite (unread_set k q q' s0 k Q), Nat.eqb_refl, C. cbn [c_queue]. rewrite E, (unread_at s0 k q Q). reflexivity.
  - apply arun_snoc in H as (s0 & H0 & H). destruct (IH s0 H0) as (E & Lk & U). cbn [astep] in H. destruct (nth_error (a_qs s0) k) as [q|] eqn:Q; [|discriminate].
    destruct (qstep q (EPacket d)) as [q'|] eqn:S1; [|discriminate]. injection H as <-. pose proof (deliver_cases _ _ _ S1) as C. rewrite (up_at s0 k q Q) in U. rewrite (deliver_shut _ _ U) in C.
    split; [|cbn [lineok]; split; [cbn; rewrite setnth_length; exact Lk|rewrite (up_set k q q' s0 k Q), Nat.eqb_refl, C; exact U]].
    rewrite (unread_set k q q' s0 k Q), Nat.eqb_refl, C. rewrite E, (unread_at s0 k q Q). reflexivity.
  - apply arun_snoc in H as (s0 & H0 & H). destruct (IH s0 H0) as (E & _). cbn [astep] in H. destruct (nth_error (a_qs s0) k) as [q|] eqn:Q; [|discriminate]. injection H as <-.
    split; [|cbn [lineok]; split; [cbn; rewrite setnth_length; apply nth_error_Some; congruence|rewrite (up_set k q _ s0 k Q), Nat.eqb_refl; reflexivity]].
    rewrite (unread_set k q _ s0 k Q), Nat.eqb_refl. rewrite E, (unread_at s0 k q Q). reflexivity.
  - apply arun_snoc in H as (s0 & H0 & H). destruct (IH s0 H0) as (E & _). pose proof (cur_holds v n r es _ Ho s0 H0) as C. cbn [astep] in H. rewrite C in H.
    pose proof (run_rinv v es _ _ (rinv_init n r) H0) as R. pose proof (ri_cur _ R k C) as Lk. destruct (nth_error (a_qs s0) k) as [q|] eqn:Q; [|apply nth_error_None in Q; lia]. injection H as <-.
    set (s1 := {| a_qs := _ |}). assert (Q1 : nth_error (a_qs s1) k = Some (shut q)) by (cbn; apply setnth_same, Lk). split.
    + rewrite E, (unread_at s0 k q Q), (unread_at s1 k _ Q1). reflexivity.
    + cbn [lineok]. rewrite (up_at s1 k _ Q1). split; [cbn; rewrite setnth_length; exact Lk|reflexivity].
  - apply arun_snoc in H as (s0 & H0 & H). destruct (IH s0 H0) as (E & LO). pose proof (cur_holds v n r es _ Ho s0 H0) as C. cbn [astep] in H. rewrite C in H.
    destruct o as [k'|]; injection H as <-; [|split; assumption]. assert (Nk : k' <> k) by congruence.
    set (s1 := {| a_qs := _ |}). assert (Q1 : nth_error (a_qs s1) k = nth_error (a_qs s0) k) by (cbn; destruct (nth_error (a_qs s0) k'); [apply setnth_other, Nk|reflexivity]).
    assert (L1 : length (a_qs s1) = length (a_qs s0)) by (cbn; destruct (nth_error (a_qs s0) k'); [apply setnth_length|reflexivity]). split.
    + rewrite E. unfold unread. rewrite Q1. reflexivity.
    + unfold lineok, up in *. rewrite L1, Q1. exact LO.
  - apply arun_snoc in H as (s0 & H0 & H). destruct (IH s0 H0) as (E & LO). destruct (step_kept k v s0 e s El H) as (K & L & _). split; [|eapply lineok_kept; eassumption].
    destruct K as (_ & _ & K). congruence.
Qed.

(** ** Each message that is taken is handled *)

Record acore (s : again) : Prop := {
  ac_built : forall k, Forall built (unread s k); ac_sound : sound (a_items s);
  ac_tasks : exists tss, a_started s = concat tss /\ Forall2 (handled (a_items s)) (map snd (a_taken s)) tss }.

(** How a loop ends that goes on from [s]; [last]: the message read last. *)
Definition ends_as (s : again) (i : nat) (last : option msg) (xs : list (nat * outcome)) : Prop :=
  xs = [] \/ (xs = [(i, OFailed AttributeError)] /\ a_cur s = None) \/ (xs = [(i, OReturned)] /\ exists k, a_cur s = Some k /\ up s k = false) \/
  (exists m, last = Some m /\ stray m /\ (xs = [(i, OFailed IndexError)] \/ xs = [(i, OFailed InvalidTag)])).
Definition last_of (tk : list (nat * nat * (registry * msg))) : option msg := match rev tk with t :: _ => Some (snd (snd t)) | [] => None end.
Lemma last_of_snoc tk t : last_of (tk ++ [t]) = Some (snd (snd t)).
Proof. unfold last_of. rewrite rev_app_distr. reflexivity. Qed.

Lemma go_core v fuel i : v < 13 -> forall k s, acore s -> acore (go v fuel i k s) /\
  exists xs, a_ended (go v fuel i k s) = a_ended s ++ xs /\ ends_as s i (last_of (a_taken (go v fuel i k s))) xs.
Proof.
  intros Hv. induction fuel as [|fuel IH]; intros k s C; cbn [go]; [split; [exact C|]; exists []; split; [rewrite app_nil_r; reflexivity|left; reflexivity]|].
  destruct (nth_error (a_qs s) k) as [q|] eqn:Q; [|split; [exact C|]; exists []; split; [rewrite app_nil_r; reflexivity|left; reflexivity]].
  destruct (c_queue (q_conn q)) as [|m ms] eqn:E.
  - split; [|exists []; split; [rewrite app_nil_r; reflexivity|left; reflexivity]]. destruct C as [C1 C2 C3]. split; try assumption. intros k'. change (Forall built (unread (set_q k (try_get i q) s) k')).
    rewrite (unread_set k q _ s k' Q), (try_get_nil i q E). destruct (Nat.eqb_spec k k') as [<-|N]; [rewrite E; constructor|apply C1].
  - destruct (handle v (a_reg s) (a_items s) m) as [[its ts] x] eqn:H. set (s2 := took k i m its ts (set_q k (try_get i q) s)).
    assert (B : built m) by (pose proof (ac_built _ C k) as B; rewrite (unread_at s k q Q), E in B; inversion B; assumption).
    destruct (handle_spec v _ _ _ _ _ _ Hv B (ac_sound _ C) H) as (S' & (l & El) & V).
    assert (C2 : acore s2).
    { split; [|exact S'|].
      - intros k'. change (unread s2 k') with (unread (set_q k (try_get i q) s) k'). rewrite (unread_set k q _ s k' Q), (try_get_cons i q m ms E).
        pose proof (ac_built _ C k') as B'. destruct (Nat.eqb_spec k k') as [<-|N]; [|exact B']. rewrite (unread_at s k q Q), E in B'. inversion B'; assumption.
      - destruct (ac_tasks _ C) as (tss & Es & Fs). exists (tss ++ [ts]). cbn [s2 took set_q a_started a_items a_taken a_reg]. split; [rewrite Es, concat_app; cbn; rewrite app_nil_r; reflexivity|].
        rewrite map_app. apply Forall2_app; [rewrite El; apply handled_more2, Fs|]. constructor; [|constructor]. cbn. destruct V as [(_ & NS & M)|(St & _ & -> & _)]; [right; auto|left; auto]. }
    assert (LV : forall o, acore (leave i o s2)) by (intros o; destruct C2; split; assumption).
    assert (Lm : last_of (a_taken s2) = Some m) by (cbn; rewrite last_of_snoc; reflexivity).
    destruct x as [e|].
    + split; [apply LV|]. exists [(i, OFailed e)]. split; [reflexivity|]. right. right. right. exists m. split; [exact Lm|]. destruct V as [(X & _)|(St & _ & _ & whr & _ & V)]; [discriminate|].
      split; [exact St|]. destruct V as [(X & _)|(X & _)]; injection X as ->; auto.
    + destruct (a_cur s) as [k'|] eqn:Cu; [|split; [apply LV|]; exists [(i, OFailed AttributeError)]; split; [reflexivity|right; left; auto]].
      destruct (up s k') eqn:U; [|split; [apply LV|]; exists [(i, OReturned)]; split; [reflexivity|right; right; left; eauto]].
      destruct (IH k' s2 C2) as (G & xs & Ex & D). split; [exact G|]. exists xs. split; [exact Ex|].
      assert (U2 : forall k0, up s2 k0 = up s k0).
      { intros k0. change (up s2 k0) with (up (set_q k (try_get i q) s) k0). rewrite (up_set k q _ s k0 Q), try_get_open.
        destruct (Nat.eqb_spec k k0) as [<-|N]; [symmetry; apply up_at, Q|reflexivity]. }
      destruct D as [D|[(D & D')|[(D & k0 & D' & D'')|D]]]; [left; exact D|right; left; split; [exact D|exact D']|right; right; left; split; [exact D|]; exists k0; rewrite <- U2; auto|right; right; right; exact D].
Qed.

Lemma acore_same s s' : (forall k, unread s' k = unread s k) -> a_items s' = a_items s -> a_started s' = a_started s -> a_taken s' = a_taken s -> acore s -> acore s'.
Proof. intros E1 E2 E3 E4 [C1 C2 C3]. split; [intros k; rewrite E1; apply C1|rewrite E2; exact C2|rewrite E2, E3, E4; exact C3]. Qed.

Lemma unread_q k q q' s : nth_error (a_qs s) k = Some q -> c_queue (q_conn q') = c_queue (q_conn q) -> forall k', unread (set_q k q' s) k' = unread s k'.
Proof. intros Q E k'. rewrite (unread_set k q q' s k' Q), E. destruct (Nat.eqb_spec k k') as [<-|N]; [symmetry; apply unread_at, Q|reflexivity]. Qed.

Lemma step_core v s e s' : v < 13 -> acore s -> astep v s e = Some s' -> acore s'.
Proof.
  intros Hv C H. destruct e as [| |i|i|i|k d|k|key c]; cbn [astep] in H.
  - injection H as <-. apply (acore_same s); try reflexivity; [|exact C]. intros k. unfold unread. cbn [a_qs]. destruct (Nat.ltb_spec k (length (a_qs s))) as [B|B]; [rewrite nth_error_app1 by exact B; reflexivity|].
    rewrite (proj2 (nth_error_None (a_qs s) k) B), nth_error_app2 by exact B. destruct (k - length (a_qs s))%nat as [|[|z]]; reflexivity.
  - destruct (a_cur s) as [k|]; injection H as <-; [|exact C]. apply (acore_same s); try reflexivity; [|exact C]. intros k'. unfold unread at 1. cbn [a_qs].
    destruct (nth_error (a_qs s) k) as [q|] eqn:Q; [|reflexivity]. apply (unread_q k q (shut q) s Q eq_refl k').
  - destruct (nth_error (a_at s) i) as [[x|]|]; try discriminate. injection H as <-.
    assert (LV : forall o, acore (leave i o s)) by (intros o; apply (acore_same s); try reflexivity; exact C).
    destruct (a_cur s) as [k|]; [|apply LV]. destruct (up s k); [|apply LV]. apply go_core; assumption.
  - destruct (nth_error (a_at s) i) as [[k|]|] eqn:A; try discriminate. destruct (nth_error (a_qs s) k) as [q|] eqn:Q; [|discriminate].
    destruct (nth_error (q_readers q) i) as [x|] eqn:Rx; [|discriminate].
    assert (D : x = RWoken \/ x <> RWoken) by (destruct x; auto; right; discriminate). destruct D as [->|D]; [injection H as <-; apply go_core; assumption|].
    assert (H' : match qstep q (Queue.ERun i) with Some q' => Some (leave i OCancelled (set_q k q' s)) | None => None end = Some s') by (destruct x; try exact H; contradiction).
    clear H. destruct (qstep q (Queue.ERun i)) as [q'|] eqn:E; [|discriminate]. injection H' as <-. apply (acore_same s); try reflexivity; [|exact C]. apply (unread_q k q q' s Q).
    destruct (qstep_conn q (Queue.ERun i) q') as [X|(j & Rj & Ej)]; try discriminate; [exact E|congruence|]. injection Ej as <-. congruence.
  - destruct (nth_error (a_at s) i) as [[k|]|] eqn:A; try discriminate. destruct (nth_error (a_qs s) k) as [q|] eqn:Q; [|discriminate].
    destruct (qstep q (Queue.ECancel i)) as [q'|] eqn:E; [|discriminate]. injection H as <-. apply (acore_same s); try reflexivity; [|exact C]. apply (unread_q k q q' s Q).
    destruct (qstep_conn q (Queue.ECancel i) q') as [X|(j & Rj & Ej)]; try discriminate; [exact E|congruence].
  - destruct (nth_error (a_qs s) k) as [q|] eqn:Q; [|discriminate]. destruct (qstep q (EPacket d)) as [q'|] eqn:E; [|discriminate]. injection H as <-.
    destruct C as [C1 C2 C3]. split; try assumption. intros k'. rewrite (unread_set k q q' s k' Q), (deliver_cases _ _ _ E). specialize (C1 k'). destruct (Nat.eqb_spec k k') as [<-|N]; [|exact C1].
    rewrite (unread_at s k q Q) in C1. destruct (c_open (q_conn q)) eqn:O; [|rewrite deliver_shut by exact O; exact C1]. destruct (packet_messages d) as [ms|x] eqn:P.
    + rewrite (deliver_ok _ _ _ O P). cbn [c_queue]. apply Forall_app. split; [exact C1|]. eapply packet_built, P.
    + rewrite (deliver_bad _ _ _ O P). exact C1.
  - destruct (nth_error (a_qs s) k) as [q|] eqn:Q; [|discriminate]. injection H as <-. apply (acore_same s); try reflexivity; [|exact C]. apply (unread_q k q (shut q) s Q eq_refl).
  - injection H as <-. apply (acore_same s); try reflexivity; exact C.
Qed.

Lemma acore_init n r : acore (ainit n r).
Proof. split; [intros [|k]; constructor|split; constructor|exists []; split; [reflexivity|constructor]]. Qed.
Lemma run_core v es : v < 13 -> forall s s', acore s -> arun v s es = Some s' -> acore s'.
Proof.
  intros Hv. induction es as [|e es IH]; intros s s' R H; cbn [arun] in H; [injection H as <-; exact R|].
  destruct (astep v s e) as [s1|] eqn:E; [|discriminate]. apply (IH s1 s'); [eapply step_core; eassumption|exact H].
Qed.

Theorem once v n r es s : v < 13 -> arun v (ainit n r) es = Some s ->
  (exists tss, a_started s = concat tss /\ Forall2 (handled (a_items s)) (map snd (a_taken s)) tss) /\
  forall k ms l, delivered k es ms l -> ms = from k (a_taken s) ++ unread s k.
Proof.
  intros Hv H. split; [apply (ac_tasks _ (run_core v es Hv _ _ (acore_init n r) H))|]. intros k ms l D. apply (conserved v n r k es ms l D s H).
Qed.

(** ** One step *)

Lemma step_moved v s e s' : astep v s e = Some s' -> (a_taken s' = a_taken s /\ a_items s' = a_items s) \/
  exists i k tk, moved s s' i k tk /\ s' = going v i k s /\ ((e = ALoop i /\ a_cur s = Some k) \/ (e = ARun i /\ waits_at s i k)).
Proof.
  intros H. destruct e as [| |i|i|i|k d|k|key c]; cbn [astep] in H.
  - injection H as <-. left. split; reflexivity.
  - destruct (a_cur s); injection H as <-; left; split; reflexivity.
  - destruct (nth_error (a_at s) i) as [[x|]|]; try discriminate. injection H as <-. destruct (a_cur s) as [k|] eqn:C; [|left; split; reflexivity]. destruct (up s k); [|left; split; reflexivity].
    right. unfold going. destruct (go_moved v (S (pending s)) i k s) as (tk & M). exists i, k, tk. split; [exact M|]. split; [reflexivity|]. left. auto.
  - destruct (nth_error (a_at s) i) as [[k|]|] eqn:A; try discriminate. destruct (nth_error (a_qs s) k) as [q|] eqn:Q; [|discriminate]. destruct (nth_error (q_readers q) i) as [x|] eqn:Rx; [|discriminate].
    assert (D : x = RWoken \/ x <> RWoken) by (destruct x; auto; right; discriminate). destruct D as [->|D].
    + injection H as <-. right. unfold going. destruct (go_moved v (S (pending s)) i k s) as (tk & M). exists i, k, tk. split; [exact M|]. split; [reflexivity|]. right. auto.
    + left. assert (H' : match qstep q (Queue.ERun i) with Some q' => Some (leave i OCancelled (set_q k q' s)) | None => None end = Some s') by (destruct x; try exact H; contradiction).
      clear H. destruct (qstep q (Queue.ERun i)) as [q'|] eqn:E; [|discriminate]. injection H' as <-. split; reflexivity.
  - destruct (nth_error (a_at s) i) as [[k|]|] eqn:A; try discriminate. destruct (nth_error (a_qs s) k) as [q|] eqn:Q; [|discriminate].
    destruct (qstep q (Queue.ECancel i)) as [q'|] eqn:E; [|discriminate]. injection H as <-. left. split; reflexivity.
  - destruct (nth_error (a_qs s) k) as [q|] eqn:Q; [|discriminate]. destruct (qstep q (EPacket d)) as [q'|] eqn:E; [|discriminate]. injection H as <-. left. split; reflexivity.
  - destruct (nth_error (a_qs s) k) as [q|] eqn:Q; [|discriminate]. injection H as <-. left. split; reflexivity.
  - injection H as <-. left. split; reflexivity.
Qed.

Lemma step_reg v s e s' : astep v s e = Some s' -> a_reg s' = match e with ARegister key c => register (a_reg s) key c | _ => a_reg s end.
Proof.
  intros H. destruct (step_moved v s e s' H) as [_|(i & k & tk & M & _ & [(-> & _)|(-> & _)])]; [|destruct M; assumption|destruct M; assumption].
  destruct e as [| |i|i|i|k d|k|key c]; cbn [astep] in H.
  - injection H as <-. reflexivity.
  - destruct (a_cur s); injection H as <-; reflexivity.
  - destruct (nth_error (a_at s) i) as [[x|]|]; try discriminate. injection H as <-. destruct (a_cur s) as [k|]; [|reflexivity]. destruct (up s k); [|reflexivity].
    unfold going. destruct (go_moved v (S (pending s)) i k s) as (tk & M). destruct M; assumption.
  - destruct (nth_error (a_at s) i) as [[k|]|] eqn:A; try discriminate. destruct (nth_error (a_qs s) k) as [q|] eqn:Q; [|discriminate]. destruct (nth_error (q_readers q) i) as [x|] eqn:Rx; [|discriminate].
    assert (D : x = RWoken \/ x <> RWoken) by (destruct x; auto; right; discriminate). destruct D as [->|D].
    + injection H as <-. unfold going. destruct (go_moved v (S (pending s)) i k s) as (tk & M). destruct M; assumption.
    + assert (H' : match qstep q (Queue.ERun i) with Some q' => Some (leave i OCancelled (set_q k q' s)) | None => None end = Some s') by (destruct x; try exact H; contradiction).
      clear H. destruct (qstep q (Queue.ERun i)) as [q'|] eqn:E; [|discriminate]. injection H' as <-. reflexivity.
  - destruct (nth_error (a_at s) i) as [[k|]|] eqn:A; try discriminate. destruct (nth_error (a_qs s) k) as [q|] eqn:Q; [|discriminate].
    destruct (qstep q (Queue.ECancel i)) as [q'|] eqn:E; [|discriminate]. injection H as <-. reflexivity.
  - destruct (nth_error (a_qs s) k) as [q|] eqn:Q; [|discriminate]. destruct (qstep q (EPacket d)) as [q'|] eqn:E; [|discriminate]. injection H as <-. reflexivity.
  - destruct (nth_error (a_qs s) k) as [q|] eqn:Q; [|discriminate]. injection H as <-. reflexivity.
  - injection H as <-. reflexivity.
Qed.
Lemma run_reg v es : forall s s', arun v s es = Some s' -> a_reg s' = regs (a_reg s) es.
Proof.
  induction es as [|e es IH]; intros s s' H; cbn [arun] in H; [injection H as <-; reflexivity|]. destruct (astep v s e) as [s1|] eqn:E; [|discriminate].
  rewrite (IH s1 s' H), (step_reg v s e s1 E). destruct e; reflexivity.
Qed.

Theorem current v n r es s o e s' : holds es o -> arun v (ainit n r) es = Some s -> astep v s e = Some s' ->
  exists tk, a_taken s' = a_taken s ++ tk /\
    match tk with
    | [] => True
    | (k, i, _) :: rest =>
        ((e = ALoop i /\ o = Some k) \/ (e = ARun i /\ waits_at s i k)) /\ Forall (fun t => snd (fst t) = i /\ o = Some (fst (fst t))) rest
    end /\ Forall (fun t => fst (snd t) = regs r es) tk.
Proof.
  intros Ho H H'. pose proof (run_reg v es _ _ H) as Rg. cbn [ainit a_reg] in Rg. rewrite <- Rg. pose proof (cur_holds v n r es o Ho s H) as C. destruct (step_moved v s e s' H') as [(T & _)|(i & k & tk & M & _ & D)].
  - exists []. rewrite app_nil_r. auto.
  - exists tk. destruct M as [M1 M2 M3 M4 M5 M6 M7 M8 M9 M10]. split; [exact M1|]. destruct M2 as (F1 & F2). split.
    + destruct tk as [|[[k0 i0] z] rest]; [exact I|]. cbn [fst snd] in F1. destruct F1 as (-> & F1). inversion F2 as [|? ? (X & _) F3]; subst. cbn [fst snd] in *. split; [|].
      * destruct D as [(-> & D)|(-> & D)]; [left; split; [reflexivity|congruence]|right; auto].
      * rewrite Forall_forall in *. intros t Ht. split; [apply (F3 t Ht)|]. specialize (F1 t Ht). cbn in F1. congruence.
    + rewrite Forall_forall in *. intros t Ht. apply (F2 t Ht).
Qed.

Theorem kept_items v es s s' : arun v s es = Some s' -> exists l, a_items s' = a_items s ++ l.
Proof.
  revert s. induction es as [|e es IH]; intros s H; cbn [arun] in H; [injection H as <-; exists []; rewrite app_nil_r; reflexivity|].
  destruct (astep v s e) as [s1|] eqn:E; [|discriminate]. destruct (IH s1 H) as (l & El).
  destruct (step_moved v s e s1 E) as [(_ & It)|(i & k & tk & M & _)]; [exists l; congruence|]. destruct M as [M1 M2 M3 M4 M5 M6 M7 M8 M9 (l0 & E0)].
  exists (l0 ++ l). rewrite El, E0, app_assoc. reflexivity.
Qed.

(** ** How a loop() ends *)

Theorem ended v n r es s o e s' : v < 13 -> holds es o -> arun v (ainit n r) es = Some s -> astep v s e = Some s' ->
  a_ended s' = a_ended s \/
  exists i x, (e = ALoop i \/ e = ARun i) /\ a_ended s' = a_ended s ++ [(i, x)] /\
    match x with
    | OReturned => exists k, o = Some k /\ up s k = false
    | OFailed InvalidSession => o = None /\ e = ALoop i
    | OFailed AttributeError => o = None /\ e = ARun i
    | OFailed x => (x = IndexError \/ x = InvalidTag) /\ exists m, last_of (a_taken s') = Some m /\ stray m /\ a_taken s' <> a_taken s
    | _ => exists k, waits_at s i k /\ e = ARun i
    end.
Proof.
  intros Hv Ho H H'. pose proof (cur_holds v n r es o Ho s H) as C. pose proof (run_core v es Hv _ _ (acore_init n r) H) as AC.
  assert (G : forall i k, (e = ALoop i \/ e = ARun i) -> s' = going v i k s -> (e = ALoop i -> a_cur s <> None) -> a_ended s' = a_ended s \/
    exists i x, (e = ALoop i \/ e = ARun i) /\ a_ended s' = a_ended s ++ [(i, x)] /\
    match x with
    | OReturned => exists k, o = Some k /\ up s k = false
    | OFailed InvalidSession => o = None /\ e = ALoop i
    | OFailed AttributeError => o = None /\ e = ARun i
    | OFailed x => (x = IndexError \/ x = InvalidTag) /\ exists m, last_of (a_taken s') = Some m /\ stray m /\ a_taken s' <> a_taken s
    | _ => exists k, waits_at s i k /\ e = ARun i
    end).
  { intros i k Ee -> NN. unfold going in *. destruct (go_core v (S (pending s)) i Hv k s AC) as (_ & xs & Ex & D).
    assert (TK : xs <> [] -> a_taken (go v (S (pending s)) i k s) <> a_taken s).
    { intros NX. destruct (go_moved v (S (pending s)) i k s) as (tk & M). destruct M as [M1 _ _ _ _ _ _ _ _ _]. rewrite M1. intros Z. apply (f_equal (@length _)) in Z. rewrite app_length in Z.
      assert (tk = []) by (destruct tk; [reflexivity|cbn in Z; lia]). subst tk. apply NX. clear - Ex M1. cbn [go] in Ex, M1. destruct (nth_error (a_qs s) k) as [q|].
      2:{ apply (f_equal (@length _)) in Ex. rewrite app_length in Ex. destruct xs; [reflexivity|cbn in Ex; lia]. }
      destruct (c_queue (q_conn q)) as [|m ms]; [cbn in Ex; apply (f_equal (@length _)) in Ex; rewrite app_length in Ex; destruct xs; [reflexivity|cbn in Ex; lia]|]. exfalso.
      destruct (handle v (a_reg s) (a_items s) m) as [[its ts] x]. set (s2 := took k i m its ts (set_q k (try_get i q) s)) in *.
      assert (L2 : length (a_taken s2) = S (length (a_taken s))) by (cbn; rewrite app_length; cbn; lia). rewrite app_nil_r in M1. apply (f_equal (@length _)) in M1.
      destruct x as [y|]; [cbn [leave a_taken] in M1; lia|]. destruct (a_cur s) as [k'|]; [|cbn [leave a_taken] in M1; lia]. destruct (up s k'); [|cbn [leave a_taken] in M1; lia].
      destruct (go_moved v (pending s) i k' s2) as (tk' & M'). destruct M' as [M1' _ _ _ _ _ _ _ _ _]. rewrite M1', app_length in M1. lia. }
    destruct D as [->|[(-> & D)|[(-> & D)|(m & Lm & St & D)]]].
    - left. rewrite Ex, app_nil_r. reflexivity.
    - right. exists i, (OFailed AttributeError). split; [exact Ee|]. split; [exact Ex|]. split; [congruence|]. destruct Ee as [Ee|Ee]; [destruct (NN Ee D)|exact Ee].
    - right. exists i, OReturned. split; [exact Ee|]. split; [exact Ex|]. destruct D as (k' & D1 & D2). exists k'. split; [congruence|exact D2].
    - right. assert (NX : xs <> []) by (destruct D; subst; discriminate). specialize (TK NX).
      destruct D as [-> | ->]; [exists i, (OFailed IndexError)|exists i, (OFailed InvalidTag)]; (split; [exact Ee|]; split; [exact Ex|]; split; [auto|]; exists m; auto). }
  destruct e as [| |i|i|i|k d|k|key c]; cbn [astep] in H'.
  - injection H' as <-. left. reflexivity.
  - destruct (a_cur s); injection H' as <-; left; reflexivity.
  - destruct (nth_error (a_at s) i) as [[x|]|]; try discriminate. injection H' as <-. destruct (a_cur s) as [k|] eqn:Cu.
    + destruct (up s k) eqn:U.
      * apply (G i k); [auto|reflexivity|discriminate].
      * right. exists i, OReturned. split; [auto|]. split; [reflexivity|]. exists k. split; [congruence|exact U].
    + right. exists i, (OFailed InvalidSession). split; [auto|]. split; [reflexivity|]. split; [congruence|reflexivity].
  - destruct (nth_error (a_at s) i) as [[k|]|] eqn:A; try discriminate. destruct (nth_error (a_qs s) k) as [q|] eqn:Q; [|discriminate]. destruct (nth_error (q_readers q) i) as [x|] eqn:Rx; [|discriminate].
    assert (D : x = RWoken \/ x <> RWoken) by (destruct x; auto; right; discriminate). destruct D as [->|D].
    + injection H' as <-. apply (G i k); [auto|reflexivity|discriminate].
    + assert (H2 : match qstep q (Queue.ERun i) with Some q' => Some (leave i OCancelled (set_q k q' s)) | None => None end = Some s') by (destruct x; try exact H'; contradiction).
      clear H' G. destruct (qstep q (Queue.ERun i)) as [q'|] eqn:E; [|discriminate]. injection H2 as <-. right. exists i, OCancelled. split; [auto|]. split; [reflexivity|]. exists k. split; [exact A|reflexivity].
  - destruct (nth_error (a_at s) i) as [[k|]|] eqn:A; try discriminate. destruct (nth_error (a_qs s) k) as [q|] eqn:Q; [|discriminate].
    destruct (qstep q (Queue.ECancel i)) as [q'|] eqn:E; [|discriminate]. injection H' as <-. left. reflexivity.
  - destruct (nth_error (a_qs s) k) as [q|] eqn:Q; [|discriminate]. destruct (qstep q (EPacket d)) as [q'|] eqn:E; [|discriminate]. injection H' as <-. left. reflexivity.
  - destruct (nth_error (a_qs s) k) as [q|] eqn:Q; [|discriminate]. injection H' as <-. left. reflexivity.
  - injection H' as <-. left. reflexivity.
Qed.

(** ** A loop() that waits on a connection which is down *)

Record stuck (i k : nat) (s : again) : Prop := {
  sk_at : waits_at s i k;
  sk_q : exists q, nth_error (a_qs s) k = Some q /\ nth_error (q_readers q) i = Some RWait /\ c_queue (q_conn q) = [] /\ c_open (q_conn q) = false }.

Lemma stuck_go v i k j : j <> i -> forall fuel k' s, stuck i k s -> stuck i k (go v fuel j k' s).
Proof.
  intros N. induction fuel as [|fuel IH]; intros k' s S; [exact S|]. cbn [go]. destruct (nth_error (a_qs s) k') as [q'|] eqn:Q'; [|exact S].
  assert (T : let s1 := set_q k' (try_get j q') s in forall x, stuck i k (set_at j x s1) /\ forall its ts m, stuck i k (took k' j m its ts s1) /\ forall o, stuck i k (leave j o (took k' j m its ts s1))).
  { intros s1 x. destruct S as [A (q & Q & R & E & O)]. assert (Lk : (k' < length (a_qs s))%nat) by (apply nth_error_Some; congruence).
    assert (SQ : exists q0, nth_error (a_qs s1) k = Some q0 /\ nth_error (q_readers q0) i = Some RWait /\ c_queue (q_conn q0) = [] /\ c_open (q_conn q0) = false).
    { destruct (Nat.eq_dec k' k) as [->|Nk].
      - assert (q' = q) by congruence. subst q'. exists (try_get j q). split; [cbn; apply setnth_same, Lk|]. rewrite try_get_open. rewrite (try_get_nil j q E). split; [|split; assumption].
        unfold try_get. rewrite E. cbn. rewrite setnth_other by exact N. exact R.
      - exists q. split; [cbn; rewrite setnth_other by exact Nk; exact Q|auto]. }
    split; [|intros its ts m; split; [|intros o]]; split; try exact SQ; unfold waits_at in *; cbn; rewrite ?setnth_other by exact N; exact A. }
  destruct (c_queue (q_conn q')) as [|m ms]; [apply (T (Some k'))|]. destruct (handle v (a_reg s) (a_items s) m) as [[its ts] x]. destruct (T None) as (_ & T1). destruct (T1 its ts m) as (T2 & T3).
  destruct x; [apply T3|]. destruct (a_cur s); [|apply T3]. destruct (up s n); [|apply T3]. apply IH, T2.
Qed.

Lemma stuck_step v i k s e s' : e <> ACancel i -> stuck i k s -> astep v s e = Some s' ->
  stuck i k s' /\ filter (fun t => Nat.eqb (snd (fst t)) i) (a_taken s') = filter (fun t => Nat.eqb (snd (fst t)) i) (a_taken s) /\
  filter (fun t => Nat.eqb (fst t) i) (a_ended s') = filter (fun t => Nat.eqb (fst t) i) (a_ended s).
Proof.
  intros NC S H. pose proof S as S0. destruct S as [A (q & Q & R & E & O)]. unfold waits_at in A.
  assert (FE : forall j (xs : list (nat * outcome)), j <> i -> filter (fun t => Nat.eqb (fst t) i) (xs ++ [(j, OReturned)]) = filter (fun t => Nat.eqb (fst t) i) xs).
  { intros j xs N. rewrite filter_app. cbn. apply Nat.eqb_neq in N. rewrite N, app_nil_r. reflexivity. }
  assert (FO : forall j x (xs : list (nat * outcome)), j <> i -> filter (fun t => Nat.eqb (fst t) i) (xs ++ [(j, x)]) = filter (fun t => Nat.eqb (fst t) i) xs).
  { intros j x xs N. rewrite filter_app. cbn. apply Nat.eqb_neq in N. rewrite N, app_nil_r. reflexivity. }
  assert (GO : forall fuel j k' s, j <> i -> filter (fun t => Nat.eqb (fst t) i) (a_ended (go v fuel j k' s)) = filter (fun t => Nat.eqb (fst t) i) (a_ended s)).
  { clear - FO. intros fuel. induction fuel as [|fuel IH]; intros j k' s N; cbn [go]; [reflexivity|]. destruct (nth_error (a_qs s) k') as [q'|]; [|reflexivity]. destruct (c_queue (q_conn q')) as [|m ms]; [reflexivity|].
    destruct (handle v (a_reg s) (a_items s) m) as [[its ts] x]. destruct x; [apply FO, N|]. destruct (a_cur s); [|apply FO, N]. destruct (up s n); [|apply FO, N]. rewrite IH by exact N. reflexivity. }
  assert (GT : forall j k', j <> i -> filter (fun t => Nat.eqb (snd (fst t)) i) (a_taken (going v j k' s)) = filter (fun t => Nat.eqb (snd (fst t)) i) (a_taken s)).
  { intros j k' N. unfold going. destruct (go_moved v (Datatypes.S (pending s)) j k' s) as (tk & M). destruct M as [M1 (_ & F) _ _ _ _ _ _ _ _]. rewrite M1, filter_app.
    replace (filter (fun t => Nat.eqb (snd (fst t)) i) tk) with (@nil (nat * nat * (registry * msg))); [rewrite app_nil_r; reflexivity|]. symmetry. clear - F N. induction F as [|t tk (X & _) F IH]; [reflexivity|]. cbn. rewrite X. apply Nat.eqb_neq in N. rewrite N. exact IH. }
  assert (SQ : forall k' q0 q1, nth_error (a_qs s) k' = Some q0 -> (k' = k -> nth_error (q_readers q1) i = Some RWait /\ c_queue (q_conn q1) = [] /\ c_open (q_conn q1) = false) ->
    exists q2, nth_error (setnth k' q1 (a_qs s)) k = Some q2 /\ nth_error (q_readers q2) i = Some RWait /\ c_queue (q_conn q2) = [] /\ c_open (q_conn q2) = false).
  { intros k' q0 q1 Q0 D. destruct (Nat.eq_dec k' k) as [->|N]; [exists q1; split; [apply setnth_same, nth_error_Some; congruence|apply D; reflexivity]|]. exists q. rewrite setnth_other by exact N. auto. }
  destruct e as [| |j|j|j|k' d|k'|key c]; cbn [astep] in H.
  - injection H as <-. split; [|auto]. split; [exact A|]. exists q. cbn. rewrite nth_error_app1 by (apply nth_error_Some; congruence). auto.
  - destruct (a_cur s) as [k'|] eqn:C; injection H as <-; [|auto]. split; [|auto]. split; [exact A|]. cbn. destruct (nth_error (a_qs s) k') as [q'|] eqn:Q'; [|eauto].
    apply (SQ k' q' _ Q'). intros ->. assert (q' = q) by congruence. subst q'. auto.
  - assert (N : j <> i) by (intros ->; rewrite A in H; discriminate). destruct (nth_error (a_at s) j) as [[x|]|]; try discriminate. injection H as <-.
    assert (LV : forall o, stuck i k (leave j o s)) by (intros o; split; [unfold waits_at; cbn; rewrite setnth_other by exact N; exact A|exists q; auto]).
    destruct (a_cur s) as [k'|]; [|split; [apply LV|split; [reflexivity|apply FO, N]]]. destruct (up s k'); [|split; [apply LV|split; [reflexivity|apply FO, N]]].
    split; [apply stuck_go; [exact N|exact S0]|]. split; [apply GT, N|apply GO, N].
  - assert (N : j <> i). { intros ->. rewrite A, Q, R in H. cbn [qstep] in H. rewrite R in H. discriminate. }
    destruct (nth_error (a_at s) j) as [[k'|]|] eqn:Aj; try discriminate. destruct (nth_error (a_qs s) k') as [q'|] eqn:Q'; [|discriminate]. destruct (nth_error (q_readers q') j) as [x|] eqn:Rx; [|discriminate].
    assert (D : x = RWoken \/ x <> RWoken) by (destruct x; auto; right; discriminate). destruct D as [->|D].
    + injection H as <-. split; [apply stuck_go; [exact N|exact S0]|]. split; [apply GT, N|apply GO, N].
    + assert (H2 : match qstep q' (Queue.ERun j) with Some q' => Some (leave j OCancelled (set_q k' q' s)) | None => None end = Some s') by (destruct x; try exact H; contradiction).
      clear H. destruct (qstep q' (Queue.ERun j)) as [q1|] eqn:E1; [|discriminate]. injection H2 as <-. split; [|split; [reflexivity|apply FO, N]].
      split; [unfold waits_at; cbn; rewrite setnth_other by exact N; exact A|]. apply (SQ k' q' q1 Q'). intros ->. assert (q' = q) by congruence. subst q'. cbn [qstep] in E1. rewrite Rx, E in E1.
      destruct x; try discriminate; try congruence; injection E1 as <-; cbn [q_readers q_conn]; (rewrite setnth_other by exact N; auto).
  - assert (N : j <> i) by congruence. destruct (nth_error (a_at s) j) as [[k'|]|] eqn:Aj; try discriminate. destruct (nth_error (a_qs s) k') as [q'|] eqn:Q'; [|discriminate].
    destruct (qstep q' (Queue.ECancel j)) as [q1|] eqn:E1; [|discriminate]. injection H as <-. split; [|auto]. split; [exact A|]. apply (SQ k' q' q1 Q'). intros ->. assert (q' = q) by congruence. subst q'.
    cbn [qstep] in E1. destruct (nth_error (q_readers q) j) as [x|]; [|discriminate]. destruct x; try discriminate; injection E1 as <-; cbn [q_readers q_conn]; (rewrite setnth_other by exact N; auto).
  - destruct (nth_error (a_qs s) k') as [q'|] eqn:Q'; [|discriminate]. destruct (qstep q' (EPacket d)) as [q1|] eqn:E1; [|discriminate]. injection H as <-. split; [|auto]. split; [exact A|].
    apply (SQ k' q' q1 Q'). intros ->. assert (q' = q) by congruence. subst q'. cbn [qstep] in E1. rewrite (deliver_shut _ d O), Nat.sub_diag in E1. cbn [wakeups] in E1. injection E1 as <-. auto.
  - destruct (nth_error (a_qs s) k') as [q'|] eqn:Q'; [|discriminate]. injection H as <-. split; [|auto]. split; [exact A|]. apply (SQ k' q' _ Q'). intros ->. assert (q' = q) by congruence. subst q'. auto.
  - injection H as <-. split; [|auto]. split; [exact A|exists q; auto].
Qed.

Lemma stuck_run v i k more : Forall (fun e => e <> ACancel i) more -> forall s s', stuck i k s -> arun v s more = Some s' ->
  stuck i k s' /\ filter (fun t => Nat.eqb (snd (fst t)) i) (a_taken s') = filter (fun t => Nat.eqb (snd (fst t)) i) (a_taken s) /\
  filter (fun t => Nat.eqb (fst t) i) (a_ended s') = filter (fun t => Nat.eqb (fst t) i) (a_ended s).
Proof.
  induction 1 as [|e more N _ IH]; intros s s' S H; cbn [arun] in H; [injection H as <-; auto|]. destruct (astep v s e) as [s1|] eqn:E; [|discriminate].
  destruct (stuck_step v i k s e s1 N S E) as (S1 & T1 & T2). destruct (IH s1 s' S1 H) as (S2 & T3 & T4). split; [exact S2|]. split; congruence.
Qed.

Lemma calm_stuck v s i k : rinv s -> calm v s -> waits_at s i k -> up s k = false -> stuck i k s.
Proof.
  intros R K W U. split; [exact W|]. pose proof (ri_there _ R i k W) as L. destruct (nth_error (a_qs s) k) as [q|] eqn:Q; [|apply nth_error_None in Q; lia]. exists q. split; [reflexivity|].
  split; [apply (calm_reader v s i k q R K W Q)|]. split; [rewrite <- (unread_at s k q Q); apply (calm_reads v s i k R K W)|rewrite <- (up_at s k q Q); exact U].
Qed.

(** It was waiting, with nothing to read; its connection breaks; it waits for ever. *)
Theorem deaf v n r es s i k e s1 more s' : arun v (ainit n r) es = Some s -> calm v s -> waits_at s i k ->
  (e = ADrop k \/ (e = AClose /\ holds es (Some k))) -> astep v s e = Some s1 ->
  Forall (fun e => e <> ACancel i) more -> arun v s1 more = Some s' ->
  waits_at s' i k /\ astep v s' (ARun i) = None /\
  filter (fun t => Nat.eqb (snd (fst t)) i) (a_taken s') = filter (fun t => Nat.eqb (snd (fst t)) i) (a_taken s) /\
  filter (fun t => Nat.eqb (fst t) i) (a_ended s') = filter (fun t => Nat.eqb (fst t) i) (a_ended s).
Proof.
  intros H K W Ee H1 F H2. pose proof (run_rinv v es _ _ (rinv_init n r) H) as R. pose proof (ri_there _ R i k W) as L.
  destruct (nth_error (a_qs s) k) as [q|] eqn:Q; [|apply nth_error_None in Q; lia].
  pose proof (calm_reader v s i k q R K W Q) as Rw. pose proof (calm_reads v s i k R K W) as U. rewrite (unread_at s k q Q) in U.
  assert (S1 : stuck i k s1 /\ a_taken s1 = a_taken s /\ a_ended s1 = a_ended s).
  { destruct Ee as [->|(-> & Ho)]; cbn [astep] in H1.
    - rewrite Q in H1. injection H1 as <-. split; [|auto]. split; [exact W|]. exists (shut q). cbn. split; [apply setnth_same, L|auto].
    - rewrite (cur_holds v n r es _ Ho s H), Q in H1. injection H1 as <-. split; [|auto]. split; [exact W|]. exists (shut q). cbn. split; [apply setnth_same, L|auto]. }
  destruct S1 as (S1 & T1 & T2). destruct (stuck_run v i k more F s1 s' S1 H2) as ([A (q' & Q' & R' & E' & O')] & T3 & T4). split; [exact A|]. rewrite <- T1, <- T2. split; [|auto].
  cbn [astep]. unfold waits_at in A. rewrite A, Q', R'. cbn [qstep]. rewrite R'. reflexivity.
Qed.

(** ** One that nobody reads *)

Lemma go_at v i fuel k0 : forall k s j k1, k <> k0 -> a_cur s <> Some k0 -> nth_error (a_at (go v fuel i k s)) j = Some (Some k1) ->
  k1 <> k0 \/ nth_error (a_at s) j = Some (Some k1).
Proof.
  assert (L : forall (l : list (option nat)) j x k1, nth_error (setnth i x l) j = Some (Some k1) -> x = Some k1 \/ nth_error l j = Some (Some k1)).
  { intros l j x k1 H. destruct (Nat.eq_dec i j) as [<-|N]; [|right; rewrite setnth_other in H by exact N; exact H].
    assert (B : (i < length l)%nat) by (rewrite <- (setnth_length i x l); apply nth_error_Some; congruence). rewrite setnth_same in H by exact B. left. congruence. }
  induction fuel as [|fuel IH]; intros k s j k1 N C H; cbn [go] in H; [auto|]. destruct (nth_error (a_qs s) k) as [q|]; [|auto].
  destruct (c_queue (q_conn q)) as [|m ms]; [cbn in H; apply L in H as [H|H]; [left; congruence|auto]|].
  destruct (handle v (a_reg s) (a_items s) m) as [[its ts] x].
  destruct x; [cbn in H; apply L in H as [H|H]; [discriminate|auto]|]. destruct (a_cur s) as [k'|] eqn:Cu; [|cbn in H; apply L in H as [H|H]; [discriminate|auto]].
  destruct (up s k'); [|cbn in H; apply L in H as [H|H]; [discriminate|auto]]. apply IH in H; [exact H|congruence|cbn; rewrite Cu; exact C].
Qed.

Theorem abandoned v n r es s k o more s' : arun v (ainit n r) es = Some s -> holds es o -> o <> Some k -> (k < starts es)%nat -> (forall i, ~ waits_at s i k) ->
  arun v s more = Some s' -> from k (a_taken s') = from k (a_taken s) /\ forall i, ~ waits_at s' i k.
Proof.
  intros H Ho No Lk NW H'. rewrite <- (starts_length v n r es s H) in Lk. pose proof (cur_holds v n r es o Ho s H) as C. rewrite <- C in No. clear C Ho H es.
  revert s No Lk NW H'. induction more as [|e more IH]; intros s No Lk NW H'; cbn [arun] in H'; [injection H' as <-; auto|].
  destruct (astep v s e) as [s1|] eqn:E; [|discriminate].
  assert (X : a_cur s1 <> Some k /\ (k < length (a_qs s1))%nat /\ (forall i, ~ waits_at s1 i k) /\ from k (a_taken s1) = from k (a_taken s)).
  { destruct (step_moved v s e s1 E) as [(T & _)|(i & k' & tk & M & Es & D)].
    - rewrite T. clear IH H'. destruct e as [| |i|i|i|k' d|k'|key c]; cbn [astep] in E.
      + injection E as <-. cbn. rewrite app_length. split; [intros Z; assert (length (a_qs s) = k) by congruence; lia|]. split; [lia|]. split; [exact NW|reflexivity].
      + destruct (a_cur s) as [k'|] eqn:C; injection E as <-; cbn; [|rewrite C; auto]. split; [discriminate|]. split; [destruct (nth_error (a_qs s) k'); rewrite ?setnth_length; exact Lk|]. split; [exact NW|reflexivity].
      + destruct (nth_error (a_at s) i) as [[x|]|] eqn:A; try discriminate.
        assert (LV : forall o, (forall j, ~ waits_at (leave i o s) j k)).
        { intros o0 j Z. unfold waits_at in Z. cbn in Z. destruct (Nat.eq_dec i j) as [<-|N]; [rewrite setnth_same in Z by (apply nth_error_Some; congruence); discriminate|]. rewrite setnth_other in Z by exact N. exact (NW j Z). }
        destruct (a_cur s) as [k'|] eqn:C; injection E as <-; [|split; [cbn; congruence|auto]]. destruct (up s k'); [|split; [cbn; congruence|auto]].
        destruct (go_moved v (S (pending s)) i k' s) as (tk & M). destruct M as [M1 M2 M3 M4 M5 M6 M7 M8 M9 M10]. unfold going. split; [rewrite M6; congruence|]. split; [rewrite M5; exact Lk|]. split; [|reflexivity].
        intros j Z. destruct (go_at v i _ k k' s j k ltac:(congruence) ltac:(congruence) Z) as [Y|Y]; [contradiction|exact (NW j Y)].
      + destruct (nth_error (a_at s) i) as [[k'|]|] eqn:A; try discriminate. destruct (nth_error (a_qs s) k') as [q|] eqn:Q; [|discriminate]. destruct (nth_error (q_readers q) i) as [x|] eqn:Rx; [|discriminate].
        assert (Nk : k' <> k) by (intros ->; exact (NW i A)).
        assert (D : x = RWoken \/ x <> RWoken) by (destruct x; auto; right; discriminate). destruct D as [->|D].
        * injection E as <-. destruct (go_moved v (S (pending s)) i k' s) as (tk & M). destruct M as [M1 M2 M3 M4 M5 M6 M7 M8 M9 M10]. unfold going. split; [rewrite M6; exact No|]. split; [rewrite M5; exact Lk|]. split; [|reflexivity].
          intros j Z. destruct (go_at v i _ k k' s j k Nk No Z) as [Y|Y]; [contradiction|exact (NW j Y)].
        * assert (H2 : match qstep q (Queue.ERun i) with Some q' => Some (leave i OCancelled (set_q k' q' s)) | None => None end = Some s1) by (destruct x; try exact E; contradiction).
          clear E. destruct (qstep q (Queue.ERun i)) as [q1|]; [|discriminate]. injection H2 as <-. cbn. rewrite setnth_length. split; [exact No|]. split; [exact Lk|]. split; [|reflexivity].
          intros j Z. unfold waits_at in Z. cbn in Z. destruct (Nat.eq_dec i j) as [<-|N]; [rewrite setnth_same in Z by (apply nth_error_Some; congruence); discriminate|]. rewrite setnth_other in Z by exact N. exact (NW j Z).
      + destruct (nth_error (a_at s) i) as [[k'|]|] eqn:A; try discriminate. destruct (nth_error (a_qs s) k') as [q|] eqn:Q; [|discriminate].
        destruct (qstep q (Queue.ECancel i)) as [q'|]; [|discriminate]. injection E as <-. cbn. rewrite setnth_length. auto.
      + destruct (nth_error (a_qs s) k') as [q|] eqn:Q; [|discriminate]. destruct (qstep q (EPacket d)) as [q'|]; [|discriminate]. injection E as <-. cbn. rewrite setnth_length. auto.
      + destruct (nth_error (a_qs s) k') as [q|] eqn:Q; [|discriminate]. injection E as <-. cbn. rewrite setnth_length. auto.
      + injection E as <-. auto.
    - assert (Nk : k' <> k) by (destruct D as [(_ & D)|(_ & D)]; [congruence|intros ->; exact (NW i D)]).
      assert (A : forall j, ~ waits_at s1 j k) by (intros j Z; rewrite Es in Z; destruct (go_at v i _ k k' s j k Nk No Z) as [Y|Y]; [contradiction|exact (NW j Y)]).
      destruct M as [M1 (F1 & F2) M3 M4 M5 M6 M7 M8 M9 M10]. split; [rewrite M6; exact No|]. split; [rewrite M5; exact Lk|]. split; [exact A|]. rewrite M1, from_app.
      replace (from k tk) with (@nil msg); [apply app_nil_r|]. symmetry. destruct tk as [|t rest]; [reflexivity|]. destruct F1 as (F1 & F3). unfold from. cbn [filter].
      apply Nat.eqb_neq in Nk. rewrite F1, Nk. clear - F3 No. induction F3 as [|t rest X F IH]; [reflexivity|]. cbn [filter]. destruct (Nat.eqb_spec (fst (fst t)) k) as [Y|Y]; [exfalso; apply No; congruence|exact IH]. }
  destruct X as (X1 & X2 & X3 & X4). destruct (IH s1 X1 X2 X3 H') as (Y1 & Y2). split; [congruence|exact Y2].
Qed.

Theorem catches_up v n r es s i k : arun v (ainit n r) es = Some s -> calm v s -> waits_at s i k -> unread s k = [].
Proof. intros H K W. apply (calm_reads v s i k (run_rinv v es _ _ (rinv_init n r) H) K W). Qed.

(** ** The schedule comes to rest: each resumption reads or ends a wait *)

Definition total (s : again) : nat := list_sum (map work (a_qs s)).

Lemma total_set k q' : forall l q, nth_error l k = Some q -> (work q' + list_sum (map work l) = work q + list_sum (map work (setnth k q' l)))%nat.
Proof.
  induction k as [|k IH]; intros [|x l] q E; try discriminate; cbn [nth_error setnth map] in *; rewrite !list_sum_cons.
  - injection E as ->. lia.
  - specialize (IH l q E). lia.
Qed.

Lemma get_idle i q : nth_error (q_readers q) i = Some RIdle -> work (try_get i q) = work q.
Proof.
  intros R. apply (gets_work i 1 q). cbn [repeat qrun qstep]. rewrite R. reflexivity.
Qed.

Lemma go_total v fuel i : forall k s, pre i k s ->
  (total (go v fuel i k s) <= total s)%nat /\
  ((0 < fuel)%nat -> (exists q, nth_error (a_qs s) k = Some q /\ nth_error (q_readers q) i = Some RWoken) -> (total (go v fuel i k s) < total s)%nat).
Proof.
  induction fuel as [|fuel IH]; intros k s P; cbn [go]; [split; [lia|intros; lia]|].
  destruct (nth_error (a_qs s) k) as [q|] eqn:Q; [|split; [lia|intros _ (q & X & _); discriminate]].
  destruct (pr_q _ _ _ P k q Q) as (Iq & _). pose proof (total_set k (try_get i q) (a_qs s) q Q) as T.
  assert (W : (work (try_get i q) <= work q)%nat /\ (nth_error (q_readers q) i = Some RWoken -> (work (try_get i q) < work q)%nat)).
  { destruct (pr_idle _ _ _ P k q Q) as [R|(_ & R)].
    - rewrite (get_idle i q R). split; [lia|]. rewrite R. discriminate.
    - assert (D : (work (try_get i q) < work q)%nat) by (apply (run_decreases q i _ Iq); cbn [qstep]; rewrite R; reflexivity). split; [lia|auto]. }
  destruct W as (W1 & W2).
  assert (A : forall t, (t <= list_sum (map work (setnth k (try_get i q) (a_qs s))))%nat ->
     (t <= total s)%nat /\ ((0 < S fuel)%nat -> (exists q0, Some q = Some q0 /\ nth_error (q_readers q0) i = Some RWoken) -> (t < total s)%nat)).
  { intros t B. unfold total. split; [lia|]. intros _ (q0 & X & Y). assert (q0 = q) by congruence. subst q0. specialize (W2 Y). lia. }
  destruct (c_queue (q_conn q)) as [|m ms] eqn:E; [apply A; unfold total; cbn [set_at set_q a_qs]; lia|]. destruct (handle v (a_reg s) (a_items s) m) as [[its ts] x].
  destruct x; [apply A; unfold total; cbn [leave took set_q a_qs]; lia|]. destruct (a_cur s) as [k'|] eqn:C; [|apply A; unfold total; cbn [leave took set_q a_qs]; lia].
  destruct (up s k') eqn:U; [|apply A; unfold total; cbn [leave took set_q a_qs]; lia]. apply A.
  destruct (IH k' (took k i m its ts (set_q k (try_get i q) s))) as (B & _).
  { apply (pre_next i k s q m ms its ts P Q E). apply (pr_cur _ _ _ P), C. }
  unfold total at 2 in B. cbn [took set_q a_qs] in B. exact B.
Qed.

Lemma run_total v s i s' : rinv s -> astep v s (ARun i) = Some s' -> (total s' < total s)%nat.
Proof.
  intros R H. cbn [astep] in H. destruct (nth_error (a_at s) i) as [[k|]|] eqn:A; try discriminate. destruct (nth_error (a_qs s) k) as [q|] eqn:Q; [|discriminate]. destruct (nth_error (q_readers q) i) as [x|] eqn:Rx; [|discriminate].
  assert (D : x = RWoken \/ x <> RWoken) by (destruct x; auto; right; discriminate). destruct D as [->|D].
  - injection H as <-. apply go_total; [|lia|eauto].
    split; [apply (ri_q _ R)|intros j k0 q0 x _; apply (ri_at _ R)|intros j k0 _; apply (ri_there _ R)|apply (ri_cur _ R)|apply nth_error_Some; congruence|apply nth_error_Some; congruence|].
    intros k' q' Q'. destruct (Nat.eq_dec k' k) as [->|N]; [right; split; [reflexivity|congruence]|left]. destruct (ri_q _ R k' q' Q') as (_ & L).
    assert (i < length (a_at s))%nat by (apply nth_error_Some; congruence). destruct (nth_error (q_readers q') i) as [y|] eqn:Ry; [|apply nth_error_None in Ry; lia].
    destruct (ri_at _ R i k' q' y Q' Ry) as (D & _). destruct y; try reflexivity; (specialize (D ltac:(discriminate)); congruence).
  - assert (H' : match qstep q (Queue.ERun i) with Some q' => Some (leave i OCancelled (set_q k q' s)) | None => None end = Some s') by (destruct x; try exact H; contradiction).
    clear H. destruct (qstep q (Queue.ERun i)) as [q'|] eqn:E; [|discriminate]. injection H' as <-. destruct (ri_q _ R k q Q) as (Iq & _). pose proof (run_decreases q i q' Iq E).
    pose proof (total_set k q' (a_qs s) q Q). unfold total. cbn [leave set_q a_qs]. lia.
Qed.

Theorem rests v n r es s : arun v (ainit n r) es = Some s -> exists b, forall js s', arun v s (map ARun js) = Some s' -> (length js <= b)%nat.
Proof.
  intros H. pose proof (run_rinv v es _ _ (rinv_init n r) H) as R. exists (total s). clear H.
  assert (G : forall js s s', rinv s -> arun v s (map ARun js) = Some s' -> (length js + total s' <= total s)%nat).
  { clear. induction js as [|j js IH]; intros s s' R H; cbn [map arun length] in *; [assert (s' = s) by congruence; subst; lia|].
    destruct (astep v s (ARun j)) as [s1|] eqn:E; [|discriminate]. pose proof (run_total v s j s1 R E). specialize (IH s1 s' (step_rinv v s _ s1 R E) H). lia. }
  intros js s' H. specialize (G js s s' R H). lia.
Qed.

(** ** One loop(): nothing of a later connection is heard *)

Lemma step_at v s e s' : astep v s e = Some s' -> length (a_at s') = length (a_at s).
Proof.
  intros H. destruct (step_moved v s e s' H) as [_|(i & k & tk & M & _)]; [|destruct M; assumption].
  destruct e as [| |i|i|i|k d|k|key c]; cbn [astep] in H.
  - injection H as <-. reflexivity.
  - destruct (a_cur s); injection H as <-; reflexivity.
  - destruct (nth_error (a_at s) i) as [[x|]|]; try discriminate. injection H as <-. destruct (a_cur s) as [k|]; [|apply setnth_length]. destruct (up s k); [|apply setnth_length].
    unfold going. destruct (go_moved v (S (pending s)) i k s) as (tk & M). destruct M; assumption.
  - destruct (nth_error (a_at s) i) as [[k|]|] eqn:A; try discriminate. destruct (nth_error (a_qs s) k) as [q|] eqn:Q; [|discriminate]. destruct (nth_error (q_readers q) i) as [x|] eqn:Rx; [|discriminate].
    assert (D : x = RWoken \/ x <> RWoken) by (destruct x; auto; right; discriminate). destruct D as [->|D].
    + injection H as <-. unfold going. destruct (go_moved v (S (pending s)) i k s) as (tk & M). destruct M; assumption.
    + assert (H' : match qstep q (Queue.ERun i) with Some q' => Some (leave i OCancelled (set_q k q' s)) | None => None end = Some s') by (destruct x; try exact H; contradiction).
      clear H. destruct (qstep q (Queue.ERun i)) as [q'|] eqn:E; [|discriminate]. injection H' as <-. apply setnth_length.
  - destruct (nth_error (a_at s) i) as [[k|]|] eqn:A; try discriminate. destruct (nth_error (a_qs s) k) as [q|] eqn:Q; [|discriminate].
    destruct (qstep q (Queue.ECancel i)) as [q'|] eqn:E; [|discriminate]. injection H as <-. reflexivity.
  - destruct (nth_error (a_qs s) k) as [q|] eqn:Q; [|discriminate]. destruct (qstep q (EPacket d)) as [q'|] eqn:E; [|discriminate]. injection H as <-. reflexivity.
  - destruct (nth_error (a_qs s) k) as [q|] eqn:Q; [|discriminate]. injection H as <-. reflexivity.
  - injection H as <-. reflexivity.
Qed.

Lemma step_qs v s e s' : astep v s e = Some s' -> (length (a_qs s) <= length (a_qs s'))%nat.
Proof.
  intros H. destruct e as [| |i|i|i|k d|k|key c].
  - cbn in H. injection H as <-. cbn. rewrite app_length. lia.
  - cbn in H. destruct (a_cur s) as [k|]; injection H as <-; cbn; [|lia]. destruct (nth_error (a_qs s) k); rewrite ?setnth_length; lia.
  - destruct (step_kept 0 v s (ALoop i) s' I H) as (_ & L & _). lia.
  - destruct (step_kept 0 v s (ARun i) s' I H) as (_ & L & _). lia.
  - destruct (step_kept 0 v s (ACancel i) s' I H) as (_ & L & _). lia.
  - destruct (step_kept (S k) v s (APacket k d) s') as (_ & L & _); [cbn; lia|exact H|]. lia.
  - destruct (step_kept (S k) v s (ADrop k) s') as (_ & L & _); [cbn; lia|exact H|]. lia.
  - destruct (step_kept 0 v s (ARegister key c) s' I H) as (_ & L & _). lia.
Qed.

Definition ranged (s : again) : Prop := Forall (fun t => (fst (fst t) < length (a_qs s))%nat /\ (snd (fst t) < length (a_at s))%nat) (a_taken s).

Lemma step_ranged v s e s' : rinv s -> ranged s -> astep v s e = Some s' -> ranged s'.
Proof.
  intros R G H. unfold ranged in *. rewrite (step_at v s e s' H). pose proof (step_qs v s e s' H) as L.
  assert (G' : Forall (fun t => (fst (fst t) < length (a_qs s'))%nat /\ (snd (fst t) < length (a_at s))%nat) (a_taken s)).
  { eapply Forall_impl; [|exact G]. cbn. intros t (A & B). split; [lia|exact B]. }
  destruct (step_moved v s e s' H) as [(T & _)|(i & k & tk & M & _ & D)]; [rewrite T; exact G'|].
  destruct M as [M1 (F1 & F2) M3 M4 M5 M6 M7 M8 M9 M10]. rewrite M1. apply Forall_app. split; [exact G'|].
  assert (Li : (i < length (a_at s))%nat).
  { destruct D as [(-> & _)|(_ & D)]; [|apply nth_error_Some; unfold waits_at in D; congruence]. cbn [astep] in H. apply nth_error_Some. destruct (nth_error (a_at s) i); [discriminate|congruence]. }
  assert (Lk : (k < length (a_qs s))%nat) by (destruct D as [(_ & D)|(_ & D)]; [apply (ri_cur _ R k D)|apply (ri_there _ R i k D)]).
  rewrite Forall_forall in *. intros t Ht. destruct (F2 t Ht) as (Ti & _). split; [|congruence]. destruct tk as [|t0 rest]; [destruct Ht|]. destruct F1 as (F1 & F3). destruct Ht as [<-|Ht].
  - rewrite F1. lia.
  - rewrite Forall_forall in F3. specialize (F3 t Ht). cbn in F3. symmetry in F3. apply (ri_cur _ R) in F3. lia.
Qed.

Lemma run_ranged v es : forall s s', rinv s -> ranged s -> arun v s es = Some s' -> ranged s' /\ length (a_at s') = length (a_at s).
Proof.
  induction es as [|e es IH]; intros s s' R G H; cbn [arun] in H; [assert (s' = s) by congruence; subst; auto|]. destruct (astep v s e) as [s1|] eqn:E; [|discriminate].
  destruct (IH s1 s' (step_rinv v s e s1 R E) (step_ranged v s e s1 R G E) H) as (A & B). split; [exact A|]. rewrite B. apply (step_at v s e s1 E).
Qed.

Theorem unheard v r es s k e s1 more s' : v < 13 -> arun v (ainit 1 r) es = Some s -> calm v s -> waits_at s 0 k ->
  (e = ADrop k \/ (e = AClose /\ holds es (Some k))) -> astep v s e = Some s1 ->
  Forall (fun e => e <> ACancel 0) more -> arun v s1 more = Some s' ->
  a_taken s' = a_taken s /\ a_started s' = a_started s /\
  forall k2 ms l, (starts es <= k2)%nat -> delivered k2 (es ++ e :: more) ms l -> unread s' k2 = ms.
Proof.
  intros Hv H K W Ee H1 F H2. destruct (deaf v 1 r es s 0 k e s1 more s' H K W Ee H1 F H2) as (_ & _ & T & _).
  pose proof (rinv_init 1 r) as R0. assert (G0 : ranged (ainit 1 r)) by constructor.
  assert (H3 : arun v (ainit 1 r) (es ++ e :: more) = Some s') by (rewrite (arun_app v es _ _ s H); cbn [arun]; rewrite H1; exact H2).
  destruct (run_ranged v es _ _ R0 G0 H) as (G & L). destruct (run_ranged v _ _ _ R0 G0 H3) as (G' & L'). cbn in L, L'.
  assert (X : forall l : list (nat * nat * (registry * msg)), (forall t, In t l -> (snd (fst t) < 1)%nat) -> filter (fun t => Nat.eqb (snd (fst t)) 0) l = l).
  { induction l as [|t l IH]; intros B; [reflexivity|]. cbn. pose proof (B t (or_introl eq_refl)) as B0. destruct (Nat.eqb_spec (snd (fst t)) 0); [|lia]. f_equal. apply IH. intros t' Ht. apply B. right. exact Ht. }
  unfold ranged in G, G'. rewrite L in G. rewrite L' in G'. rewrite Forall_forall in G, G'.
  rewrite !X in T by (intros t Ht; first [apply (G t Ht)|apply (G' t Ht)]). split; [exact T|]. split.
  - assert (ST : forall fuel i k s, length (a_taken (go v fuel i k s)) = length (a_taken s) -> a_started (go v fuel i k s) = a_started s).
    { clear. intros fuel i. destruct fuel as [|fuel]; intros k s E; [reflexivity|]. cbn [go] in *. destruct (nth_error (a_qs s) k) as [q|]; [|reflexivity]. destruct (c_queue (q_conn q)) as [|m ms]; [reflexivity|].
      exfalso. destruct (handle v (a_reg s) (a_items s) m) as [[its ts] x]. set (s2 := took k i m its ts (set_q k (try_get i q) s)) in *.
      assert (L2 : length (a_taken s2) = S (length (a_taken s))) by (cbn; rewrite app_length; cbn; lia).
      destruct x as [y|]; [cbn [leave a_taken] in E; lia|]. destruct (a_cur s) as [k'|]; [|cbn [leave a_taken] in E; lia]. destruct (up s k'); [|cbn [leave a_taken] in E; lia].
      destruct (go_moved v fuel i k' s2) as (tk' & M'). destruct M' as [M1' _ _ _ _ _ _ _ _ _]. rewrite M1', app_length in E. lia. }
    assert (SS : forall s e s', astep v s e = Some s' -> (length (a_taken s) <= length (a_taken s'))%nat /\ (length (a_taken s') = length (a_taken s) -> a_started s' = a_started s)).
    { clear - ST. intros s e s' H. destruct (step_moved v s e s' H) as [(T & _)|(i & k & tk & M & E & _)].
      - split; [rewrite T; lia|]. intros _. destruct e as [| |i|i|i|k d|k|key c]; cbn [astep] in H.
        + injection H as <-. reflexivity.
        + destruct (a_cur s); injection H as <-; reflexivity.
        + destruct (nth_error (a_at s) i) as [[x|]|]; try discriminate. injection H as <-. destruct (a_cur s) as [k|]; [|reflexivity]. destruct (up s k); [|reflexivity]. apply ST. unfold going in T. rewrite T. reflexivity.
        + destruct (nth_error (a_at s) i) as [[k|]|] eqn:A; try discriminate. destruct (nth_error (a_qs s) k) as [q|] eqn:Q; [|discriminate]. destruct (nth_error (q_readers q) i) as [x|] eqn:Rx; [|discriminate].
          assert (D : x = RWoken \/ x <> RWoken) by (destruct x; auto; right; discriminate). destruct D as [->|D]; [injection H as <-; apply ST; unfold going in T; rewrite T; reflexivity|].
          assert (H' : match qstep q (Queue.ERun i) with Some q' => Some (leave i OCancelled (set_q k q' s)) | None => None end = Some s') by (destruct x; try exact H; contradiction).
          clear H. destruct (qstep q (Queue.ERun i)) as [q'|] eqn:E; [|discriminate]. injection H' as <-. reflexivity.
        + destruct (nth_error (a_at s) i) as [[k|]|] eqn:A; try discriminate. destruct (nth_error (a_qs s) k) as [q|] eqn:Q; [|discriminate].
          destruct (qstep q (Queue.ECancel i)) as [q'|] eqn:E; [|discriminate]. injection H as <-. reflexivity.
        + destruct (nth_error (a_qs s) k) as [q|] eqn:Q; [|discriminate]. destruct (qstep q (EPacket d)) as [q'|] eqn:E; [|discriminate]. injection H as <-. reflexivity.
        + destruct (nth_error (a_qs s) k) as [q|] eqn:Q; [|discriminate]. injection H as <-. reflexivity.
        + injection H as <-. reflexivity.
      - split; [destruct M as [M1 _ _ _ _ _ _ _ _ _]; rewrite M1, app_length; lia|]. intros L. subst s'. apply ST, L. }
    assert (RR : forall es s s', arun v s es = Some s' -> (length (a_taken s) <= length (a_taken s'))%nat /\ (length (a_taken s') = length (a_taken s) -> a_started s' = a_started s)).
    { clear - SS. induction es as [|e es IH]; intros s s' H; cbn [arun] in H; [assert (s' = s) by congruence; subst; auto|]. destruct (astep v s e) as [s1|] eqn:E; [|discriminate].
      destruct (SS s e s1 E) as (A & B). destruct (IH s1 s' H) as (A' & B'). split; [lia|]. intros L. rewrite B' by lia. apply B. lia. }
    destruct (RR (e :: more) s s') as (_ & B); [cbn [arun]; rewrite H1; exact H2|]. apply B. rewrite T. reflexivity.
  - intros k2 ms l Lk D. destruct (conserved v 1 r k2 _ ms l D s' H3) as (E & _). rewrite E, T. replace (from k2 (a_taken s)) with (@nil msg); [reflexivity|]. symmetry. unfold from.
    rewrite <- (starts_length v 1 r es s H) in Lk. clear - G Lk. induction (a_taken s) as [|t tk IH]; [reflexivity|]. cbn [filter]. pose proof (G t (or_introl eq_refl)) as (G0 & _).
    destruct (Nat.eqb_spec (fst (fst t)) k2); [lia|]. apply IH. intros t' Ht. apply G. right. exact Ht.
Qed.

Theorem ended_by v n r es s o e s' : v < 13 -> holds es o -> arun v (ainit n r) es = Some s -> astep v s e = Some s' ->
  a_ended s' = a_ended s \/
  exists i x, (e = ALoop i \/ e = ARun i) /\ a_ended s' = a_ended s ++ [(i, x)] /\
    match x with
    | OReturned => exists k, o = Some k /\ up s k = false
    | OFailed InvalidSession => o = None /\ e = ALoop i
    | OFailed AttributeError => o = None /\ e = ARun i
    | OFailed x => (x = IndexError \/ x = InvalidTag) /\ exists tk t, a_taken s' = a_taken s ++ tk ++ [t] /\ stray (snd (snd t))
    | _ => exists k, waits_at s i k /\ e = ARun i
    end.
Proof.
  intros Hv Ho H H'. destruct (ended v n r es s o e s' Hv Ho H H') as [E|(i & x & Ee & Ex & D)]; [left; exact E|]. right. exists i, x. split; [exact Ee|]. split; [exact Ex|].
  assert (G : forall P, (P /\ exists m, last_of (a_taken s') = Some m /\ stray m /\ a_taken s' <> a_taken s) -> P /\ exists tk t, a_taken s' = a_taken s ++ tk ++ [t] /\ stray (snd (snd t))).
  { intros P (p & m & Lm & St & N). split; [exact p|]. destruct (current v n r es s o e s' Ho H H') as (tk & T & _). rewrite T in *.
    destruct tk as [|t0 tk0 _] using rev_ind; [rewrite app_nil_r in N; contradiction|]. exists tk0, t0. split; [reflexivity|]. rewrite app_assoc, last_of_snoc in Lm. injection Lm as ->. exact St. }
  destruct x as [|y| |]; try exact D. destruct y; try exact D; apply G, D.
Qed.
