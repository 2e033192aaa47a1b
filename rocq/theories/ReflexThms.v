(** * Callbacks that send commands: proofs *)
From Coq Require Import String List NArith ZArith Bool Lia PeanoNat.
From Verif Require Import PyStr Tags Messages SpecMsg SpecTag SpecProto MessageThms3 Protocol IO Client SpecItem Items Lighting SpecLight ItemThms LightThms2
  SpecHouse HouseThms HouseThms2 Dispatch SpecDispatch DispatchThms DispatchThms2 DispatchThms3 SpecNotice NoticeThms SpecMirror MirrorThms Reflex SpecReflex.
Import ListNotations.
Open Scope nat_scope.
Open Scope list_scope.

(** ** The event client at any moment *)

Lemma noticed_all r its evs tss ps : Forall spoken ps -> map snd evs = map state_msg ps -> Forall (fun ev : registry * msg => fst ev = r) evs ->
  Forall2 (fun ev ts => made its (fst ev) (snd ev) ts) evs tss -> Forall2 (noticed its r) (map frame_state ps) tss.
Proof.
  intros F E Fr M. revert ps F E. induction M as [|ev ts evs tss Me M IH]; intros ps F E; destruct ps as [|p ps]; try discriminate; [constructor|].
  injection E as E1 E. inversion F; subst. inversion Fr; subst. cbn. constructor; [|apply IH; assumption].
  apply announced; [assumption|]. rewrite <- E1. assumption.
Qed.

Theorem listening v r acts ps : (v < 13)%N -> Forall spoken ps -> delivers acts (map frame_state ps) ->
  exists ps1 ps2 tss, let st := listener v r acts in ps = ps1 ++ ps2 /\
    st_started st = concat tss /\ st_queue st = map state_msg ps2 /\ Forall2 (noticed (st_items st) r) (map frame_state ps1) tss.
Proof.
  intros Hv F D.
  destruct (delivered r _ _ D ps) as (evs & q & O & E & Fr); [eapply Forall_impl; [|exact F]; intros p H; apply H|reflexivity|].
  symmetry in E. apply map_eq_app in E as (ps1 & ps2 & -> & E1 & E2). apply Forall_app in F as (F1 & F2).
  assert (NS : Forall (fun ev => ~ stray (snd ev)) evs).
  { apply (proj1 (Forall_map (@snd registry msg) (fun m => ~ stray m) evs)). rewrite <- E1. apply Forall_map. eapply Forall_impl; [|exact F1]. apply spoken_not_stray. }
  destruct (observed_run v r _ evs q Hv O NS) as (_ & its & tss & Er & _ & M).
  exists ps1, ps2, tss. unfold listener. rewrite Er. cbn. repeat (split; [auto; fail|]). 
  eapply noticed_all; eauto.
Qed.

Definition registers (a : act) : bool := match a with Register _ _ => true | _ => false end.

(** The client only gets more items and tasks. *)
Lemma handle_more v r its m its' ts x : handle v r its m = (its', ts, x) -> exists l, its' = its ++ l.
Proof.
  unfold handle. intros H.
  assert (Z : exists l, its = its ++ l) by (exists []; symmetry; apply app_nil_r).
  assert (G : forall w whr, exists l, fst (Dispatch.get_item its w whr) = its ++ l).
  { intros w whr. unfold Dispatch.get_item. destruct (position _ _); [exact Z|]. destruct (item_types w); [|exact Z].
    destruct (construct _ _); [eexists; reflexivity|exact Z]. }
  destruct (msg_type m); try (assert (its' = its) by congruence; subst; exact Z);
  destruct (msg_who m) as [w|]; try (assert (its' = its) by congruence; subst; exact Z);
  destruct (msg_where m) as [whr|]; try (assert (its' = its) by congruence; subst; exact Z);
  specialize (G w whr); destruct (Dispatch.get_item its w whr) as [i y]; cbn in G;
  (destruct y as [n|e]; [|destruct e]; (assert (its' = i) by congruence; subst; exact G)).
Qed.

Lemma drain_more v r t q : forall its ts q' its' ts' l, drain v r t q its ts = (q', its', ts', l) ->
  (exists x, its' = its ++ x) /\ (exists y, ts' = ts ++ y).
Proof.
  induction q as [|m q IH]; intros its ts q' its' ts' l H; cbn [drain] in H.
  - assert (its' = its /\ ts' = ts) as (-> & ->) by (split; congruence). split; exists []; symmetry; apply app_nil_r.
  - destruct (handle v r its m) as [[i1 t1] x] eqn:Hd. destruct (handle_more _ _ _ _ _ _ _ Hd) as (a & ->).
    assert (B : its' = its ++ a /\ ts' = ts ++ t1 -> (exists x, its' = its ++ x) /\ (exists y, ts' = ts ++ y)) by (intros (-> & ->); eauto).
    destruct x as [e|]; [apply B; split; congruence|].
    destruct t as [[|]|]; try (apply B; split; congruence).
    destruct (IH _ _ _ _ _ _ H) as ((x & ->) & (y & ->)). split; [exists (a ++ x)|exists (t1 ++ y)]; symmetry; rewrite app_assoc; reflexivity.
Qed.

Lemma listener_more v r acts a : (exists x, st_items (listener v r (acts ++ [a])) = st_items (listener v r acts) ++ x) /\
  (exists y, st_started (listener v r (acts ++ [a])) = st_started (listener v r acts) ++ y).
Proof.
  unfold listener. rewrite run_snoc. generalize (run v (enter v (connected r)) acts). intros s.
  assert (Z : forall A (l : list A), exists x, l = l ++ x) by (intros A l; exists []; symmetry; apply app_nil_r).
  assert (Zs : forall s', st_items s' = st_items s -> st_started s' = st_started s ->
    (exists x, st_items s' = st_items s ++ x) /\ (exists y, st_started s' = st_started s ++ y)) by (intros s' -> ->; split; apply Z).
  destruct a; cbn [Dispatch.step].
  - destruct (st_trans s) as [[|]|]; try (apply Zs; reflexivity). destruct (data_received (st_queue s) data) as [q [e|]]; apply Zs; reflexivity.
  - destruct (st_trans s); apply Zs; reflexivity.
  - apply Zs; reflexivity.
  - apply Zs; reflexivity.
  - cbn. split; [|apply Z]. unfold Dispatch.get_item. destruct (position _ _); [apply Z|]. destruct (item_types w); [|apply Z].
    destruct (construct _ _); cbn; [eauto|apply Z].
  - destruct (st_loop s); try (apply Zs; reflexivity). destruct (st_queue s) eqn:Eq; [apply Zs; reflexivity|]. unfold drained.
    destruct (drain _ _ _ _ _ _) as [[[q' i'] t'] l'] eqn:D. cbn. eapply drain_more, D.
Qed.

(** ** Calls in order *)

Definition begins (js : list job) : list nat := concat (map (fun j => match j with Begin n => [n] | _ => [] end) js).
Definition wokens (js : list job) : list nat := concat (map (fun j => match j with Woken n => [n] | _ => [] end) js).
Definition resumes (js : list job) : list nat := concat (map (fun j => match j with Resume n => [n] | _ => [] end) js).
Lemma begins_app a b : begins (a ++ b) = begins a ++ begins b. Proof. unfold begins. rewrite map_app. apply concat_app. Qed.
Lemma wokens_app a b : wokens (a ++ b) = wokens a ++ wokens b. Proof. unfold wokens. rewrite map_app. apply concat_app. Qed.
Lemma resumes_app a b : resumes (a ++ b) = resumes a ++ resumes b. Proof. unfold resumes. rewrite map_app. apply concat_app. Qed.
Lemma begins_map l : begins (map Begin l) = l. Proof. induction l; cbn; [reflexivity|]. f_equal. exact IHl. Qed.
Lemma wokens_map l : wokens (map Begin l) = []. Proof. induction l; [reflexivity|exact IHl]. Qed.
Lemma resumes_map l : resumes (map Begin l) = []. Proof. induction l; [reflexivity|exact IHl]. Qed.
Lemma callbacks_app a b : of_callbacks (a ++ b) = of_callbacks a ++ of_callbacks b. Proof. unfold of_callbacks. rewrite map_app. apply concat_app. Qed.
Lemma others_app a b : of_others (a ++ b) = of_others a ++ of_others b. Proof. unfold of_others. rewrite map_app. apply concat_app. Qed.
Lemma pressed_app a b : pressed (a ++ b) = pressed a ++ pressed b. Proof. unfold pressed. rewrite map_app. apply concat_app. Qed.

Definition queue_up (todo : nat -> list SpecHouse.call) (S0 : nat) (w : world) : Prop :=
  exists k, seq 0 S0 = seq 0 k ++ w_waiters w ++ begins (w_ready w) /\
    match w_inside w with
    | Nobody => w_locked w = false /\ wokens (w_ready w) = firstn 1 (w_waiters w) /\ resumes (w_ready w) = [] /\
        of_callbacks (w_by w) = concat (map todo (seq 0 k))
    | Calling n cs => w_locked w = true /\ wokens (w_ready w) = [] /\ resumes (w_ready w) = [] /\ k = S n /\
        of_callbacks (w_by w) ++ cs = concat (map todo (seq 0 k))
    | Finishing n => w_locked w = true /\ wokens (w_ready w) = [] /\ resumes (w_ready w) = [n] /\ k = S n /\
        of_callbacks (w_by w) = concat (map todo (seq 0 k))
    end.

Lemma seq_next n : forall k x l, seq 0 n = seq 0 k ++ x :: l -> x = k.
Proof.
  assert (G : forall n a k x l, seq a n = seq a k ++ x :: l -> x = a + k).
  { clear n. induction n as [|n IH]; intros a k x l H; [destruct k; discriminate|]. destruct k as [|k]; cbn in H.
    - injection H as <- _. lia.
    - injection H as H. apply IH in H. lia. }
  intros k x l H. apply G in H. lia.
Qed.
Lemma seq_snoc k : seq 0 (S k) = seq 0 k ++ [k].
Proof. exact (seq_S k 0). Qed.
Lemma seq_nodup n k ws bs x : seq 0 n = seq 0 k ++ (x :: ws) ++ bs -> ~ In x ws.
Proof.
  intros E I. pose proof (seq_NoDup n 0) as D. rewrite E in D. apply NoDup_remove_2 with (l := seq 0 k) (l' := ws ++ bs) in D.
  apply D. apply in_or_app. right. apply in_or_app. left. exact I.
Qed.
Lemma remove_first x (l : list nat) : ~ In x l -> remove Nat.eq_dec x (x :: l) = l.
Proof. intros N. cbn. destruct (Nat.eq_dec x x); [|congruence]. apply notin_remove, N. Qed.

Lemma run_job_queue v r body w j js n0 : w_ready w = j :: js ->
  queue_up (answers_of v r body (w_acts w)) n0 w -> queue_up (answers_of v r body (w_acts w)) n0 (run_job v r body w j js).
Proof.
  intros E (k & Q & I). set (todo := answers_of v r body (w_acts w)) in *.
  assert (Cn : forall m, concat (map todo (seq 0 (S m))) = concat (map todo (seq 0 m)) ++ todo m).
  { intros m. rewrite seq_snoc, map_app, concat_app. cbn. rewrite app_nil_r. reflexivity. }
  rewrite E in *. destruct j as [n|n|n]; cbn [run_job].
  - cbn [begins map concat app] in Q. fold (begins js) in Q.
    change (wokens (Begin n :: js)) with (wokens js) in I. change (resumes (Begin n :: js)) with (resumes js) in I.
    destruct (negb (w_locked w) && _) eqn:B.
    + apply andb_true_iff in B as (B1 & B2). apply negb_true_iff in B1. destruct (w_waiters w) as [|x l] eqn:Ew; [|discriminate].
      destruct (w_inside w) as [|m cs|m]; try (destruct I as (X & _); congruence). destruct I as (_ & Wk & Rs & C).
      cbn [app] in Q. assert (n = k) by (eapply seq_next, Q). subst n.
      exists (S k). cbn [with_lock w_waiters w_ready w_inside w_locked w_by]. split.
      { rewrite seq_snoc, <- app_assoc. cbn. exact Q. }
      repeat (split; [assumption || reflexivity|]). rewrite Cn, <- C. reflexivity.
    + exists k. cbn [with_lock w_waiters w_ready w_inside w_locked w_by]. split; [rewrite <- app_assoc; exact Q|].
      destruct (w_inside w) as [|m cs|m]; [|exact I|exact I]. destruct I as (L & Wk & Rs & C). rewrite L in *. cbn in B.
      destruct (w_waiters w) as [|x l]; [discriminate|]. repeat (split; [assumption || reflexivity|]). exact C.
  - change (begins (Woken n :: js)) with (begins js) in Q.
    change (wokens (Woken n :: js)) with (n :: wokens js) in I. change (resumes (Woken n :: js)) with (resumes js) in I.
    destruct (w_inside w) as [|m cs|m]; try (destruct I as (_ & X & _); discriminate X). destruct I as (L & Wk & Rs & C).
    destruct (w_waiters w) as [|x l] eqn:Ew; [discriminate|]. cbn in Wk. injection Wk as <- Wk.
    assert (n = k) by (eapply seq_next, Q). subst n.
    exists (S k). cbn [with_lock w_waiters w_ready w_inside w_locked w_by]. rewrite remove_first by (eapply seq_nodup, Q). split.
    { rewrite seq_snoc, <- app_assoc. cbn. exact Q. }
    repeat (split; [assumption || reflexivity|]). rewrite Cn, <- C. reflexivity.
  - change (begins (Resume n :: js)) with (begins js) in Q.
    change (wokens (Resume n :: js)) with (wokens js) in I. change (resumes (Resume n :: js)) with (n :: resumes js) in I.
    destruct (w_inside w) as [|m cs|m]; try (destruct I as (_ & _ & X & _); discriminate X). destruct I as (L & Wk & Rs & K & C).
    injection Rs as <- Rs.
    exists k. cbn [with_lock w_waiters w_ready w_inside w_locked w_by]. split.
    { rewrite begins_app. destruct (w_waiters w); cbn; rewrite !app_nil_r; exact Q. }
    rewrite wokens_app, resumes_app, Wk, Rs. destruct (w_waiters w); repeat split; exact C.
Qed.

Lemma seq_bound n k l x : seq 0 n = seq 0 k ++ l -> x < k -> x < n.
Proof. intros E L. apply (f_equal (@length nat)) in E. rewrite app_length, !seq_length in E. lia. Qed.

(** Tasks made later do not change what the earlier ones do. *)
Lemma queue_up_ext todo todo' n w : (forall x, x < n -> todo' x = todo x) -> queue_up todo n w -> queue_up todo' n w.
Proof.
  intros T (k & Q & I). exists k. split; [exact Q|].
  assert (C : concat (map todo' (seq 0 k)) = concat (map todo (seq 0 k))).
  { f_equal. apply map_ext_in. intros x J. apply T. apply in_seq in J. eapply seq_bound; [exact Q|lia]. }
  rewrite C. exact I.
Qed.

Lemma answers_stay v r body acts a n : (forall t i args f, In t (st_started (listener v r acts)) -> t = (f, VItem i :: args) -> i < length (st_items (listener v r acts))) ->
  n < length (st_started (listener v r acts)) -> answers_of v r body (acts ++ [a]) n = answers_of v r body acts n.
Proof.
  intros B L. unfold answers_of. destruct (listener_more v r acts a) as ((x & Ex) & (y & Ey)). rewrite Ex, Ey.
  rewrite nth_error_app1 by exact L. destruct (nth_error (st_started (listener v r acts)) n) as [t|] eqn:E; [|reflexivity].
  apply nth_error_In in E. destruct t as (f & [|[] args]); try reflexivity. cbn [answer].
  rewrite nth_error_app1; [reflexivity|]. eapply B; [exact E|reflexivity].
Qed.

Lemma calls_in args fs ts : calls args fs ts -> forall t, In t ts -> snd t = args.
Proof. induction 1; intros t I; [destruct I| |destruct I]. destruct I as [<-|I]; [reflexivity|auto]. Qed.
Lemma noticed_bound its r fs tss : Forall2 (noticed its r) fs tss -> forall t i args f, In t (concat tss) -> t = (f, VItem i :: args) -> i < length its.
Proof.
  induction 1 as [|x ts fs tss N F IH]; intros t i args f I E; [destruct I|]. cbn in I. apply in_app_or in I as [I|I]; [|eapply IH; eassumption].
  destruct N as (p & j & k & as_ & _ & _ & Nj & _ & C). pose proof (calls_in _ _ _ C _ I) as X. subst t. cbn in X. injection X as -> _.
  apply nth_error_Some. congruence.
Qed.

Lemma story_snoc gw h cs log evs h1 c h2 obs res es : story gw h cs log evs h1 -> does gw h1 c h2 obs res es ->
  story gw h (cs ++ [c]) (log ++ [(obs, res)]) (evs ++ es) h2.
Proof.
  induction 1 as [h|h c0 cs h1 o r e log e' h' D S IH]; intros D2.
  - cbn. rewrite <- (app_nil_r es). econstructor; [exact D2|constructor].
  - cbn. rewrite <- app_assoc. econstructor; [exact D|apply IH, D2].
Qed.

(** What holds at any moment. *)
Definition sound_world (gw : gateway) (v : N) (r : registry) (body : reflex) (h : house) (ls : list label) (w : world) : Prop :=
  (exists log, story gw h (map snd (w_by w)) log (w_evs w) (w_house w)) /\
  (exists fs, w_evs w = fs ++ w_wire w /\ delivers (w_acts w) fs) /\
  of_others (w_by w) = pressed ls /\
  queue_up (answers_of v r body (w_acts w)) (length (st_started (listener v r (w_acts w)))) w.

Lemma sound_listening gw v r body h ls w : gateway_ok gw -> house_ok h -> (v < 13)%N -> sound_world gw v r body h ls w ->
  exists ps1 ps2 ps3 tss, let st := listener v r (w_acts w) in
    w_evs w = map frame_state (ps1 ++ ps2) ++ w_wire w /\ w_wire w = map frame_state ps3 /\ Forall spoken (ps1 ++ ps2 ++ ps3) /\
    st_started st = concat tss /\ st_queue st = map state_msg ps2 /\ Forall2 (noticed (st_items st) r) (map frame_state ps1) tss.
Proof.
  intros G H Hv ((log & S) & (fs & E & D) & _). destruct (story_events _ _ _ _ _ _ S G H) as (ps & F & Ep).
  rewrite E in Ep. symmetry in Ep. apply map_eq_app in Ep as (pa & pb & -> & E1 & E2). subst fs.
  apply Forall_app in F as (Fa & Fb). destruct (listening v r _ pa Hv Fa D) as (ps1 & ps2 & tss & -> & A & B & C).
  exists ps1, ps2, pb, tss. cbv zeta. split; [exact E|]. split; [symmetry; exact E2|].
  split; [apply Forall_app in Fa as (F1 & F2); apply Forall_app; split; [exact F1|apply Forall_app; split; assumption]|]. auto.
Qed.

Lemma started_bound gw v r body h ls w : gateway_ok gw -> house_ok h -> (v < 13)%N -> sound_world gw v r body h ls w ->
  forall t i args f, In t (st_started (listener v r (w_acts w))) -> t = (f, VItem i :: args) -> i < length (st_items (listener v r (w_acts w))).
Proof.
  intros G H Hv S. destruct (sound_listening _ _ _ _ _ _ _ G H Hv S) as (p1 & p2 & p3 & tss & _ & _ & _ & E & _ & F). cbv zeta in *.
  rewrite E. exact (noticed_bound _ _ _ _ F).
Qed.

(** The event client takes a step. *)
Lemma act_queue gw v r body h ls w a wire : gateway_ok gw -> house_ok h -> (v < 13)%N -> sound_world gw v r body h ls w ->
  queue_up (answers_of v r body (w_acts w ++ [a])) (length (st_started (listener v r (w_acts w ++ [a]))))
    (with_acts w wire (w_acts w ++ [a]) (w_ready w ++ made_now v r (w_acts w) a)).
Proof.
  intros G H Hv S. pose proof (started_bound _ _ _ _ _ _ _ G H Hv S) as B. destruct S as (_ & _ & _ & Q).
  apply (queue_up_ext (answers_of v r body (w_acts w)) (answers_of v r body (w_acts w ++ [a]))) in Q;
    [|intros x L; apply answers_stay; assumption].
  destruct (listener_more v r (w_acts w) a) as (_ & (y & Ey)).
  destruct Q as (k & Q & I). exists k. cbn [with_acts w_waiters w_ready w_inside w_locked w_by].
  unfold made_now. set (n := length (st_started (listener v r (w_acts w)))) in *.
  assert (L : length (st_started (listener v r (w_acts w ++ [a]))) = n + (length (st_started (listener v r (w_acts w ++ [a]))) - n)).
  { rewrite Ey, app_length. fold n. lia. }
  split.
  - rewrite L at 1. rewrite seq_app, Q, begins_app, begins_map. rewrite <- !app_assoc. reflexivity.
  - rewrite wokens_app, resumes_app, wokens_map, resumes_map, !app_nil_r. exact I.
Qed.

Lemma made_packet v r acts data : made_now v r acts (Packet data) = [].
Proof.
  unfold made_now, listener. rewrite run_snoc. set (s := run v (enter v (connected r)) acts). cbn [Dispatch.step].
  assert (E : st_started (match st_trans s with
    | Some false => match data_received (st_queue s) data with (q, None) => with_conn s (Some false) q | (q, Some _) => with_conn s (Some true) q end
    | _ => s end) = st_started s).
  { destruct (st_trans s) as [[|]|]; try reflexivity. destruct (data_received _ _) as [q [e|]]; reflexivity. }
  rewrite E, Nat.sub_diag. reflexivity.
Qed.
Lemma made_lookup v r acts k whr : made_now v r acts (Lookup k whr) = [].
Proof. unfold made_now, listener. rewrite run_snoc. cbn [Dispatch.step st_started]. rewrite Nat.sub_diag. reflexivity. Qed.

Lemma sound_step gw v r body h ls w l w' : gateway_ok gw -> house_ok h -> (v < 13)%N -> sound_world gw v r body h ls w ->
  wstep gw v r body w l w' -> sound_world gw v r body h (ls ++ [l]) w'.
Proof.
  intros G H Hv Sw St. pose proof (fun a wire => act_queue gw v r body h ls w a wire G H Hv Sw) as Aq.
  destruct Sw as ((log & S) & (fs & E & D) & O & Q).
  assert (P0 : forall x, match x with Pressed _ => False | _ => True end -> pressed (ls ++ [x]) = pressed ls).
  { intros x. rewrite pressed_app. destruct x; [intros []| |]; cbn; rewrite app_nil_r; reflexivity. }
  destruct St as [c h' obs res evs Do|f fs' rest Ew|k whr T|m q Eq|Eq|j js Er|n c cs h' obs res evs Ei Do|n Ei].
  - split; [|split; [|split]].
    + eexists. cbn [with_call w_by w_evs w_house]. rewrite map_app. eapply story_snoc; eassumption.
    + exists fs. cbn [with_call w_evs w_wire w_acts]. rewrite E, app_assoc. auto.
    + cbn [with_call w_by]. rewrite others_app, pressed_app, O. reflexivity.
    + destruct Q as (k & Q & I). exists k. cbn [with_call w_waiters w_ready w_inside w_locked w_by w_acts]. split; [exact Q|].
      rewrite callbacks_app. cbn [of_callbacks map concat fst app]. rewrite app_nil_r. exact I.
  - split; [eexists; exact S|]. split; [|split].
    + exists (fs ++ (f :: fs')). cbn [with_acts w_evs w_wire w_acts]. rewrite E, Ew, app_assoc. split; [reflexivity|apply Dl_packet, D].
    + rewrite P0 by exact I. exact O.
    + cbn [with_acts w_acts]. specialize (Aq (Packet (concat (f :: fs'))) rest). rewrite made_packet, app_nil_r in Aq. exact Aq.
  - split; [eexists; exact S|]. split; [|split].
    + exists fs. cbn [with_acts w_evs w_wire w_acts]. split; [exact E|apply Dl_lookup; assumption].
    + rewrite P0 by exact I. exact O.
    + cbn [with_acts w_acts]. specialize (Aq (Lookup k whr) (w_wire w)). rewrite made_lookup, app_nil_r in Aq. exact Aq.
  - split; [eexists; exact S|]. split; [|split].
    + exists fs. cbn [with_acts w_evs w_wire w_acts]. split; [exact E|apply Dl_wake; assumption].
    + rewrite P0 by exact I. exact O.
    + cbn [with_acts w_acts]. apply Aq.
  - split; [eexists; exact S|]. split; [|split].
    + exists fs. cbn [with_acts w_evs w_wire w_acts]. split; [exact E|apply Dl_wake; assumption].
    + rewrite P0 by exact I. exact O.
    + cbn [with_acts w_acts]. apply Aq.
  - assert (X : w_by (run_job v r body w j js) = w_by w /\ w_evs (run_job v r body w j js) = w_evs w /\ w_house (run_job v r body w j js) = w_house w /\
      w_wire (run_job v r body w j js) = w_wire w /\ w_acts (run_job v r body w j js) = w_acts w).
    { destruct j; cbn [run_job]; [destruct (_ && _)| |]; repeat split. }
    destruct X as (X1 & X2 & X3 & X4 & X5). split; [eexists; rewrite X1, X2, X3; exact S|]. rewrite X1, X2, X4, X5.
    split; [exists fs; auto|]. split; [rewrite P0 by exact I; exact O|]. apply run_job_queue; assumption.
  - split; [|split; [|split]].
    + eexists. cbn [with_call w_by w_evs w_house]. rewrite map_app. eapply story_snoc; eassumption.
    + exists fs. cbn [with_call w_evs w_wire w_acts]. rewrite E, app_assoc. auto.
    + cbn [with_call w_by]. rewrite others_app, O, P0 by exact I. cbn. apply app_nil_r.
    + destruct Q as (k & Q & I). rewrite Ei in I. exists k. cbn [with_call w_waiters w_ready w_inside w_locked w_by w_acts]. split; [exact Q|].
      rewrite callbacks_app. cbn [of_callbacks map concat fst snd app]. rewrite <- app_assoc. exact I.
  - split; [eexists; exact S|]. split; [exists fs; auto|]. split; [rewrite P0 by exact I; exact O|].
    destruct Q as (k & Q & I). rewrite Ei in I. destruct I as (L & Wk & Rs & K & C). exists k. cbn [with_lock w_waiters w_ready w_inside w_locked w_by w_acts].
    split; [rewrite begins_app; cbn; rewrite app_nil_r; exact Q|]. rewrite wokens_app, resumes_app, Wk, Rs. rewrite app_nil_r in C. auto.
Qed.

Theorem sound_runs gw v r body h ls w : gateway_ok gw -> house_ok h -> (v < 13)%N -> wruns gw v r body (quiet_house h) ls w -> sound_world gw v r body h ls w.
Proof.
  intros G H Hv. induction 1 as [|ls l w1 w2 R IH S]; [|eapply sound_step; eassumption].
  split; [exists []; constructor|]. split; [exists []; split; [reflexivity|constructor]|]. split; [reflexivity|].
  exists 0. repeat split.
Qed.
