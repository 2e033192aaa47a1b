(** * Proofs about collected tasks *)
From Coq Require Import String List NArith ZArith Bool Lia.
From Verif Require Import PyStr Tags Messages Protocol Queue QueueThms IO Client Items Dispatch Tasks SpecTasks TasksThms Errors Log Handler Collect.
Import ListNotations.
Open Scope N_scope.
Open Scope list_scope.

(** ** What one step does to the groups *)

Lemma event_old v w r it m g : (g < length (w_groups w))%nat -> nth_error (w_groups (tstep v w (Event r it m))) g = nth_error (w_groups w) g.
Proof. intros L. cbn [tstep w_groups]. apply nth_error_app1, L. Qed.

Lemma some_lt {A} (l : list A) g x : nth_error l g = Some x -> (g < length l)%nat.
Proof. intros H. apply nth_error_Some. congruence. Qed.

Lemma finish_groups v w g i o gr : nth_error (w_groups w) g = Some gr ->
  (forall g', g' <> g -> nth_error (w_groups (tstep v w (Finish g i o))) g' = nth_error (w_groups w) g') /\
  nth_error (w_groups (tstep v w (Finish g i o))) g = Some {| g_tasks := finish_task i o (g_tasks gr); g_watch := g_watch gr |}.
Proof.
  intros G. cbn [tstep]. rewrite G. cbn [w_groups]. split.
  - intros g' N. apply setnth_other. congruence.
  - apply setnth_same. apply (some_lt _ _ _ G).
Qed.

Lemma finish_one i o l t : nth_error l i = Some (t, None) ->
  nth_error (finish_task i o l) i = Some (t, Some o) /\ forall j, j <> i -> nth_error (finish_task i o l) j = nth_error l j.
Proof.
  intros H. unfold finish_task. rewrite H. split; [apply setnth_same; apply (some_lt _ _ _ H)|]. intros j N. apply setnth_other. congruence.
Qed.

Lemma check_groups v w g gr : nth_error (w_groups w) g = Some gr -> g_watch gr = Watching -> all_done (g_tasks gr) = true ->
  (forall g', g' <> g -> nth_error (w_groups (tstep v w (Check g))) g' = nth_error (w_groups w) g') /\
  nth_error (w_groups (tstep v w (Check g))) g = Some {| g_tasks := g_tasks gr; g_watch := Over |}.
Proof.
  intros G W D. cbn [tstep]. rewrite G, W, D. cbn [w_groups]. split.
  - intros g' N. apply setnth_other. congruence.
  - apply setnth_same. apply (some_lt _ _ _ G).
Qed.

Lemma all_done_none l i t : all_done l = true -> nth_error l i <> Some (t, None).
Proof.
  revert i. induction l as [|[u [o|]] l IH]; intros [|i] D H; cbn in *; try discriminate. apply (IH i D H).
Qed.

(** ** What is there stays there *)

Lemma there_step v w a n : there w n -> there (tstep v w a) n.
Proof.
  assert (K : forall g gr, nth_error (w_groups w) g = Some gr -> exists gr', nth_error (w_groups (tstep v w a)) g = Some gr' /\ length (g_tasks gr') = length (g_tasks gr)).
  { intros g gr G. destruct (step_kept v w a g gr G) as (gr' & G' & M & _). exists gr'. split; [exact G'|].
    rewrite <- (map_length fst (g_tasks gr')), M, map_length. reflexivity. }
  assert (L : forall g, (g < length (w_groups w))%nat -> (g < length (w_groups (tstep v w a)))%nat).
  { intros g L. destruct (nth_error (w_groups w) g) as [gr|] eqn:G; [|apply nth_error_None in G; lia].
    destruct (K g gr G) as (gr' & G' & _). apply (some_lt _ _ _ G'). }
  destruct n as [g i|g|g|x]; cbn; auto.
  intros (gr & p & G & P). destruct (K g gr G) as (gr' & G' & E). exists gr'.
  destruct (nth_error (g_tasks gr') i) as [q|] eqn:Q; [eauto|]. apply nth_error_None in Q. apply some_lt in P. lia.
Qed.

Definition lib_there w a b : lib w a b -> there w a /\ there w b.
Proof. intros []; cbn; split; eauto using some_lt. Qed.

Lemma woken_there w n : woken w n -> there w n.
Proof. intros (g & gr & -> & G & _). cbn. apply (some_lt _ _ _ G). Qed.

(** ** Reachability *)

(** The heap knows only what is there. *)
Definition sound (c : cworld) : Prop :=
  (forall n, h_root (c_heap c) n -> there (c_w c) n) /\ (forall a b, h_ref (c_heap c) a b -> there (c_w c) a /\ there (c_w c) b).

Lemma reach_there c n : sound c -> reach (c_w c) (c_heap c) n -> there (c_w c) n.
Proof.
  intros [S1 S2] R. induction R as [n R|n R|a b _ _ R|a b _ _ R]; [apply S1, R|apply woken_there, R|apply (S2 a b R)|apply (lib_there _ a b R)].
Qed.

Lemma reach_event v w h r it m n : (forall a b, h_ref h a b -> there w a /\ there w b) ->
  let w' := tstep v w (Event r it m) in reach w' (scheduled w w' h) n -> reach w h n \/ ~ there w n.
Proof.
  intros S w' R. induction R as [n R|n R|a b _ IH R|a b _ IH R].
  - cbn in R. destruct R as [R|(_ & R & _)]; [left; apply R_root, R|right; exact R].
  - destruct R as (g & gr & -> & G & W & D). destruct (Nat.ltb_spec g (length (w_groups w))) as [L|L].
    + left. apply R_woken. exists g, gr. unfold w' in G. rewrite event_old in G by exact L. auto.
    + right. cbn. lia.
  - cbn in R. destruct IH as [IH|IH]; [left; eapply R_ref; eauto|]. destruct (S a b R). contradiction.
  - destruct (lib_there _ _ _ R) as [_ _].
    assert (K : forall g, (g < length (w_groups w))%nat -> nth_error (w_groups w') g = nth_error (w_groups w) g) by (intros; apply event_old; assumption).
    destruct R as [g gr i p G W P|g gr G W|g gr G W|g gr i p G W P|g gr i t G W P];
      (destruct (Nat.ltb_spec g (length (w_groups w))) as [L|L];
       [rewrite (K g L) in G; left; destruct IH as [IH|IH]; [eapply R_lib; [exact IH|econstructor; eassumption]|exfalso; apply IH; cbn; eauto]
       |right; cbn; first [lia|intros (gr0 & p0 & G0 & _); apply some_lt in G0; lia]]).
Qed.

Lemma reach_finish v w h g i o gr t n : nth_error (w_groups w) g = Some gr -> nth_error (g_tasks gr) i = Some (t, None) ->
  reach w h (NTask g i) -> reach (tstep v w (Finish g i o)) h n -> reach w h n.
Proof.
  intros G T RT R. destruct (finish_groups v w g i o gr G) as [K1 K2]. destruct (finish_one i o _ t T) as [F1 F2].
  induction R as [n R|n R|a b _ IH R|a b _ IH R].
  - apply R_root, R.
  - destruct R as (g' & gr' & -> & G' & W & D). destruct (Nat.eq_dec g' g) as [->|N].
    + rewrite K2 in G'. injection G' as <-. cbn in W, D.
      eapply R_lib; [eapply R_lib; [exact RT|]|]; [eapply L_done|eapply L_wakes]; eassumption.
    + rewrite K1 in G' by exact N. apply R_woken. exists g', gr'. auto.
  - eapply R_ref; eauto.
  - eapply R_lib; [exact IH|]. clear IH.
    destruct R as [g' gr' j p G' W P|g' gr' G' W|g' gr' G' W|g' gr' j p G' W P|g' gr' j u G' W P];
      (destruct (Nat.eq_dec g' g) as [->|N]; [rewrite K2 in G'; injection G' as <-; cbn in W; try cbn in P|rewrite K1 in G' by exact N; econstructor; eassumption]).
    + destruct (Nat.eq_dec j i) as [->|N]; [econstructor; eassumption|rewrite F2 in P by exact N; econstructor; eassumption].
    + econstructor; eassumption.
    + econstructor; eassumption.
    + destruct (Nat.eq_dec j i) as [->|N]; [econstructor; eassumption|rewrite F2 in P by exact N; econstructor; eassumption].
    + destruct (Nat.eq_dec j i) as [->|N]; [congruence|rewrite F2 in P by exact N; econstructor; eassumption].
Qed.

Lemma reach_check v w h g gr n : nth_error (w_groups w) g = Some gr -> g_watch gr = Watching -> all_done (g_tasks gr) = true ->
  reach (tstep v w (Check g)) h n -> reach w h n.
Proof.
  intros G W0 D0 R. destruct (check_groups v w g gr G W0 D0) as [K1 K2].
  induction R as [n R|n R|a b _ IH R|a b _ IH R].
  - apply R_root, R.
  - destruct R as (g' & gr' & -> & G' & W & D). destruct (Nat.eq_dec g' g) as [->|N].
    + rewrite K2 in G'. injection G' as <-. discriminate.
    + rewrite K1 in G' by exact N. apply R_woken. exists g', gr'. auto.
  - eapply R_ref; eauto.
  - eapply R_lib; [exact IH|]. clear IH.
    destruct R as [g' gr' j p G' W P|g' gr' G' W|g' gr' G' W|g' gr' j p G' W P|g' gr' j u G' W P];
      (destruct (Nat.eq_dec g' g) as [->|N]; [rewrite K2 in G'; injection G' as <-; discriminate|rewrite K1 in G' by exact N; econstructor; eassumption]).
Qed.

Lemma lib_pyown w a b : lib w a b -> in_pyown a /\ in_pyown b.
Proof. intros []; cbn; auto. Qed.

Lemma fresh_obj h n : fresh h n -> ~ in_pyown n.
Proof. intros [[x ->] _] []. Qed.

Lemma reach_mutate w h h' n :
  (forall n, h_root h' n -> h_root h n \/ reach w h n \/ fresh h n) ->
  (forall a b, h_ref h' a b -> h_ref h a b \/ ((reach w h a \/ fresh h a) /\ (reach w h b \/ fresh h b))) ->
  reach w h' n -> reach w h n \/ fresh h n.
Proof.
  intros M1 M2 R. induction R as [n R|n R|a b _ IH R|a b _ IH R].
  - destruct (M1 n R) as [H|H]; [left; apply R_root, H|exact H].
  - left. apply R_woken, R.
  - destruct (M2 a b R) as [H|[_ H]]; [|exact H]. destruct IH as [IH|IH]; [left; eapply R_ref; eauto|].
    destruct IH as (_ & _ & IH). destruct (IH b). contradiction.
  - destruct IH as [IH|IH]; [left; eapply R_lib; eauto|]. destruct (fresh_obj _ _ IH (proj1 (lib_pyown _ _ _ R))).
Qed.

(** A step brings no task or future back. *)
Lemma step_unreached v c a c' n : sound c -> cstep v c a c' -> in_pyown n -> there (c_w c) n ->
  reach (c_w c') (c_heap c') n -> reach (c_w c) (c_heap c) n.
Proof.
  intros [S1 S2] St P T R. destruct St as [r it m|g i o gr t G X RT NG|g gr G W D RW NG|h M1 M2|dead ND M1 M2]; cbn [c_w c_heap] in R.
  - destruct (reach_event v _ _ r it m n S2 R); [assumption|contradiction].
  - eapply reach_finish; eassumption.
  - eapply reach_check; eassumption.
  - destruct (reach_mutate _ _ h n M1 M2 R) as [H|H]; [exact H|]. destruct (fresh_obj _ _ H P).
  - exact R.
Qed.

Lemma there_cstep v c a c' n : cstep v c a c' -> there (c_w c) n -> there (c_w c') n.
Proof. intros [] T; cbn [c_w]; try exact T; apply there_step, T. Qed.

Lemma fresh_there w h n : fresh h n -> there w n.
Proof. intros [[x ->] _]. exact I. Qed.

Lemma sound_step v c a c' : sound c -> cstep v c a c' -> sound c'.
Proof.
  intros S St. pose proof S as [S1 S2]. split.
  - intros n R. destruct St as [r it m|g i o gr t G X RT NG|g gr G W D RW NG|h M1 M2|dead ND M1 M2]; cbn [c_w c_heap] in *.
    + destruct R as [R|(R & _)]; [apply there_step, S1, R|exact R].
    + apply there_step, S1, R.
    + apply there_step, S1, R.
    + destruct (M1 n R) as [H|[H|H]]; [apply S1, H|apply (reach_there c n S H)|apply (fresh_there _ _ _ H)].
    + apply S1, R.
  - intros x y R. destruct St as [r it m|g i o gr t G X RT NG|g gr G W D RW NG|h M1 M2|dead ND M1 M2]; cbn [c_w c_heap] in *.
    + destruct (S2 x y R). split; apply there_step; assumption.
    + destruct (S2 x y R). split; apply there_step; assumption.
    + destruct (S2 x y R). split; apply there_step; assumption.
    + destruct (M2 x y R) as [H|[[H|H] [K|K]]]; [apply (S2 x y H)|..];
        (split; first [apply (reach_there c _ S); assumption|eapply fresh_there; eassumption]).
    + apply (S2 x y R).
Qed.

(** ** The reports *)

Lemma concat_map_ext {A B} (f g : A -> list B) l : (forall x, In x l -> f x = g x) -> concat (map f l) = concat (map g l).
Proof. intros H. rewrite (map_ext_in _ _ _ H). reflexivity. Qed.

Record inv (v : N) (c : cworld) : Prop := {
  i_sound : sound c;
  i_gone : forall n, In n (c_gone c) -> in_pyown n /\ there (c_w c) n /\ ~ reach (c_w c) (c_heap c) n;
  i_nodup : NoDup (c_gone c);
  i_told : c_told c = concat (map (last_word (c_w c)) (c_gone c));
  i_honest : honest (c_w c);
  i_closed : forall a b, in_pyown a -> lib (c_w c) a b -> In b (c_gone c) -> In a (c_gone c) }.

Lemma word_event v w r it m n : there w n -> last_word (tstep v w (Event r it m)) n = last_word w n.
Proof.
  destruct n as [g i|g|g|x]; cbn [there last_word]; auto.
  - intros (gr & p & G & _). rewrite event_old by (apply (some_lt _ _ _ G)). reflexivity.
  - intros L. rewrite event_old by exact L. reflexivity.
Qed.

Lemma word_finish v w g i o gr t n : nth_error (w_groups w) g = Some gr -> nth_error (g_tasks gr) i = Some (t, None) -> n <> NTask g i ->
  last_word (tstep v w (Finish g i o)) n = last_word w n.
Proof.
  intros G T N. destruct (finish_groups v w g i o gr G) as [K1 K2]. destruct (finish_one i o _ t T) as [F1 F2].
  destruct n as [g' j|g'|g'|x]; cbn [last_word]; auto.
  - destruct (Nat.eq_dec g' g) as [->|NG]; [|rewrite K1 by exact NG; reflexivity]. rewrite K2, G. cbn [g_tasks g_watch].
    rewrite F2 by congruence. reflexivity.
  - destruct (Nat.eq_dec g' g) as [->|NG]; [|rewrite K1 by exact NG; reflexivity]. rewrite K2, G. reflexivity.
Qed.

Lemma word_check v w g gr n : nth_error (w_groups w) g = Some gr -> g_watch gr = Watching -> all_done (g_tasks gr) = true ->
  (forall i, n <> NTask g i) -> n <> NWatch g -> last_word (tstep v w (Check g)) n = last_word w n.
Proof.
  intros G W D N1 N2. destruct (check_groups v w g gr G W D) as [K1 K2].
  destruct n as [g' j|g'|g'|x]; cbn [last_word]; auto; (destruct (Nat.eq_dec g' g) as [->|NG]; [|rewrite K1 by exact NG; reflexivity]); exfalso; firstorder congruence.
Qed.

(** The edges that a step adds lead to new objects; those it leaves it had. *)
Lemma lib_event v w r it m a b : lib (tstep v w (Event r it m)) a b -> there w b -> lib w a b.
Proof.
  intros R T. assert (K : forall g, (g < length (w_groups w))%nat -> nth_error (w_groups (tstep v w (Event r it m))) g = nth_error (w_groups w) g) by (intros; apply event_old; assumption).
  destruct R as [g gr i p G W P|g gr G W|g gr G W|g gr i p G W P|g gr i t G W P]; cbn in T;
    (destruct (Nat.ltb_spec g (length (w_groups w))) as [L|L];
     [rewrite (K g L) in G; econstructor; eassumption|exfalso; first [lia|destruct T as (gr0 & p0 & G0 & _); apply some_lt in G0; lia]]).
Qed.

Lemma lib_finish v w g i o gr t a b : nth_error (w_groups w) g = Some gr -> nth_error (g_tasks gr) i = Some (t, None) ->
  lib (tstep v w (Finish g i o)) a b -> lib w a b.
Proof.
  intros G T R. destruct (finish_groups v w g i o gr G) as [K1 K2]. destruct (finish_one i o _ t T) as [F1 F2].
  destruct R as [g' gr' j p G' W P|g' gr' G' W|g' gr' G' W|g' gr' j p G' W P|g' gr' j u G' W P];
    (destruct (Nat.eq_dec g' g) as [->|N]; [rewrite K2 in G'; injection G' as <-; cbn in W; try cbn in P|rewrite K1 in G' by exact N; econstructor; eassumption]).
  - destruct (Nat.eq_dec j i) as [->|N]; [econstructor; eassumption|rewrite F2 in P by exact N; econstructor; eassumption].
  - econstructor; eassumption.
  - econstructor; eassumption.
  - destruct (Nat.eq_dec j i) as [->|N]; [econstructor; eassumption|rewrite F2 in P by exact N; econstructor; eassumption].
  - destruct (Nat.eq_dec j i) as [->|N]; [congruence|rewrite F2 in P by exact N; econstructor; eassumption].
Qed.

Lemma lib_check v w g gr a b : nth_error (w_groups w) g = Some gr -> g_watch gr = Watching -> all_done (g_tasks gr) = true ->
  lib (tstep v w (Check g)) a b -> lib w a b.
Proof.
  intros G W0 D0 R. destruct (check_groups v w g gr G W0 D0) as [K1 K2].
  destruct R as [g' gr' j p G' W P|g' gr' G' W|g' gr' G' W|g' gr' j p G' W P|g' gr' j u G' W P];
    (destruct (Nat.eq_dec g' g) as [->|N]; [rewrite K2 in G'; injection G' as <-; discriminate|rewrite K1 in G' by exact N; econstructor; eassumption]).
Qed.

Lemma NoDup_app_intro {A} (a b : list A) : NoDup a -> NoDup b -> (forall x, In x b -> ~ In x a) -> NoDup (a ++ b).
Proof.
  intros H. induction H as [|x a NI _ IH]; intros B D; [exact B|]. cbn. constructor.
  - intros I. apply in_app_or in I. destruct I as [I|I]; [contradiction|]. apply (D x I). left; reflexivity.
  - apply IH; [exact B|]. intros y Y I. apply (D y Y). right; exact I.
Qed.

Lemma inv_step v c a c' : inv v c -> cstep v c a c' -> inv v c'.
Proof.
  intros [S G ND T H C] St. split.
  - eapply sound_step; eassumption.
  - intros n I. assert (D : In n (c_gone c) -> in_pyown n /\ there (c_w c') n /\ ~ reach (c_w c') (c_heap c') n).
    { intros J. destruct (G n J) as (P & Th & R). split; [exact P|]. split; [eapply there_cstep; eassumption|].
      intros K. apply R. eapply step_unreached; eassumption. }
    destruct St; try (apply D, I). cbn [c_gone c_w c_heap] in *. apply in_app_or in I. destruct I as [I|I]; [apply D, I|].
    destruct (H1 n I) as (P & Th & _ & R). auto.
  - destruct St; try exact ND. cbn [c_gone]. apply NoDup_app_intro; [exact ND|assumption|]. intros x I. apply (H1 x I).
  - destruct St as [r it m|g i o gr t Gg X RT NG|g gr Gg W Dn RW NG|h M1 M2|dead NDd M1 M2]; cbn [c_w c_gone c_told]; rewrite T.
    + apply concat_map_ext. intros n I. symmetry. apply word_event, (G n I).
    + apply concat_map_ext. intros n I. symmetry. eapply word_finish; [eassumption|eassumption|]. intros ->. contradiction.
    + apply concat_map_ext. intros n I. symmetry. apply (word_check v _ g gr); try assumption.
      * intros i ->. destruct (G _ I) as (_ & (gr0 & p & G0 & P0) & R). apply R. rewrite Gg in G0. injection G0 as <-.
        eapply R_lib; [exact RW|eapply L_argument; eassumption].
      * intros ->. contradiction.
    + reflexivity.
    + rewrite map_app, concat_app. reflexivity.
  - destruct St; cbn [c_w]; try exact H; apply step_honest, H.
  - intros x y P L I. destruct St as [r it m|g i o gr t Gg X RT NG|g gr Gg W Dn RW NG|h M1 M2|dead NDd M1 M2]; cbn [c_w c_gone] in *.
    + apply (C x y P); [|exact I]. eapply lib_event; [exact L|]. apply (G y I).
    + apply (C x y P); [|exact I]. eapply lib_finish; eassumption.
    + apply (C x y P); [|exact I]. eapply lib_check; eassumption.
    + apply (C x y P L I).
    + apply in_or_app. apply in_app_or in I. destruct I as [I|I]; [left; apply (C x y P L I)|].
      destruct (M2 x y P (or_intror L) I); [right|left]; assumption.
Qed.

Lemma inv_fresh v h : objects_only h -> inv v (fresh_world h).
Proof.
  intros [O1 O2]. split; cbn.
  - split; cbn.
    + intros n R. destruct (O1 n R) as [x ->]. exact I.
    + intros a b R. destruct (O2 a b R) as [[x ->] [y ->]]. split; exact I.
  - intros n [].
  - constructor.
  - reflexivity.
  - apply nothing_honest.
  - intros a b _ _ [].
Qed.

Lemma inv_run v c l c' : inv v c -> crun v c l c' -> inv v c'.
Proof. intros I R. induction R as [c|c l c1 a c2 R IH St]; [exact I|]. apply (inv_step v c1 a c2 (IH I) St). Qed.

(** ** With and without collections *)

Definition unforget (c : cworld) (gone : list node) (told : list report) : cworld :=
  {| c_w := c_w c; c_heap := c_heap c; c_gone := gone; c_told := told |}.

Definition kept (a : clab) : bool := match a with Gc _ => false | _ => true end.

(** A step other than a collection is as possible with any other set of
    collected objects that cannot be reached. *)
Lemma step_gone v c a c' gone told : cstep v c a c' -> kept a = true -> (forall n, In n gone -> ~ reach (c_w c) (c_heap c) n) ->
  cstep v (unforget c gone told) a (unforget c' gone told).
Proof.
  intros St K U. destruct St as [r it m|g i o gr t G X RT NG|g gr G W D RW NG|h M1 M2|dead ND M1 M2]; cbn [unforget c_w c_heap] in *.
  - apply (C_event v (unforget c gone told) r it m).
  - apply (C_finish v (unforget c gone told) g i o gr t G X RT). intros I. apply (U _ I RT).
  - apply (C_check v (unforget c gone told) g gr G W D RW). intros I. apply (U _ I RW).
  - apply (C_mutate v (unforget c gone told) h M1 M2).
  - discriminate.
Qed.

Definition forget (c : cworld) : cworld := unforget c [] [].

Lemma run_forget v h l c : crun v (fresh_world h) l c -> crun v (fresh_world h) (filter kept l) (forget c).
Proof.
  intros R. remember (fresh_world h) as c0 eqn:E. induction R as [c|c l c1 a c2 R IH St]; subst; [constructor|].
  rewrite filter_app. cbn [filter]. destruct (kept a) eqn:K.
  - eapply Cr_snoc; [apply IH; reflexivity|]. apply (step_gone v c1 a c2 [] [] St K). intros n [].
  - rewrite app_nil_r. destruct St; try discriminate. apply IH. reflexivity.
Qed.

Lemma run_again v c l d : inv v c -> crun v (forget c) l d -> forallb kept l = true ->
  crun v c l (unforget d (c_gone c) (c_told c)).
Proof.
  intros I R. remember (forget c) as c0 eqn:E. induction R as [c0|c0 l c1 a c2 R IH St]; subst; intros K.
  - replace (unforget (forget c) (c_gone c) (c_told c)) with c by (destruct c; reflexivity). constructor.
  - rewrite forallb_app in K. apply andb_prop in K. destruct K as [K1 K2]. cbn in K2. rewrite andb_true_r in K2.
    specialize (IH eq_refl K1). eapply Cr_snoc; [exact IH|]. apply step_gone; [exact St|exact K2|].
    intros n G. pose proof (inv_run v c l _ I IH) as I'. apply (i_gone v _ I' n G).
Qed.

(** ** The groups *)

(** A watched group that goes on is reached as a whole or not at all. *)
Lemma reach_group w h g gr i t n : nth_error (w_groups w) g = Some gr -> g_watch gr = Watching -> nth_error (g_tasks gr) i = Some (t, None) ->
  reach w h (NTask g i) -> n = NWatch g \/ (exists j p, n = NTask g j /\ nth_error (g_tasks gr) j = Some p) -> reach w h n.
Proof.
  intros G W T R N. assert (RG : reach w h (NGather g)) by (eapply R_lib; [exact R|eapply L_done; eassumption]).
  assert (RW : reach w h (NWatch g)) by (eapply R_lib; [exact RG|eapply L_wakes; eassumption]).
  destruct N as [->|(j & p & -> & P)]; [exact RW|]. eapply R_lib; [exact RW|eapply L_argument; eassumption].
Qed.

Lemma gone_group v c g gr i t n : inv v c -> nth_error (w_groups (c_w c)) g = Some gr -> g_watch gr = Watching ->
  nth_error (g_tasks gr) i = Some (t, None) ->
  In n (c_gone c) -> n = NWatch g \/ (exists j p, n = NTask g j /\ nth_error (g_tasks gr) j = Some p) ->
  In (NWatch g) (c_gone c) /\ In (NTask g i) (c_gone c).
Proof.
  intros I G W T J N.
  assert (A : In (NWatch g) (c_gone c)).
  { destruct N as [->|(j & p & -> & P)]; [exact J|]. apply (i_closed v c I (NWatch g) (NTask g j)); [exact Logic.I|eapply L_argument; eassumption|exact J]. }
  split; [exact A|].
  assert (B : In (NGather g) (c_gone c)) by (apply (i_closed v c I (NGather g) (NWatch g)); [exact Logic.I|eapply L_wakes; eassumption|exact A]).
  apply (i_closed v c I (NTask g i) (NGather g)); [exact Logic.I|eapply L_done; eassumption|exact B].
Qed.

(** ** The reports, one by one *)

Lemma report_eq_dec (a b : report) : {a = b} + {a <> b}.
Proof. decide equality; try apply Nat.eq_dec; try apply N.eq_dec. apply node_eq_dec. Qed.

Definition subject (r : report) : node := match r with Destroyed n => n | Unretrieved g i _ => NTask g i end.

Lemma word_subject w n r : In r (last_word w n) -> last_word w n = [r] /\ subject r = n.
Proof.
  destruct n as [g i|g|g|x]; cbn [last_word]; try contradiction.
  - destruct (nth_error (w_groups w) g) as [gr|]; [|contradiction].
    destruct (nth_error (g_tasks gr) i) as [[t [[|x|]|]]|]; destruct (g_watch gr); cbn; try contradiction; intros [<-|[]]; auto.
  - destruct (nth_error (w_groups w) g) as [gr|]; [|contradiction]. destruct (g_watch gr); cbn; try contradiction. intros [<-|[]]; auto.
Qed.

Lemma count_concat w r gone : NoDup gone ->
  count_occ report_eq_dec (concat (map (last_word w) gone)) r =
  if in_dec node_eq_dec (subject r) gone then (if in_dec report_eq_dec r (last_word w (subject r)) then 1 else 0)%nat else O.
Proof.
  induction gone as [|n gone IH]; intros ND; [reflexivity|]. inversion ND as [|? ? NI ND']; subst. cbn [map concat].
  rewrite count_occ_app, (IH ND'). clear IH.
  destruct (node_eq_dec n (subject r)) as [E|E].
  - subst n. destruct (in_dec node_eq_dec (subject r) (subject r :: gone)) as [_|B]; [|exfalso; apply B; left; reflexivity].
    destruct (in_dec node_eq_dec (subject r) gone) as [A|_]; [contradiction|]. rewrite Nat.add_0_r.
    destruct (in_dec report_eq_dec r (last_word w (subject r))) as [A|A].
    + destruct (word_subject w _ r A) as [-> _]. cbn. destruct (report_eq_dec r r); congruence.
    + apply count_occ_not_In, A.
  - assert (Z : count_occ report_eq_dec (last_word w n) r = O).
    { apply count_occ_not_In. intros A. destruct (word_subject w n r A). congruence. }
    rewrite Z. cbn [plus].
    destruct (in_dec node_eq_dec (subject r) gone) as [A|A], (in_dec node_eq_dec (subject r) (n :: gone)) as [B|B]; try reflexivity.
    + exfalso. apply B. right; exact A.
    + exfalso. destruct B as [B|B]; [congruence|contradiction].
Qed.

Lemma told_count v c r : inv v c ->
  count_occ report_eq_dec (c_told c) r =
  if in_dec node_eq_dec (subject r) (c_gone c) then (if in_dec report_eq_dec r (last_word (c_w c) (subject r)) then 1 else 0)%nat else O.
Proof. intros I. rewrite (i_told v c I). apply count_concat, (i_nodup v c I). Qed.

Lemma told_in v c r : inv v c -> (In r (c_told c) <-> In (subject r) (c_gone c) /\ In r (last_word (c_w c) (subject r))).
Proof.
  intros I. rewrite (count_occ_In report_eq_dec), (told_count v c r I).
  destruct (in_dec node_eq_dec (subject r) (c_gone c)); destruct (in_dec report_eq_dec r (last_word (c_w c) (subject r))); intuition lia.
Qed.
