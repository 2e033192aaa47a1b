(** * More proofs about collected tasks *)
From Coq Require Import String List FinFun NArith ZArith Bool Lia.
From Verif Require Import PyStr Tags Messages SpecMsg Protocol Queue QueueThms IO Client Items Dispatch SpecDispatch Tasks SpecTasks TasksThms Errors Log
  Handler SpecHandler HandlerThms Collect SpecCollect CollectThms.
Import ListNotations.
Open Scope N_scope.
Open Scope list_scope.

Lemma uncollected_filter l : uncollected l = filter kept l.
Proof. induction l as [|[] l IH]; cbn; congruence. Qed.

Lemma acts_app a b : acts (a ++ b) = acts a ++ acts b.
Proof. induction a as [|[] a IH]; cbn; congruence. Qed.

(** The tasks are those of Tasks.v. *)
Lemma run_world v c l c' : crun v c l c' -> c_w c' = trun v (c_w c) (acts l).
Proof.
  intros R. induction R as [c|c l c1 a c2 R IH St]; [reflexivity|]. rewrite acts_app, trun_app, <- IH. destruct St; reflexivity.
Qed.

(** ** Gone for good *)

Lemma gone_step v c a c' n : cstep v c a c' -> In n (c_gone c) -> In n (c_gone c').
Proof. intros [] I; cbn [c_gone]; try exact I. apply in_or_app. left; exact I. Qed.

Lemma gone_pending v c l d g gr i t : crun v c l d -> nth_error (w_groups (c_w c)) g = Some gr -> nth_error (g_tasks gr) i = Some (t, None) ->
  In (NTask g i) (c_gone c) ->
  In (NTask g i) (c_gone d) /\ exists gr', nth_error (w_groups (c_w d)) g = Some gr' /\ nth_error (g_tasks gr') i = Some (t, None).
Proof.
  intros R. revert gr. induction R as [c|c l c1 a c2 R IH St]; intros gr G T I; [eauto|].
  destruct (IH gr G T I) as (I1 & gr1 & G1 & T1). clear IH. split; [eapply gone_step; eassumption|].
  destruct St as [r it m|g' i' o gr' t' G' X RT NG|g' gr' G' W D RW NG|h M1 M2|dead ND M1 M2]; cbn [c_w].
  - exists gr1. rewrite event_old by (apply (some_lt _ _ _ G1)). auto.
  - destruct (finish_groups v (c_w c1) g' i' o gr' G') as [K1 K2]. destruct (Nat.eq_dec g g') as [->|N]; [|rewrite K1 by exact N; eauto].
    rewrite G' in G1. injection G1 as <-. eexists. split; [exact K2|]. cbn [g_tasks].
    destruct (finish_one i' o _ t' X) as [_ F2]. rewrite F2; [exact T1|]. intros ->. contradiction.
  - destruct (check_groups v (c_w c1) g' gr' G' W D) as [K1 K2]. destruct (Nat.eq_dec g g') as [->|N]; [|rewrite K1 by exact N; eauto].
    rewrite G' in G1. injection G1 as <-. eexists. split; [exact K2|]. exact T1.
  - eauto.
  - eauto.
Qed.

(** ** Reports of errors *)

Lemma word_raised w g gr i t x : nth_error (w_groups w) g = Some gr -> nth_error (g_tasks gr) i = Some (t, Some (Raised x)) ->
  last_word w (NTask g i) = if match g_watch gr with Over => true | _ => false end then [] else [Unretrieved g i x].
Proof. intros G T. cbn [last_word]. rewrite G, T. destruct (g_watch gr); reflexivity. Qed.

Lemma once v c g gr i t x : inv v c -> nth_error (w_groups (c_w c)) g = Some gr -> nth_error (g_tasks gr) i = Some (t, Some (Raised x)) ->
  (g_watch gr = Over /\ (exists os, SpecTasks.ends (g_tasks gr) os /\ errors os (lines g (w_log (c_w c)))) /\ count_occ report_eq_dec (c_told c) (Unretrieved g i x) = O) \/
  (g_watch gr <> Over /\ lines g (w_log (c_w c)) = [] /\
   ((In (NTask g i) (c_gone c) /\ count_occ report_eq_dec (c_told c) (Unretrieved g i x) = 1%nat) \/
    (~ In (NTask g i) (c_gone c) /\ count_occ report_eq_dec (c_told c) (Unretrieved g i x) = O))).
Proof.
  intros I G T. pose proof (proj1 (i_honest v c I) g gr G) as H. unfold told in H.
  rewrite (told_count v c _ I). cbn [subject]. rewrite (word_raised _ g gr i t x G T).
  destruct (g_watch gr) eqn:W.
  - right. split; [discriminate|]. split; [exact H|]. destruct (in_dec node_eq_dec (NTask g i) (c_gone c)); [left|right]; split; auto.
    destruct (in_dec report_eq_dec (Unretrieved g i x) [Unretrieved g i x]) as [_|B]; [reflexivity|exfalso; apply B; left; reflexivity].
  - right. split; [discriminate|]. split; [exact H|]. destruct (in_dec node_eq_dec (NTask g i) (c_gone c)); [left|right]; split; auto.
    destruct (in_dec report_eq_dec (Unretrieved g i x) [Unretrieved g i x]) as [_|B]; [reflexivity|exfalso; apply B; left; reflexivity].
  - left. split; [reflexivity|]. split; [exact H|]. destruct (in_dec node_eq_dec (NTask g i) (c_gone c)); [|reflexivity].
    destruct (in_dec report_eq_dec (Unretrieved g i x) []) as [B|_]; [destruct B|reflexivity].
Qed.

Lemma report_true v c r : inv v c -> In r (c_told c) -> In (subject r) (c_gone c) /\
  match r with
  | Destroyed (NTask g i) => exists gr t, nth_error (w_groups (c_w c)) g = Some gr /\ nth_error (g_tasks gr) i = Some (t, None)
  | Destroyed (NWatch g) => exists gr, nth_error (w_groups (c_w c)) g = Some gr /\ g_watch gr = Watching
  | Destroyed _ => False
  | Unretrieved g i x => exists gr t, nth_error (w_groups (c_w c)) g = Some gr /\ nth_error (g_tasks gr) i = Some (t, Some (Raised x)) /\ g_watch gr <> Over
  end.
Proof.
  intros I J. apply (told_in v c r I) in J. destruct J as [J K]. split; [exact J|]. clear J.
  destruct r as [[g i|g|g|y]|g i x]; cbn [subject last_word] in K; try contradiction;
    (destruct (nth_error (w_groups (c_w c)) g) as [gr|] eqn:G; [|contradiction]).
  - destruct (nth_error (g_tasks gr) i) as [[t [[|x|]|]]|] eqn:T; destruct (g_watch gr) eqn:W; cbn in K; intuition (try discriminate); eauto.
  - destruct (g_watch gr) eqn:W; cbn in K; try contradiction. eauto.
  - destruct (nth_error (g_tasks gr) i) as [[t [[|x'|]|]]|] eqn:T; destruct (g_watch gr) eqn:W; cbn in K; try contradiction;
      (destruct K as [K|[]]; try discriminate; injection K as <-; exists gr, t; repeat split; congruence).
Qed.

(** ** Unwatched calls *)

Lemma unwatched_pred w g gr a i : nth_error (w_groups w) g = Some gr -> g_watch gr <> Watching -> ~ lib w a (NTask g i).
Proof. intros G W L. inversion L; subst; congruence. Qed.

Lemma collect_one v c g gr i t x : inv v c -> nth_error (w_groups (c_w c)) g = Some gr -> g_watch gr = Unwatched ->
  nth_error (g_tasks gr) i = Some (t, Some (Raised x)) -> ~ In (NTask g i) (c_gone c) -> island (c_heap c) [NTask g i] ->
  cstep v c (Gc [NTask g i]) {| c_w := c_w c; c_heap := c_heap c; c_gone := c_gone c ++ [NTask g i]; c_told := c_told c ++ [Unretrieved g i x] |}.
Proof.
  intros I G W T NG (P & P1 & P2 & P3 & P4).
  assert (NR : forall n, reach (c_w c) (c_heap c) n -> P n -> False).
  { intros n R. induction R as [n R|n R|a b _ IH R|a b _ IH R]; intros Q.
    - apply (P1 n Q R).
    - destruct R as (g' & gr' & -> & _). destruct (P4 _ Q) as [[y E]|[E|[]]]; discriminate.
    - apply IH, (P2 a b R Q).
    - destruct (P4 _ Q) as [[y E]|[E|[]]]; subst b; [destruct (lib_pyown _ _ _ R) as [_ []]|].
      apply (unwatched_pred _ g gr a i G) in R; [exact R|congruence]. }
  pose proof (C_gc v c [NTask g i]) as S. cbn [map concat] in S. rewrite (word_raised _ g gr i t x G T), W in S. apply S; clear S.
  - repeat constructor. intros [].
  - intros n [<-|[]]. split; [exact Logic.I|]. split; [cbn; eauto|]. split; [exact NG|]. intros R. apply (NR _ R), P3. left; reflexivity.
  - intros a b Q [R|R] [<-|[]].
    + assert (Pa : P a) by (apply (P2 a _ R), P3; left; reflexivity). destruct (P4 a Pa) as [[y ->]|J]; [destruct Q|left; exact J].
    + apply (unwatched_pred _ g gr a i G) in R; [destruct R|congruence].
Qed.

(** ** A group that nothing refers to *)

Lemma in_family g n x : In x (family g n) <-> x = NWatch g \/ x = NGather g \/ exists i, (i < n)%nat /\ x = NTask g i.
Proof.
  unfold family. cbn. rewrite in_map_iff. split.
  - intros [<-|[<-|(i & <- & J)]]; auto. apply in_seq in J. right; right. exists i. split; [lia|reflexivity].
  - intros [->|[->|(i & L & ->)]]; auto. right; right. exists i. split; [reflexivity|]. apply in_seq. lia.
Qed.

Lemma family_nodup g n : NoDup (family g n).
Proof.
  unfold family. constructor.
  - intros [E|J]; [discriminate|]. apply in_map_iff in J. destruct J as (i & E & _). discriminate.
  - constructor; [intros J; apply in_map_iff in J; destruct J as (i & E & _); discriminate|].
    apply FinFun.Injective_map_NoDup; [intros a b E; congruence|apply seq_NoDup].
Qed.

Lemma words_farewell w g gr l0 l : nth_error (w_groups w) g = Some gr -> g_watch gr = Watching -> g_tasks gr = l0 ++ l ->
  farewell g (length l0) l (concat (map (last_word w) (map (NTask g) (seq (length l0) (length l))))).
Proof.
  intros G W. revert l0. induction l as [|[t o] l IH]; intros l0 E; [constructor|].
  assert (T : nth_error (g_tasks gr) (length l0) = Some (t, o)) by (rewrite E, nth_error_app2, Nat.sub_diag by lia; reflexivity).
  specialize (IH (l0 ++ [(t, o)])). rewrite <- app_assoc in IH. specialize (IH E). rewrite app_length, Nat.add_comm in IH. cbn [plus length] in IH.
  assert (Z : last_word w (NTask g (length l0)) = match o with None => [Destroyed (NTask g (length l0))] | Some (Raised x) => [Unretrieved g (length l0) x] | _ => [] end).
  { cbn [last_word]. rewrite G, T, W. destruct o as [[]|]; reflexivity. }
  cbn [length seq map concat]. rewrite Z. destruct o as [[|x|]|]; cbn [app]; constructor; auto.
Qed.

Lemma collect_family v c g gr i t : inv v c -> nth_error (w_groups (c_w c)) g = Some gr -> g_watch gr = Watching ->
  nth_error (g_tasks gr) i = Some (t, None) -> ~ In (NWatch g) (c_gone c) -> ~ In (NTask g i) (c_gone c) -> island (c_heap c) (family g (length (g_tasks gr))) ->
  exists r, farewell g 0 (g_tasks gr) r /\
  cstep v c (Gc (family g (length (g_tasks gr))))
    {| c_w := c_w c; c_heap := c_heap c; c_gone := c_gone c ++ family g (length (g_tasks gr)); c_told := c_told c ++ Destroyed (NWatch g) :: r |}.
Proof.
  intros I G W T NW NT (P & P1 & P2 & P3 & P4). set (F := family g (length (g_tasks gr))) in *.
  assert (PF : forall a b, lib (c_w c) a b -> In b F -> In a F).
  { intros a b L J. unfold F in *. apply in_family in J. apply in_family.
    destruct L as [g' gr' j p G' W' Q|g' gr' G' W'|g' gr' G' W'|g' gr' j p G' W' Q|g' gr' j u G' W' Q];
      destruct J as [E|[E|(k & Lk & E)]]; inversion E; subst; auto.
    right; right. exists j. split; [|reflexivity]. rewrite G in G'. injection G' as <-. apply (some_lt _ _ _ Q). }
  assert (NR : forall n, reach (c_w c) (c_heap c) n -> P n -> False).
  { intros n R. induction R as [n R|n R|a b _ IH R|a b _ IH R]; intros Q.
    - apply (P1 n Q R).
    - destruct R as (g' & gr' & -> & G' & W' & D). destruct (P4 _ Q) as [[y E]|J]; [discriminate|]. apply in_family in J.
      destruct J as [E|[E|(k & _ & E)]]; inversion E; subst. rewrite G in G'. injection G' as <-. apply (all_done_none _ i t D T).
    - apply IH, (P2 a b R Q).
    - destruct (P4 _ Q) as [[y E]|J]; [subst b; destruct (lib_pyown _ _ _ R) as [_ []]|]. apply IH, P3, (PF a b R J). }
  assert (NG : forall n, In n F -> ~ In n (c_gone c)).
  { intros n J K. apply in_family in J. destruct J as [->|[->|(j & L & ->)]].
    - contradiction.
    - apply NT. apply (i_closed v c I (NTask g i) (NGather g)); [exact Logic.I|eapply L_done; eassumption|exact K].
    - destruct (nth_error (g_tasks gr) j) as [p|] eqn:Q; [|apply nth_error_None in Q; lia].
      destruct (gone_group v c g gr i t (NTask g j) I G W T K) as [A _]; [right; eauto|contradiction]. }
  pose proof (words_farewell (c_w c) g gr [] (g_tasks gr) G W eq_refl) as FW. cbn [length] in FW.
  eexists. split; [exact FW|].
  assert (E : concat (map (last_word (c_w c)) F) = Destroyed (NWatch g) :: concat (map (last_word (c_w c)) (map (NTask g) (seq 0 (length (g_tasks gr)))))).
  { unfold F, family. cbn [map concat]. cbn [last_word app]. rewrite G, W. reflexivity. }
  rewrite <- E. apply C_gc.
  - apply family_nodup.
  - intros n J. split; [|split; [|split; [apply NG, J|intros R; apply (NR n R), P3, J]]].
    + apply in_family in J. destruct J as [->|[->|(j & _ & ->)]]; exact Logic.I.
    + apply in_family in J. destruct J as [->|[->|(j & L & ->)]]; cbn; [apply (some_lt _ _ _ G)|apply (some_lt _ _ _ G)|].
      destruct (nth_error (g_tasks gr) j) as [p|] eqn:Q; [eauto|apply nth_error_None in Q; lia].
  - intros a b Q [R|R] J; [|left; apply (PF a b R J)].
    destruct (P4 a (P2 a b R (P3 b J))) as [[y ->]|K]; [destruct Q|left; exact K].
Qed.

(** ** The lines *)

Section Texts.
Variables (cb h fut : str) (text : N -> fault) (name : node -> str).

Lemma report_line l rs : after_client l -> exists s, lines_for text rs s /\
  v_out (hrun cb h fut new_loop (l ++ map (fun r => HReport (context_of text name r)) rs)) = v_out (hrun cb h fut new_loop l) ++ map line s.
Proof.
  revert l. induction rs as [|r rs IH]; intros l A; [exists []; split; [constructor|cbn; rewrite !app_nil_r; reflexivity]|].
  assert (A' : after_client (l ++ [HReport (context_of text name r)])).
  { destruct A as (a & b & -> & S). exists a, (b ++ [HReport (context_of text name r)]). split; [rewrite <- app_assoc; reflexivity|].
    intros k J. apply in_app_or in J. destruct J as [J|[J|[]]]; [apply (S k J)|discriminate]. }
  destruct (IH _ A') as (s & L & E). cbn [map]. rewrite <- app_assoc in E. cbn [app] in E.
  rewrite report_out, (slot_client cb h fut _ l A) in E. destruct r as [n|g i x].
  - exists s. split; [constructor; exact L|]. rewrite E. cbn. rewrite app_nil_r. reflexivity.
  - eexists. split; [constructor; exact L|]. rewrite E. cbn. rewrite <- app_assoc. reflexivity.
Qed.
End Texts.
