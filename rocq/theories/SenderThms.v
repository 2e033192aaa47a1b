(** * Theorems about sending *)
From Coq Require Import String List NArith ZArith Bool Lia.
From Verif Require Import PyStr Regex Tags Messages MessageFacts SpecMsg MessageThms MessageThms2 Queue QueueThms Sender.
Import ListNotations.
Open Scope list_scope.

Definition is_written (o : outcome) : bool := match o with OWritten => true | _ => false end.
Definition is_handed (o : outcome) : bool := match o with OWritten | ODropped => true | _ => false end.

Definition written (d : list (nat * msg * outcome)) : list N :=
  concat (map (fun x => msg_str (snd (fst x))) (filter (fun x => is_written (snd x)) d)).

Definition handed (d : list (nat * msg * outcome)) : list (nat * msg) :=
  map fst (filter (fun x => is_handed (snd x)) d).

Lemma bytes_str m d : msg_bytes m = Ok d -> d = msg_str m.
Proof. unfold msg_bytes, encode_ascii. destruct (forallb _ _); [|discriminate]. intros H. injection H as <-. reflexivity. Qed.

Lemma str_not_nil m : msg_str m <> [].
Proof. destruct m; discriminate. Qed.

Lemma filter_snoc {A} (f : A -> bool) l x : filter f (l ++ [x]) = filter f l ++ (if f x then [x] else []).
Proof. rewrite filter_app. reflexivity. Qed.

Section water.
Variables high low : nat.
Notation srun := (srun high low).
Notation sstep := (sstep high low).

(** ** The lock mirrors the transport *)

Record flow (s : sstate) : Prop := {
  f_lock : s_lock s = s_paused s;
  f_blocked : s_blocked s = false;
  f_error : s_error s = false;
}.

Lemma maybe_pause_flow s : flow s -> flow (maybe_pause high s).
Proof.
  intros [A B C]. unfold maybe_pause. destruct (_ <=? _)%nat; [constructor; auto|].
  destruct (s_paused s) eqn:P; [constructor; congruence|]. constructor; cbn; auto. rewrite B, A. reflexivity.
Qed.

Lemma maybe_resume_flow s : flow s -> flow (maybe_resume low s).
Proof.
  intros [A B C]. unfold maybe_resume. destruct (s_paused s) eqn:P; cbn [andb]; [|constructor; congruence].
  destruct (_ <=? _)%nat; [|constructor; congruence]. constructor; cbn; auto. rewrite C, A. reflexivity.
Qed.

Lemma write_flow k d s : flow s -> flow (transport_write high k d s).
Proof.
  intros H. unfold transport_write. destruct d as [|c d]; [exact H|]. destruct (s_lost s); [exact H|].
  destruct (s_buffer s) as [|b bs].
  - destruct (skipn k (c :: d)); [constructor; apply H|]. apply maybe_pause_flow. constructor; apply H.
  - apply maybe_pause_flow. constructor; apply H.
Qed.

Lemma try_write_flow i k m d s : flow s -> flow (try_write high i k m d s).
Proof.
  intros H. unfold try_write. destruct (s_lock s); [constructor; apply H|].
  pose proof (write_flow k d s H) as W. constructor; apply W.
Qed.

Lemma sstep_flow s e s' : flow s -> sstep s e = Some s' -> flow s'.
Proof.
  intros H S. destruct e as [i m k|i k|i|k|]; cbn [Sender.sstep] in S.
  - destruct (nth_error _ _) as [[|]|]; try discriminate.
    destruct (msg_bytes m); injection S as <-; [apply try_write_flow|]; constructor; apply H.
  - destruct (nth_error _ _) as [[|]|]; try discriminate. injection S as <-. apply try_write_flow, H.
  - destruct (nth_error _ _) as [[|]|]; try discriminate. injection S as <-. constructor; apply H.
  - destruct (s_lost s); [discriminate|]. destruct (s_buffer s) as [|b bs]; [discriminate|].
    destruct (_ && _); [|discriminate]. injection S as <-. apply maybe_resume_flow. constructor; apply H.
  - destruct (s_lost s); [discriminate|]. injection S as <-. constructor; apply H.
Qed.

Lemma srun_ind (P : sstate -> Prop) s es s' :
  P s -> (forall s e s', P s -> sstep s e = Some s' -> P s') -> srun s es = Some s' -> P s'.
Proof.
  intros H I. revert s H. induction es as [|e es IH]; cbn [Sender.srun]; intros s H R; [injection R as <-; exact H|].
  destruct (sstep s e) as [s1|] eqn:S; [|discriminate]. eapply IH; [|exact R]. eapply I; eauto.
Qed.

Lemma flow_init n : flow (sinit n).
Proof. constructor; reflexivity. Qed.

Theorem flow_reachable n es s : srun (sinit n) es = Some s -> flow s.
Proof. apply srun_ind; [apply flow_init|]. apply sstep_flow. Qed.

(** ** Frame rules of the small operations *)

Lemma maybe_pause_same s :
  s_lost (maybe_pause high s) = s_lost s /\ s_buffer (maybe_pause high s) = s_buffer s /\
  s_wire (maybe_pause high s) = s_wire s /\ s_tasks (maybe_pause high s) = s_tasks s /\
  s_calls (maybe_pause high s) = s_calls s /\ s_done (maybe_pause high s) = s_done s.
Proof. unfold maybe_pause. destruct (_ <=? _)%nat; [auto 6|]. destruct (s_paused s) eqn:P; repeat split. Qed.

Lemma maybe_resume_same s :
  s_lost (maybe_resume low s) = s_lost s /\ s_buffer (maybe_resume low s) = s_buffer s /\
  s_wire (maybe_resume low s) = s_wire s /\ s_tasks (maybe_resume low s) = s_tasks s /\
  s_calls (maybe_resume low s) = s_calls s /\ s_done (maybe_resume low s) = s_done s.
Proof. unfold maybe_resume. destruct (_ && _)%nat; repeat split. Qed.

Lemma write_same k d s :
  s_lost (transport_write high k d s) = s_lost s /\ s_tasks (transport_write high k d s) = s_tasks s /\
  s_calls (transport_write high k d s) = s_calls s /\ s_done (transport_write high k d s) = s_done s /\
  (s_lost s = false -> s_wire (transport_write high k d s) ++ s_buffer (transport_write high k d s)
                       = (s_wire s ++ s_buffer s) ++ d) /\
  (s_lost s = true -> transport_write high k d s = s).
Proof.
  unfold transport_write. destruct d as [|c d]; [rewrite app_nil_r; auto 10|].
  destruct (s_lost s) eqn:L; [repeat split; auto; discriminate|].
  destruct (s_buffer s) as [|b bs] eqn:B.
  - destruct (skipn k (c :: d)) as [|r rs] eqn:K.
    + cbn. rewrite !app_nil_r. repeat split; auto. discriminate.
    + destruct (maybe_pause_same (set_bytes (r :: rs) (s_wire s ++ firstn k (c :: d)) s)) as (E1 & E2 & E3 & E4 & E5 & E6).
      rewrite E1, E2, E3, E4, E5, E6. cbn [set_bytes s_lost s_buffer s_wire s_tasks s_calls s_done].
      repeat split; auto; [|congruence]. intros _. rewrite app_nil_r, <- app_assoc, <- K, firstn_skipn. reflexivity.
  - destruct (maybe_pause_same (set_bytes ((b :: bs) ++ c :: d) (s_wire s) s)) as (E1 & E2 & E3 & E4 & E5 & E6).
    rewrite E1, E2, E3, E4, E5, E6. cbn [set_bytes s_lost s_buffer s_wire s_tasks s_calls s_done].
    repeat split; auto; [|congruence]. intros _. rewrite <- !app_assoc. reflexivity.
Qed.

(** ** Nothing is written while paused *)

Theorem paused_no_write s e s' :
  flow s -> s_paused s = true -> sstep s e = Some s' -> handed (s_done s') = handed (s_done s).
Proof.
  intros F P S. assert (L : s_lock s = true) by (rewrite (f_lock s F); exact P).
  destruct e as [i m k|i k|i|k|]; cbn [Sender.sstep] in S.
  - destruct (nth_error _ _) as [[|]|]; try discriminate.
    destruct (msg_bytes m); injection S as <-.
    + unfold try_write. cbn [log_call s_lock]. rewrite L. reflexivity.
    + cbn. unfold handed. rewrite filter_snoc. cbn. rewrite app_nil_r. reflexivity.
  - destruct (nth_error _ _) as [[|]|]; try discriminate. injection S as <-. unfold try_write. rewrite L. reflexivity.
  - destruct (nth_error _ _) as [[|]|]; try discriminate. injection S as <-. cbn. unfold handed.
    rewrite filter_snoc. cbn. rewrite app_nil_r. reflexivity.
  - destruct (s_lost s); [discriminate|]. destruct (s_buffer s) as [|b bs]; [discriminate|].
    destruct (_ && _); [|discriminate]. injection S as <-.
    destruct (maybe_resume_same (set_bytes (skipn k (b :: bs)) (s_wire s ++ firstn k (b :: bs)) s)) as (_ & _ & _ & _ & _ & ->).
    reflexivity.
  - destruct (s_lost s); [discriminate|]. injection S as <-. reflexivity.
Qed.

(** ** Bytes *)

Lemma written_snoc d x : written (d ++ [x]) = written d ++ (if is_written (snd x) then msg_str (snd (fst x)) else []).
Proof.
  unfold written. rewrite filter_snoc. destruct (is_written (snd x)).
  - rewrite map_app, concat_app. cbn. rewrite app_nil_r. reflexivity.
  - rewrite !app_nil_r. reflexivity.
Qed.

Definition asleep_ok (s : sstate) : Prop :=
  forall i m d, nth_error (s_tasks s) i = Some (SSleep m d) -> d = msg_str m.

Record bytes (s : sstate) : Prop := {
  b_live : s_lost s = false -> s_wire s ++ s_buffer s = written (s_done s);
  b_all : exists rest, s_wire s ++ rest = written (s_done s);
  b_sleep : asleep_ok s;
}.

Lemma asleep_set i t s l :
  asleep_ok s -> (forall m d, t = SSleep m d -> d = msg_str m) -> s_tasks l = setnth i t (s_tasks s) -> asleep_ok l.
Proof.
  intros H T E j m d X. rewrite E in X. destruct (Nat.eq_dec i j) as [<-|N].
  - destruct (Nat.lt_ge_cases i (length (s_tasks s))) as [L|L].
    + rewrite setnth_same in X by exact L. apply T. congruence.
    + assert (Y : nth_error (setnth i t (s_tasks s)) i = None) by (apply nth_error_None; rewrite setnth_length; exact L).
      congruence.
  - rewrite setnth_other in X by exact N. eapply H; eauto.
Qed.

Lemma try_write_bytes i k m s : bytes s -> bytes (try_write high i k m (msg_str m) s).
Proof.
  intros [A B C]. unfold try_write. destruct (s_lock s).
  - constructor; cbn; auto. eapply asleep_set; [exact C| |reflexivity]. intros ? ? E. injection E as <- <-. reflexivity.
  - destruct (write_same k (msg_str m) s) as (E1 & E2 & E3 & E4 & E5 & E6).
    destruct (s_lost s) eqn:L.
    + rewrite (E6 eq_refl). constructor; cbn [finish s_lost s_wire s_buffer s_done s_tasks].
      * congruence.
      * rewrite written_snoc. cbn. rewrite app_nil_r. exact B.
      * eapply asleep_set; [exact C| |reflexivity]. discriminate.
    + specialize (E5 eq_refl). constructor; cbn [finish s_lost s_wire s_buffer s_done s_tasks].
      * intros _. rewrite E4, written_snoc, E5, (A eq_refl). reflexivity.
      * rewrite E4, written_snoc. cbn [snd fst is_written]. rewrite <- (A eq_refl), <- E5. eauto.
      * eapply asleep_set; [exact C| |cbn; rewrite E2; reflexivity]. discriminate.
Qed.

Lemma bytes_log i m s : bytes s -> bytes (log_call i m s).
Proof. intros [A B C]. constructor; auto. Qed.

Lemma finish_bytes i m o s : is_written o = false -> bytes s -> bytes (finish i m o s).
Proof.
  intros N [A B C]. constructor; cbn [finish s_lost s_wire s_buffer s_done s_tasks].
  - intros L. rewrite written_snoc. cbn [snd]. rewrite N, app_nil_r. auto.
  - rewrite written_snoc. cbn [snd]. rewrite N, app_nil_r. auto.
  - eapply asleep_set; [exact C| |reflexivity]. discriminate.
Qed.

Lemma sstep_bytes s e s' : bytes s -> sstep s e = Some s' -> bytes s'.
Proof.
  intros H S. destruct e as [i m k|i k|i|k|]; cbn [Sender.sstep] in S.
  - destruct (nth_error _ _) as [[|]|]; try discriminate.
    destruct (msg_bytes m) as [d|x] eqn:Eb; injection S as <-.
    + apply bytes_str in Eb. subst. apply try_write_bytes, bytes_log, H.
    + apply finish_bytes; [reflexivity|]. apply bytes_log, H.
  - destruct (nth_error _ _) as [[|m d]|] eqn:T; try discriminate. injection S as <-.
    rewrite (b_sleep s H _ _ _ T). apply try_write_bytes, H.
  - destruct (nth_error _ _) as [[|]|]; try discriminate. injection S as <-. apply finish_bytes; [reflexivity|exact H].
  - destruct (s_lost s) eqn:L; [discriminate|]. destruct (s_buffer s) as [|b bs] eqn:B; [discriminate|].
    destruct (_ && _); [|discriminate]. injection S as <-.
    destruct (maybe_resume_same (set_bytes (skipn k (b :: bs)) (s_wire s ++ firstn k (b :: bs)) s)) as (E1 & E2 & E3 & E4 & E5 & E6).
    pose proof (b_live s H L) as A. rewrite B in A.
    assert (X : (s_wire s ++ firstn k (b :: bs)) ++ skipn k (b :: bs) = written (s_done s))
      by (rewrite <- app_assoc, firstn_skipn; exact A).
    constructor.
    + intros _. rewrite E2, E3, E6. exact X.
    + rewrite E3, E6. eexists. exact X.
    + intros j m d Hj. rewrite E4 in Hj. eapply (b_sleep s H); exact Hj.
  - destruct (s_lost s) eqn:L; [discriminate|]. injection S as <-. constructor; cbn.
    + discriminate.
    + apply (b_all s H).
    + intros j m d Hj. eapply (b_sleep s H); exact Hj.
Qed.

Lemma asleep_init n : asleep_ok (sinit n).
Proof. intros i m d H. cbn in H. apply nth_error_In, repeat_spec in H. discriminate. Qed.

Theorem bytes_reachable n es s : srun (sinit n) es = Some s -> bytes s.
Proof.
  apply srun_ind; [|apply sstep_bytes]. constructor; try reflexivity.
  - exists []. reflexivity.
  - apply asleep_init.
Qed.

(** ** Every call has exactly one outcome, in the caller's order *)

Definition of_task {A} (key : A -> nat) (i : nat) (l : list A) : list A := filter (fun x => Nat.eqb (key x) i) l.

Definition pending (s : sstate) (i : nat) : list (nat * msg) :=
  match nth_error (s_tasks s) i with Some (SSleep m _) => [(i, m)] | _ => [] end.

Definition calls_ok (s : sstate) : Prop :=
  forall i, of_task fst i (s_calls s)
            = map fst (of_task (fun x => fst (fst x)) i (s_done s)) ++ pending s i.

Lemma of_task_snoc {A} (key : A -> nat) i l x :
  of_task key i (l ++ [x]) = of_task key i l ++ (if Nat.eqb (key x) i then [x] else []).
Proof. unfold of_task. rewrite filter_snoc. reflexivity. Qed.

Lemma pending_same s s' i j t :
  s_tasks s' = setnth i t (s_tasks s) -> i <> j -> pending s' j = pending s j.
Proof. intros E N. unfold pending. rewrite E, setnth_other by exact N. reflexivity. Qed.

Lemma finish_calls i m d o s s0 :
  calls_ok s -> nth_error (s_tasks s) i = Some (SSleep m d) ->
  s_calls s0 = s_calls s -> s_done s0 = s_done s -> s_tasks s0 = s_tasks s ->
  calls_ok (finish i m o s0).
Proof.
  intros H T E1 E2 E3 j. cbn [finish s_calls s_done]. rewrite E1, E2, of_task_snoc, map_app. specialize (H j).
  assert (L : (i < length (s_tasks s))%nat) by (apply nth_error_Some; congruence).
  cbn [fst]. destruct (Nat.eqb_spec i j) as [<-|N].
  - rewrite H. unfold pending. rewrite T. cbn [finish s_tasks]. rewrite E3, setnth_same by exact L.
    rewrite app_nil_r. reflexivity.
  - rewrite H. cbn. rewrite app_nil_r. f_equal. symmetry.
    apply (pending_same s _ i j SIdle); [cbn; rewrite E3; reflexivity|exact N].
Qed.

(** A sender about to test the lock counts as asleep with its message. *)
Lemma try_write_calls i k m d s :
  calls_ok (set_task i (SSleep m d) s) -> (i < length (s_tasks s))%nat ->
  calls_ok (try_write high i k m d s).
Proof.
  intros H L. unfold try_write. destruct (s_lock s); [exact H|].
  destruct (write_same k d s) as (E1 & E2 & E3 & E4 & _).
  intros j. cbn [finish s_calls s_done]. rewrite E3, E4, of_task_snoc, map_app. specialize (H j).
  cbn [set_task s_calls s_done] in H. rewrite H. unfold pending. cbn [set_task s_tasks finish fst]. rewrite E2.
  destruct (Nat.eqb_spec i j) as [<-|N].
  - rewrite !setnth_same by exact L. cbn. rewrite app_nil_r. reflexivity.
  - rewrite !setnth_other by exact N. cbn. rewrite app_nil_r. reflexivity.
Qed.

Lemma setnth_id {A} i (x : A) l : nth_error l i = Some x -> setnth i x l = l.
Proof.
  revert i. induction l as [|y l IH]; intros [|i] H; cbn in *; try discriminate; [congruence|].
  f_equal. apply IH, H.
Qed.

Lemma call_ok i m d s :
  calls_ok s -> nth_error (s_tasks s) i = Some SIdle ->
  calls_ok (set_task i (SSleep m d) (log_call i m s)).
Proof.
  intros H T j. assert (L : (i < length (s_tasks s))%nat) by (apply nth_error_Some; congruence).
  cbn [set_task log_call s_calls s_done]. rewrite of_task_snoc. specialize (H j). rewrite H. unfold pending.
  cbn [set_task log_call s_tasks fst]. destruct (Nat.eqb_spec i j) as [<-|N].
  - rewrite T, setnth_same by exact L. rewrite app_nil_r. reflexivity.
  - rewrite setnth_other by exact N. rewrite app_nil_r. reflexivity.
Qed.

Lemma sstep_calls s e s' : calls_ok s -> sstep s e = Some s' -> calls_ok s'.
Proof.
  intros H S. destruct e as [i m k|i k|i|k|]; cbn [Sender.sstep] in S.
  - destruct (nth_error _ _) as [[|]|] eqn:T; try discriminate.
    assert (L : (i < length (s_tasks s))%nat) by (apply nth_error_Some; congruence).
    destruct (msg_bytes m) as [d|x] eqn:Eb; injection S as <-.
    + apply try_write_calls; [apply call_ok; assumption|exact L].
    + pose proof (call_ok i m [] s H T) as C.
      intros j. specialize (C j). cbn [finish log_call set_task s_calls s_done] in *. rewrite C.
      rewrite of_task_snoc, map_app. unfold pending. cbn [finish log_call set_task s_tasks fst].
      destruct (Nat.eqb_spec i j) as [<-|N].
      * rewrite !setnth_same by exact L. rewrite app_nil_r. reflexivity.
      * rewrite !setnth_other by exact N. cbn. rewrite app_nil_r. reflexivity.
  - destruct (nth_error _ _) as [[|m d]|] eqn:T; try discriminate. injection S as <-.
    apply try_write_calls; [|apply nth_error_Some; congruence].
    intros j. specialize (H j). cbn [set_task s_calls s_done]. rewrite H. f_equal. unfold pending.
    cbn [set_task s_tasks]. rewrite (setnth_id _ _ _ T). reflexivity.
  - destruct (nth_error _ _) as [[|m d]|] eqn:T; try discriminate. injection S as <-.
    eapply finish_calls; eauto.
  - destruct (s_lost s) eqn:Lo; [discriminate|]. destruct (s_buffer s) as [|b bs] eqn:B; [discriminate|].
    destruct (_ && _); [|discriminate]. injection S as <-.
    destruct (maybe_resume_same (set_bytes (skipn k (b :: bs)) (s_wire s ++ firstn k (b :: bs)) s)) as (E1 & E2 & E3 & E4 & E5 & E6).
    intros j. specialize (H j). rewrite E5, E6. unfold pending. rewrite E4. exact H.
  - destruct (s_lost s) eqn:Lo; [discriminate|]. injection S as <-. exact H.
Qed.

Theorem calls_reachable n es s : srun (sinit n) es = Some s -> calls_ok s.
Proof.
  apply srun_ind; [|apply sstep_calls]. intros i. cbn. unfold pending. cbn.
  destruct (nth_error (repeat SIdle n) i) as [[|]|] eqn:E; try reflexivity.
  apply nth_error_In, repeat_spec in E. discriminate.
Qed.

(** A call raises exactly when the message cannot be encoded. *)
Definition raised_ok (s : sstate) : Prop :=
  (forall i m e, In (i, m, ORaised e) (s_done s) -> msg_bytes m = Err e) /\
  (forall i m o, In (i, m, o) (s_done s) -> is_handed o = true -> msg_bytes m = Ok (msg_str m)) /\
  (forall i m d, nth_error (s_tasks s) i = Some (SSleep m d) -> msg_bytes m = Ok (msg_str m)).

Lemma raised_finish i m o s s0 :
  raised_ok s -> s_done s0 = s_done s -> s_tasks s0 = s_tasks s ->
  (forall e, o = ORaised e -> msg_bytes m = Err e) -> (is_handed o = true -> msg_bytes m = Ok (msg_str m)) ->
  raised_ok (finish i m o s0).
Proof.
  intros (A & B & C) E1 E2 H1 H2. repeat split; cbn [finish s_done s_tasks]; rewrite ?E1, ?E2.
  - intros j m' e X. apply in_app_or in X as [X|[X|[]]]; [eauto|]. injection X as <- <- ->. auto.
  - intros j m' o' X. apply in_app_or in X as [X|[X|[]]]; [eauto|]. injection X as <- <- ->. auto.
  - intros j m' d X. destruct (Nat.eq_dec i j) as [<-|N].
    + destruct (Nat.lt_ge_cases i (length (s_tasks s))) as [L|L].
      * rewrite setnth_same in X by exact L. discriminate.
      * assert (Y : nth_error (setnth i SIdle (s_tasks s)) i = None) by (apply nth_error_None; rewrite setnth_length; exact L).
        congruence.
    + rewrite setnth_other in X by exact N. eauto.
Qed.

Lemma raised_try i k m d s :
  raised_ok s -> msg_bytes m = Ok (msg_str m) -> raised_ok (try_write high i k m d s).
Proof.
  intros R E. unfold try_write. destruct (s_lock s).
  - destruct R as (A & B & C). repeat split; cbn [set_task s_done s_tasks]; eauto.
    intros j m' d' X. destruct (Nat.eq_dec i j) as [<-|N].
    + destruct (Nat.lt_ge_cases i (length (s_tasks s))) as [L|L].
      * rewrite setnth_same in X by exact L. injection X as <- <-. exact E.
      * assert (Y : nth_error (setnth i (SSleep m d) (s_tasks s)) i = None) by (apply nth_error_None; rewrite setnth_length; exact L).
        congruence.
    + rewrite setnth_other in X by exact N. eauto.
  - destruct (write_same k d s) as (_ & E2 & _ & E4 & _).
    eapply raised_finish; eauto. intros e X. destruct (s_lost s); discriminate.
Qed.

Lemma sstep_raised s e s' : raised_ok s -> sstep s e = Some s' -> raised_ok s'.
Proof.
  intros H S. destruct e as [i m k|i k|i|k|]; cbn [Sender.sstep] in S.
  - destruct (nth_error _ _) as [[|]|] eqn:T; try discriminate.
    destruct (msg_bytes m) as [d|x] eqn:Eb; injection S as <-.
    + apply raised_try; [exact H|]. rewrite Eb. f_equal. apply bytes_str, Eb.
    + eapply raised_finish; eauto; cbn; [congruence|discriminate].
  - destruct (nth_error _ _) as [[|m d]|] eqn:T; try discriminate. injection S as <-.
    apply raised_try; [exact H|]. destruct H as (_ & _ & H). eauto.
  - destruct (nth_error _ _) as [[|m d]|] eqn:T; try discriminate. injection S as <-.
    eapply raised_finish; eauto; discriminate.
  - destruct (s_lost s) eqn:Lo; [discriminate|]. destruct (s_buffer s) as [|b bs] eqn:B; [discriminate|].
    destruct (_ && _); [|discriminate]. injection S as <-.
    destruct (maybe_resume_same (set_bytes (skipn k (b :: bs)) (s_wire s ++ firstn k (b :: bs)) s)) as (E1 & E2 & E3 & E4 & E5 & E6).
    unfold raised_ok. rewrite E4, E6. exact H.
  - destruct (s_lost s) eqn:Lo; [discriminate|]. injection S as <-. exact H.
Qed.

Theorem raised_reachable n es s : srun (sinit n) es = Some s -> raised_ok s.
Proof.
  apply srun_ind; [|apply sstep_raised]. split; [intros ? ? ? []|]. split; [intros ? ? ? []|].
  intros i m d X. apply nth_error_In, repeat_spec in X. discriminate.
Qed.

(** ** Order *)

Definition total (s : sstate) : nat := length (concat (map (fun c => msg_str (snd c)) (s_calls s))).

Definition calm (s : sstate) : Prop :=
  (total s <= high)%nat ->
  s_lock s = false /\ s_paused s = false /\ map fst (s_done s) = s_calls s /\
  (length (s_buffer s) <= total s)%nat /\ (forall i t, nth_error (s_tasks s) i = Some t -> t = SIdle).

Lemma total_log i m s : total (log_call i m s) = (total s + length (msg_str m))%nat.
Proof. unfold total. cbn. rewrite map_app, concat_app, app_length. cbn. rewrite app_nil_r. reflexivity. Qed.

Lemma write_calm k d s :
  s_paused s = false -> s_lock s = false -> (length (s_buffer s) + length d <= high)%nat ->
  s_paused (transport_write high k d s) = false /\ s_lock (transport_write high k d s) = false /\
  (length (s_buffer (transport_write high k d s)) <= length (s_buffer s) + length d)%nat.
Proof.
  intros P L H. unfold transport_write. destruct d as [|c d]; [repeat split; auto; lia|].
  destruct (s_lost s); [repeat split; auto; lia|].
  assert (MP : forall s, (length (s_buffer s) <= high)%nat -> maybe_pause high s = s).
  { intros s0 X. unfold maybe_pause. apply Nat.leb_le in X. rewrite X. reflexivity. }
  destruct (s_buffer s) as [|b bs] eqn:B.
  - destruct (skipn k (c :: d)) as [|r rs] eqn:K; [cbn; repeat split; auto; lia|].
    assert (X : (length (r :: rs) <= length (c :: d))%nat) by (rewrite <- K, skipn_length; lia).
    rewrite MP by (cbn [set_bytes s_buffer]; cbn in *; lia). cbn [set_bytes s_buffer s_paused s_lock].
    repeat split; auto.
  - rewrite MP by (cbn [set_bytes s_buffer]; rewrite app_length; exact H). cbn [set_bytes s_buffer s_paused s_lock].
    repeat split; auto. rewrite app_length. lia.
Qed.

Lemma sstep_calm s e s' : calm s -> sstep s e = Some s' -> calm s'.
Proof.
  intros H S. destruct e as [i m k|i k|i|k|]; cbn [Sender.sstep] in S.
  - destruct (nth_error _ _) as [[|]|] eqn:T; try discriminate.
    destruct (msg_bytes m) as [d|x] eqn:Eb; injection S as <-; intros B.
    + apply bytes_str in Eb. subst.
      assert (X : (total s + length (msg_str m) <= high)%nat).
      { revert B. unfold try_write. cbn [log_call s_lock]. destruct (s_lock s).
        - unfold total at 1. cbn [set_task s_calls]. fold (total (log_call i m s)). rewrite total_log. lia.
        - unfold total at 1. cbn [finish s_calls].
          destruct (write_same k (msg_str m) (log_call i m s)) as (_ & _ & -> & _).
          fold (total (log_call i m s)). rewrite total_log. lia. }
      destruct (H ltac:(lia)) as (L & P & D & Bu & Ts).
      unfold try_write in *. cbn [log_call s_lock s_lost] in *. rewrite L in *.
      destruct (write_calm k (msg_str m) (log_call i m s)) as (W1 & W2 & W3); [exact P|exact L|cbn; lia|].
      destruct (write_same k (msg_str m) (log_call i m s)) as (E1 & E2 & E3 & E4 & _).
      cbn [finish s_lock s_paused s_done s_calls s_buffer s_tasks]. unfold total. cbn [finish s_calls]. rewrite E2, E3, E4.
      fold (total (log_call i m s)). rewrite total_log. cbn [log_call s_done s_calls s_tasks s_buffer] in *.
      rewrite map_app, D. cbn [map fst]. repeat split; auto; [lia|].
      intros j t Hj. destruct (Nat.eq_dec i j) as [<-|N].
      * rewrite setnth_same in Hj by (apply nth_error_Some; congruence). congruence.
      * rewrite setnth_other in Hj by exact N. eauto.
    + assert (X : (total s + length (msg_str m) <= high)%nat).
      { revert B. unfold total at 1. cbn [finish s_calls]. fold (total (log_call i m s)). rewrite total_log. lia. }
      destruct (H ltac:(lia)) as (L & P & D & Bu & Ts).
      cbn [finish log_call s_lock s_paused s_done s_calls s_buffer s_tasks]. unfold total. cbn [finish s_calls].
      fold (total (log_call i m s)). rewrite total_log. rewrite map_app, D. cbn [map fst]. repeat split; auto; [lia|].
      intros j t Hj. destruct (Nat.eq_dec i j) as [<-|N].
      * rewrite setnth_same in Hj by (apply nth_error_Some; congruence). congruence.
      * rewrite setnth_other in Hj by exact N. eauto.
  - destruct (nth_error _ _) as [[|m d]|] eqn:T; try discriminate. injection S as <-. intros B. exfalso.
    assert (X : (total s <= high)%nat).
    { revert B. unfold try_write. destruct (s_lock s); [auto|]. unfold total at 1. cbn [finish s_calls].
      destruct (write_same k d s) as (_ & _ & -> & _). auto. }
    destruct (H X) as (_ & _ & _ & _ & Ts). specialize (Ts _ _ T). discriminate.
  - destruct (nth_error _ _) as [[|m d]|] eqn:T; try discriminate. injection S as <-. intros B. exfalso.
    destruct (H B) as (_ & _ & _ & _ & Ts). specialize (Ts _ _ T). discriminate.
  - destruct (s_lost s) eqn:Lo; [discriminate|]. destruct (s_buffer s) as [|b bs] eqn:B; [discriminate|].
    destruct (_ && _); [|discriminate]. injection S as <-. intros X.
    assert (Y : maybe_resume low (set_bytes (skipn k (b :: bs)) (s_wire s ++ firstn k (b :: bs)) s)
                = set_bytes (skipn k (b :: bs)) (s_wire s ++ firstn k (b :: bs)) s \/ s_paused s = true).
    { unfold maybe_resume. cbn [set_bytes s_paused]. destruct (s_paused s); [auto|left; reflexivity]. }
    assert (Z : (total s <= high)%nat).
    { revert X. unfold total at 1.
      destruct (maybe_resume_same (set_bytes (skipn k (b :: bs)) (s_wire s ++ firstn k (b :: bs)) s)) as (_ & _ & _ & _ & -> & _).
      auto. }
    destruct (H Z) as (L & P & D & Bu & Ts). destruct Y as [Y|Y]; [|congruence]. rewrite Y in *.
    rewrite B in Bu. cbn [set_bytes s_lock s_paused s_done s_calls s_buffer s_tasks]. repeat split; auto.
    unfold total in *. cbn [set_bytes s_calls]. rewrite skipn_length. lia.
  - destruct (s_lost s) eqn:Lo; [discriminate|]. injection S as <-. intros X. destruct (H X) as (L & P & D & Bu & Ts).
    cbn. repeat split; auto. lia.
Qed.

Theorem calm_reachable n es s : srun (sinit n) es = Some s -> calm s.
Proof.
  apply srun_ind; [|apply sstep_calm]. intros _. cbn. repeat split; auto. intros i t H.
  apply nth_error_In, repeat_spec in H. exact H.
Qed.

(** ** A connection lost while paused *)

Definition stuck (s : sstate) : Prop := flow s /\ s_lost s = true /\ s_paused s = true.

Lemma stuck_step s e s' : stuck s -> sstep s e = Some s' -> stuck s' /\ handed (s_done s') = handed (s_done s).
Proof.
  intros (F & L & P) S. split; [|eapply paused_no_write; eauto].
  split; [eapply sstep_flow; eauto|]. assert (K : s_lock s = true) by (rewrite (f_lock s F); exact P).
  destruct e as [i m k|i k|i|k|]; cbn [Sender.sstep] in S.
  - destruct (nth_error _ _) as [[|]|]; try discriminate.
    destruct (msg_bytes m); injection S as <-; [|auto]. unfold try_write. cbn [log_call s_lock]. rewrite K. auto.
  - destruct (nth_error _ _) as [[|]|]; try discriminate. injection S as <-. unfold try_write. rewrite K. auto.
  - destruct (nth_error _ _) as [[|]|]; try discriminate. injection S as <-. auto.
  - rewrite L in S. discriminate.
  - rewrite L in S. discriminate.
Qed.

Theorem stuck_forever n es s es' s' :
  srun (sinit n) es = Some s -> s_lost s = true -> s_paused s = true ->
  srun s es' = Some s' -> s_paused s' = true /\ handed (s_done s') = handed (s_done s).
Proof.
  intros R L P. assert (St : stuck s) by (repeat split; auto; eapply flow_reachable; eauto). clear R L P.
  revert s St. induction es' as [|e es' IH]; cbn [Sender.srun]; intros s St R.
  - injection R as <-. split; [apply St|reflexivity].
  - destruct (sstep s e) as [s1|] eqn:S; [|discriminate]. destruct (stuck_step _ _ _ St S) as [St1 E1].
    destruct (IH s1 St1 R) as [A B]. split; [exact A|congruence].
Qed.

(** ** Schedules that pause the transport *)

Definition big (n : nat) : msg := MGeneric [repeat 49%N n].

Lemma big_bytes n : msg_bytes (big n) = Ok (msg_str (big n)).
Proof.
  apply encode_ok. unfold big. cbn [msg_str join]. apply Forall_app. split; [constructor; [right; reflexivity|constructor]|].
  apply Forall_app. split.
  - induction n; cbn; constructor; [|exact IHn]. left. left. unfold digitchar. lia.
  - repeat constructor; left; right; reflexivity.
Qed.

Lemma big_length n : length (msg_str (big n)) = (n + 3)%nat.
Proof. unfold big. cbn [msg_str join]. rewrite !app_length, repeat_length. cbn. lia. Qed.

Lemma big_cons n : exists c r, msg_str (big n) = c :: r.
Proof. eexists. eexists. unfold big. cbn [msg_str join app]. reflexivity. Qed.

Definition paused_state : sstate :=
  {| s_lock := true; s_paused := true; s_lost := false; s_buffer := msg_str (big high); s_wire := [];
     s_tasks := [SIdle; SIdle]; s_calls := [(0%nat, big high)]; s_done := [(0%nat, big high, OWritten)];
     s_blocked := false; s_error := false |}.

Lemma pause_reachable : srun (sinit 2) [ESend 0 (big high) 0] = Some paused_state.
Proof.
  unfold Sender.srun, Sender.sstep. cbn [sinit s_tasks repeat nth_error]. rewrite big_bytes.
  unfold try_write. cbn [log_call s_lock sinit s_lost]. unfold transport_write.
  pose proof (big_length high) as L. destruct (big_cons high) as (c & r & E). rewrite E in *.
  cbn [skipn firstn s_buffer log_call sinit s_lost s_wire app]. unfold maybe_pause. cbn [set_bytes s_buffer s_paused log_call sinit].
  assert (X : (length (c :: r) <=? high)%nat = false) by (apply Nat.leb_gt; lia). rewrite X.
  unfold paused_state. rewrite E. reflexivity.
Qed.

(** Two senders: the first call made after the transport resumes overtakes the
    call that was waiting. *)
Theorem overtaking a b :
  msg_bytes a = Ok (msg_str a) -> msg_bytes b = Ok (msg_str b) ->
  exists es s, srun (sinit 2) es = Some s /\
    s_calls s = [(0%nat, big high); (1%nat, a); (0%nat, b)] /\
    s_done s = [(0%nat, big high, OWritten); (0%nat, b, OWritten); (1%nat, a, OWritten)].
Proof.
  intros Ha Hb.
  exists [ESend 0 (big high) 0; ESend 1 a 0; EDrain (length (msg_str (big high))); ESend 0 b (length (msg_str b)); EWake 1 (length (msg_str a))].
  assert (W : forall d k s, s_lost s = false -> s_buffer s = [] -> d <> [] -> k = length d ->
              transport_write high k d s = set_bytes [] (s_wire s ++ d) s).
  { intros d k s L B N ->. unfold transport_write. destruct d; [congruence|]. rewrite L, B, skipn_all. reflexivity. }
  assert (P1 : sstep (sinit 2) (ESend 0 (big high) 0) = Some paused_state).
  { pose proof pause_reachable as P. cbn [Sender.srun] in P. destruct (sstep _ _); [congruence|discriminate]. }
  cbn [Sender.srun]. rewrite P1.
  unfold Sender.sstep at 1. cbn [paused_state s_tasks nth_error]. rewrite Ha.
  unfold try_write at 1. cbn [log_call s_lock paused_state].
  set (s2 := set_task 1 (SSleep a (msg_str a)) (log_call 1 a paused_state)).
  assert (P2 : sstep s2 (EDrain (length (msg_str (big high)))) =
               Some (resume_writing (set_paused false (set_bytes [] (msg_str (big high)) s2)))).
  { unfold Sender.sstep, s2. cbn [set_task log_call s_lost s_buffer paused_state s_wire].
    destruct (big_cons high) as (c & r & E). rewrite E. rewrite Nat.leb_refl. cbn [length Nat.eqb negb andb].
    change (S (length r)) with (length (c :: r)). rewrite skipn_all, firstn_all. reflexivity. }
  rewrite P2. unfold Sender.sstep at 1. unfold s2. cbn [resume_writing set_paused set_bytes set_task log_call paused_state s_tasks setnth nth_error].
  rewrite Hb. unfold try_write at 1. cbn [log_call s_lock s_lost resume_writing set_paused set_bytes set_task paused_state].
  rewrite W; [|reflexivity|reflexivity|apply str_not_nil|reflexivity].
  unfold Sender.sstep. cbn [finish resume_writing set_paused set_bytes set_task log_call paused_state s_tasks setnth nth_error].
  unfold try_write at 1. cbn [finish log_call s_lock s_lost resume_writing set_paused set_bytes set_task paused_state].
  rewrite W; [|reflexivity|reflexivity|apply str_not_nil|reflexivity].
  eexists. split; [reflexivity|]. split; reflexivity.
Qed.

Theorem stuck_reachable m :
  msg_bytes m = Ok (msg_str m) ->
  exists es s, srun (sinit 2) es = Some s /\ s_lost s = true /\ s_paused s = true /\
               nth_error (s_tasks s) 1 = Some (SSleep m (msg_str m)).
Proof.
  intros Hm. exists [ESend 0 (big high) 0; ESend 1 m 0; ELost].
  assert (P1 : sstep (sinit 2) (ESend 0 (big high) 0) = Some paused_state).
  { pose proof pause_reachable as P. cbn [Sender.srun] in P. destruct (sstep _ _); [congruence|discriminate]. }
  cbn [Sender.srun]. rewrite P1. unfold Sender.sstep at 1. cbn [paused_state s_tasks nth_error]. rewrite Hm.
  unfold try_write at 1. cbn [log_call s_lock paused_state]. unfold Sender.sstep.
  cbn [set_task log_call s_lost paused_state]. eexists. split; [reflexivity|]. repeat split.
Qed.
End water.

(** ** Sending after the connection is lost *)

Theorem lost_send_returns high low s i m k :
  s_lost s = true -> s_lock s = false -> nth_error (s_tasks s) i = Some SIdle ->
  msg_bytes m = Ok (msg_str m) ->
  exists s', sstep high low s (ESend i m k) = Some s' /\
    s_done s' = s_done s ++ [(i, m, ODropped)] /\ s_wire s' = s_wire s.
Proof.
  intros L K T E. cbn [sstep]. rewrite T, E. eexists. split; [reflexivity|].
  unfold try_write. cbn [log_call s_lock s_lost]. rewrite K, L.
  destruct (write_same high k (msg_str m) (log_call i m s)) as (_ & _ & _ & _ & _ & W).
  rewrite (W L). split; reflexivity.
Qed.

Lemma lost_wire_step high low s e s' : s_lost s = true -> sstep high low s e = Some s' -> s_lost s' = true /\ s_wire s' = s_wire s.
Proof.
  intros L S.
  assert (T : forall i k m d s0, s_lost s0 = true -> s_lost (try_write high i k m d s0) = true /\ s_wire (try_write high i k m d s0) = s_wire s0).
  { intros i k m d s0 L0. unfold try_write. destruct (s_lock s0); [auto|].
    destruct (write_same high k d s0) as (_ & _ & _ & _ & _ & W). rewrite (W L0). auto. }
  destruct e as [i m k|i k|i|k|]; cbn [sstep] in S.
  - destruct (nth_error _ _) as [[|]|]; try discriminate. destruct (msg_bytes m) as [dd|]; injection S as <-; [|auto].
    apply (T i k m dd (log_call i m s)). exact L.
  - destruct (nth_error _ _) as [[|]|]; try discriminate. injection S as <-. apply T, L.
  - destruct (nth_error _ _) as [[|]|]; try discriminate. injection S as <-. auto.
  - rewrite L in S. discriminate.
  - rewrite L in S. discriminate.
Qed.

Theorem lost_wire high low s es s' : s_lost s = true -> srun high low s es = Some s' -> s_wire s' = s_wire s.
Proof.
  revert s. induction es as [|e es IH]; cbn [srun]; intros s L R; [injection R as <-; reflexivity|].
  destruct (sstep high low s e) as [s1|] eqn:S; [|discriminate].
  destruct (lost_wire_step _ _ _ _ _ L S) as [L1 E1]. rewrite <- E1. apply IH; assumption.
Qed.

Theorem raises_only high low n es s i m e :
  srun high low (sinit n) es = Some s -> In (i, m, ORaised e) (s_done s) -> msg_bytes m = Err e /\ ~ built m.
Proof.
  intros R H. destruct (raised_reachable high low n es s R) as (A & _). specialize (A _ _ _ H). split; [exact A|].
  intros B. destruct (bytes_ok m B) as (E & _). congruence.
Qed.
