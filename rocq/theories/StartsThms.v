(** * Proofs about overlapping start() calls *)
From Coq Require Import String List NArith ZArith Bool Lia.
From Verif Require Import PyStr Tags Messages AuthOpen AuthHmac IO Client Queue QueueThms Starts SpecStarts.
Import ListNotations.
Open Scope N_scope.
Open Scope list_scope.

Lemma some_inj {A} (x y : A) : Some x = Some y -> x = y.
Proof. congruence. Qed.
Local Ltac got E := apply some_inj in E; match type of E with _ = ?v => subst v end.

(** ** The program is the handshake of Client.v *)

Lemma plift_run {A} (r : res A) k s : run_prog (plift r k) s = match r with Ok a => run_prog (k a) s | Err e => ([], s, Err e) end.
Proof. destruct r; reflexivity. Qed.

Lemma prog_handshake C c pw rnd s : cl_proto c = true -> run_prog (start_prog C (cl_session c) pw rnd) s = handshake C c pw rnd s.
Proof.
  intros P. destruct c as [ty pr]. cbn in P. subst pr.
  assert (SEND : forall (m : msg) k (h : io Empty_set unit) s, (forall s, run_prog k s = h s) ->
    run_prog (PSend m k) s = andthen (client_send {| cl_session := ty; cl_proto := true |} true m) (fun _ => h) s).
  { intros m k h s0 H. cbn [run_prog]. unfold andthen, client_send. cbn [cl_proto cl_session is_cmd_session]. rewrite andb_false_r. cbn [negb]. unfold lift, put, andthen.
    destruct (msg_bytes m); cbn; [rewrite H; destruct (h s0) as [[es s1] r]; reflexivity|reflexivity]. }
  assert (READ : forall k (h : msg -> io Empty_set unit) s, (forall m s, run_prog (k m) s = h m s) ->
    run_prog (PRead k) s = andthen (client_read {| cl_session := ty; cl_proto := true |}) h s).
  { intros k h s0 H. cbn [run_prog]. unfold andthen, client_read, take. cbn [cl_proto negb].
    destruct s0 as [|[m|] s0]; try reflexivity. rewrite H. destruct (h m s0) as [[es s1] r]; reflexivity. }
  assert (LIFT : forall A (r : res A) k (h : A -> io Empty_set unit) s, (forall a s, run_prog (k a) s = h a s) ->
    run_prog (plift r k) s = andthen (lift r) h s).
  { intros A r k h s0 H. rewrite plift_run. unfold andthen, lift. destruct r; [rewrite H; destruct (h a s0) as [[es s1] r]; reflexivity|reflexivity]. }
  unfold start_prog, handshake. cbn [cl_session].
  apply READ. clear s. intros m s. destruct (mtype_eqb (msg_type m) T_ACK); cbn [negb]; [|reflexivity].
  apply LIFT. clear s. intros sm s. apply SEND. clear s. intros s. apply READ. clear s. intros resp s.
  destruct (mtype_eqb (msg_type resp) T_ACK); [reflexivity|]. destruct (length (msg_tags resp) =? 1)%nat.
  - unfold ptag, tag_at. apply LIFT. clear s. intros nonce s. unfold open_prog, auth_open. apply LIFT. clear s. intros enc s. apply SEND. clear s. intros s. apply READ.
    clear s. intros r2 s. destruct (mtype_eqb (msg_type r2) T_ACK); reflexivity.
  - unfold ptag, tag_at. apply LIFT. clear s. intros t0 s. destruct (str_eqb t0 (lit "98")); [|reflexivity]. apply LIFT. clear s. intros tag s.
    unfold hmac_prog, auth_hmac. destruct (alg_from_string tag) as [a|e]; [|apply SEND; reflexivity].
    apply SEND. clear s. intros s. apply READ. clear s. intros r1 s. unfold ptag, tag_at. apply LIFT. clear s. intros k s.
    cbv zeta. apply LIFT. clear s. intros _ s. apply LIFT. clear s. intros d1 s. apply LIFT. clear s. intros d2 s. apply SEND. clear s. intros s.
    apply READ. clear s. intros r2 s. destruct (mtype_eqb (msg_type r2) T_NACK); [reflexivity|].
    apply LIFT. clear s. intros t s. apply LIFT. clear s. intros h s. apply LIFT. clear s. intros b s.
    match goal with |- run_prog (if ?b then _ else _) s = _ => destruct b end; [reflexivity|].
    rewrite (SEND MAck (PEnd (Ok tt)) (ret tt) s (fun _ => eq_refl)).
    generalize (client_send (Y:=Empty_set) {| cl_session := ty; cl_proto := true |} true MAck). intros x. unfold andthen.
    destruct (x s) as [[es s1] [[]|e]]; [cbn; rewrite app_nil_r; reflexivity|reflexivity].
Qed.

(** ** How far a program has come *)

Definition onto {A} (es : list (ev Empty_set)) (x : list (ev Empty_set) * script * A) := match x with (es', s, r) => (es ++ es', s, r) end.

(** After the events [es] the program [p0] has become [p]. *)
Definition comes (p0 : prog) (es : list (ev Empty_set)) (p : prog) : Prop :=
  forall s, run_prog p0 (map Some (gots es) ++ s) = onto es (run_prog p s).

Lemma comes_refl p : comes p [] p.
Proof. intros s. cbn. destruct (run_prog p s) as [[es s1] r]. reflexivity. Qed.

Lemma comes_trans p es p1 es1 p2 : comes p es p1 -> comes p1 es1 p2 -> comes p (es ++ es1) p2.
Proof.
  intros A B s. rewrite gots_app, map_app, <- app_assoc, A, B. destruct (run_prog p2 s) as [[e s1] r]. cbn. rewrite app_assoc. reflexivity.
Qed.

Lemma comes_send m b k : msg_bytes m = Ok b -> comes (PSend m k) [Sent b] k.
Proof. intros E s. cbn. rewrite E. destruct (run_prog k s) as [[e s1] r]. reflexivity. Qed.
Lemma comes_read m k : comes (PRead k) [Got m] (k m).
Proof. intros s. cbn. destruct (run_prog (k m) s) as [[e s1] r]. reflexivity. Qed.
Lemma comes_bad m e k : msg_bytes m = Err e -> comes (PSend m k) [] (PEnd (Err e)).
Proof. intros E s. cbn. rewrite E. reflexivity. Qed.

Lemma on_conn_same f i l c : nth_error l i = Some c -> nth_error (on_conn f i l) i = Some (f c).
Proof. intros H. unfold on_conn. rewrite H. apply setnth_same. apply nth_error_Some. congruence. Qed.
Lemma on_conn_other f i j l : i <> j -> nth_error (on_conn f i l) j = nth_error l j.
Proof. intros H. unfold on_conn. destruct (nth_error l i); [apply setnth_other, H|reflexivity]. Qed.
Lemma on_conn_length f i l : length (on_conn f i l) = length l.
Proof. unfold on_conn. destruct (nth_error l i); [apply setnth_length|reflexivity]. Qed.

(** What a task does with the current connection until it waits. *)
Lemma go_spec t i p : forall cs c cs' x, nth_error cs i = Some c -> go t (Some i) p cs = (cs', x) ->
  exists c' es p', nth_error cs' i = Some c' /\ (forall j, j <> i -> nth_error cs' j = nth_error cs j) /\ length cs' = length cs /\
    n_given c' = n_given c ++ map (pair t) (sents es) /\ n_taken c' = n_taken c ++ map (pair t) (gots es) /\
    n_unread c = gots es ++ n_unread c' /\ n_open c' = n_open c /\ comes p es p' /\
    ((exists k, x = TWaits i k /\ p' = PRead k /\ n_unread c' = []) \/ (exists r, x = TEnded r /\ p' = PEnd r)).
Proof.
  induction p as [m k IH|k IH|r]; intros cs c cs' x N G; cbn [go] in G.
  - destruct (msg_bytes m) as [b|e] eqn:B.
    + destruct (IH _ (give t b c) _ _ (on_conn_same _ _ _ _ N) G) as (c' & es & p' & N' & O & L & Gi & Ta & Un & Op & Co & X).
      exists c', (Sent b :: es), p'. split; [exact N'|]. split; [intros j J; rewrite (O j J); apply on_conn_other; congruence|].
      split; [rewrite L; apply on_conn_length|]. split; [rewrite Gi; cbn; rewrite <- app_assoc; reflexivity|]. split; [exact Ta|]. split; [exact Un|]. split; [exact Op|].
      split; [|exact X]. apply (comes_trans _ [Sent b] k); [apply comes_send, B|exact Co].
    + injection G as <- <-. exists c, [], (PEnd (Err e)). cbn. rewrite !app_nil_r. repeat (split; [solve [auto]|]). split; [apply comes_bad, B|]. right. eauto.
  - rewrite N in G. destruct (n_unread c) as [|m q] eqn:U.
    + injection G as <- <-. exists c, [], (PRead k). cbn. rewrite !app_nil_r. repeat (split; [solve [auto]|]). split; [apply comes_refl|]. left. eauto.
    + destruct (IH m _ (pop t c) _ _ (on_conn_same _ _ _ _ N) G) as (c' & es & p' & N' & O & L & Gi & Ta & Un & Op & Co & X).
      unfold pop in *. rewrite U in *. cbn in Gi, Ta, Un, Op.
      exists c', (Got m :: es), p'. split; [exact N'|]. split; [intros j J; rewrite (O j J); apply on_conn_other; congruence|].
      split; [rewrite L; apply on_conn_length|]. split; [exact Gi|]. split; [rewrite Ta; cbn; rewrite <- app_assoc; reflexivity|]. split; [cbn; rewrite Un; reflexivity|]. split; [exact Op|].
      split; [|exact X]. apply (comes_trans _ [Got m] (k m)); [apply comes_read|exact Co].
  - injection G as <- <-. exists c, [], (PEnd r). cbn. rewrite !app_nil_r. repeat (split; [solve [auto]|]). split; [apply comes_refl|]. right. eauto.
Qed.

Section Run.
Context (C : crypto) (ty : session) (pw : str) (rnd : nat -> list N).
Local Notation sstep := (sstep C ty pw rnd).
Local Notation srun := (srun C ty pw rnd).

Lemma srun_app s a b : srun s (a ++ b) = match srun s a with Some s' => srun s' b | None => None end.
Proof. revert s. induction a as [|x a IH]; intros s; cbn; [reflexivity|]. destruct (sstep s x); auto. Qed.

(** ** One start() alone *)

(** Task [t] has the connection [i] to itself; [open]: the connection goes on. *)
Record alone (t i : nat) (s : starts) (heard : list msg) : Prop := {
  a_cur : s_current s = Some i;
  a_conn : exists c es p, nth_error (s_conns s) i = Some c /\ n_given c = map (pair t) (sents es) /\ n_taken c = map (pair t) (gots es) /\
    heard = gots es ++ n_unread c /\ comes (start_prog C ty pw (rnd t)) es p /\
    ((exists k, nth_error (s_calls s) t = Some (TWaits i k) /\ p = PRead k) \/
     (exists r, nth_error (s_calls s) t = Some (TEnded r) /\ p = PEnd r) \/
     (exists k x, nth_error (s_calls s) t = Some x /\ (x = TEnded (Err TimeoutError) \/ x = TCancelled) /\ p = PRead k)) }.

Lemma alone_start t s s' : sstep s (SConnect t) = Some s' -> alone t (length (s_conns s)) s' [] /\ (exists c, nth_error (s_conns s') (length (s_conns s)) = Some c /\ n_open c = true).
Proof.
  cbn [Starts.sstep]. destruct (nth_error (s_calls s) t) as [x|] eqn:T; [|discriminate]. destruct x; try discriminate. intros E. got E.
  set (i := length (s_conns s)).
  assert (N : nth_error (s_conns s ++ [new_conn]) i = Some new_conn) by (rewrite nth_error_app2, Nat.sub_diag by (unfold i; lia); reflexivity).
  destruct (go t (Some i) (start_prog C ty pw (rnd t)) (s_conns s ++ [new_conn])) as [cs x] eqn:G.
  destruct (go_spec t i _ _ _ _ _ N G) as (c' & es & p' & N' & O & L & Gi & Ta & Un & Op & Co & X). cbn in Gi, Ta, Un, Op.
  assert (Lt : (t < length (s_calls s))%nat) by (apply nth_error_Some; congruence).
  split; [|exists c'; split; [exact N'|exact Op]]. split; cbn [set_call s_conns s_current s_calls fst snd]; [reflexivity|].
  exists c', es, p'. split; [exact N'|]. split; [exact Gi|]. split; [exact Ta|]. split; [exact Un|]. split; [exact Co|].
  rewrite setnth_same by exact Lt. destruct X as [(k & -> & E & _)|(r & -> & E)]; [left|right; left]; eauto.
Qed.

Lemma alone_step t i s a s' heard : alone t i s heard -> quiet t a -> sstep s a = Some s' ->
  exists c c', nth_error (s_conns s) i = Some c /\ nth_error (s_conns s') i = Some c' /\
    n_open c' = (match a with SDrop j => if Nat.eqb j i then false else n_open c | _ => n_open c end) /\
    alone t i s' (heard ++ match a with SArrive j ms => if Nat.eqb j i && n_open c then ms else [] | _ => [] end).
Proof.
  intros [Cu (c & es & p & N & Gi & Ta & He & Co & St)] Q E. exists c.
  assert (SAME : forall t' x, nth_error (s_calls s) t' <> None ->
    (t' = t -> (x = TEnded (Err TimeoutError) \/ x = TCancelled) /\ exists k, p = PRead k) ->
    exists c', nth_error (s_conns s) i = Some c /\ nth_error (s_conns (set_call s t' (s_conns s, x))) i = Some c' /\ n_open c' = n_open c /\ alone t i (set_call s t' (s_conns s, x)) (heard ++ [])).
  { intros t' x T' H. exists c. cbn [set_call s_conns fst snd]. split; [exact N|]. split; [exact N|]. split; [reflexivity|]. rewrite app_nil_r. split; [exact Cu|].
    exists c, es, p. cbn [set_call s_conns s_calls fst snd]. repeat (split; [assumption|]). destruct (Nat.eq_dec t' t) as [->|D].
    - destruct (H eq_refl) as (X & k & K). right; right. exists k, x. split; [apply setnth_same, nth_error_Some, T'|]. auto.
    - rewrite setnth_other by exact D. exact St. }
  destruct a as [t'|t'|j ms|j|t'|t'|t'|]; cbn [quiet] in Q; try contradiction; cbn [Starts.sstep] in E.
  - destruct (nth_error (s_calls s) t') as [[]|] eqn:T; try discriminate. got E.
    apply SAME; [congruence|].
    intros ->. exfalso. destruct St as [(k & K & _)|[(r & K & _)|(k & x & K & [X|X] & _)]]; congruence.
  - got E. cbn [s_conns]. destruct (Nat.eqb_spec j i) as [->|D].
    + exists (hear ms c). rewrite (on_conn_same _ _ _ _ N). split; [exact N|]. split; [reflexivity|]. split; [unfold hear; destruct (n_open c) eqn:O; [reflexivity|exact O]|].
      split; [exact Cu|]. exists (hear ms c), es, p. cbn [s_conns s_calls]. rewrite (on_conn_same _ _ _ _ N). split; [reflexivity|].
      unfold hear. destruct (n_open c); cbn; rewrite ?app_nil_r; repeat (split; [assumption|]); [rewrite He, app_assoc|]; auto.
    + exists c. rewrite on_conn_other by exact D. split; [exact N|]. split; [exact N|]. split; [reflexivity|]. cbn. rewrite app_nil_r. split; [exact Cu|]. exists c, es, p. cbn [s_conns s_calls].
      rewrite on_conn_other by exact D. auto 10.
  - got E. cbn [s_conns]. rewrite app_nil_r. destruct (Nat.eqb_spec j i) as [->|D].
    + exists (hang_up c). rewrite (on_conn_same _ _ _ _ N). split; [exact N|]. split; [reflexivity|]. split; [reflexivity|]. split; [exact Cu|]. exists (hang_up c), es, p. cbn [s_conns s_calls].
      rewrite (on_conn_same _ _ _ _ N). auto 10.
    + exists c. rewrite on_conn_other by exact D. split; [exact N|]. split; [exact N|]. split; [reflexivity|]. split; [exact Cu|]. exists c, es, p. cbn [s_conns s_calls].
      rewrite on_conn_other by exact D. auto 10.
  - subst t'. destruct (nth_error (s_calls s) t) as [x|] eqn:T; [|discriminate]. destruct x as [|i' k| |]; try discriminate.
    assert (i' = i /\ p = PRead k) as [-> ->].
    { destruct St as [(k' & K & P)|[(r & K & P)|(k' & x & K & [X|X] & P)]]; try congruence. injection K as <- <-. auto. }
    rewrite N in E. destruct (n_unread c) as [|m q] eqn:U; [discriminate|]. got E. rewrite Cu.
    destruct (go t (Some i) (k m) (on_conn (pop t) i (s_conns s))) as [cs x] eqn:G.
    destruct (go_spec t i _ _ _ _ _ (on_conn_same _ _ _ _ N) G) as (c' & es' & p' & N' & O & L & Gi' & Ta' & Un & Op & Co' & X).
    unfold pop in *. rewrite U in *. cbn in Gi', Ta', Un, Op.
    exists c'. cbn [set_call s_conns fst]. split; [exact N|]. split; [exact N'|]. split; [exact Op|]. rewrite app_nil_r. split; [exact Cu|].
    exists c', (es ++ Got m :: es'), p'. cbn [set_call s_conns s_calls fst snd]. split; [exact N'|].
    split; [rewrite Gi', Gi, sents_app, map_app; reflexivity|]. split; [rewrite Ta', Ta, gots_app, map_app, <- app_assoc; reflexivity|].
    split; [rewrite He, gots_app, <- app_assoc; cbn; rewrite Un; reflexivity|].
    split; [apply (comes_trans _ es (PRead k)); [exact Co|apply (comes_trans _ [Got m] (k m)); [apply comes_read|exact Co']]|].
    rewrite setnth_same by (apply nth_error_Some; congruence). destruct X as [(k' & -> & E & _)|(r & -> & E)]; [left|right; left]; eauto.
  - destruct (nth_error (s_calls s) t') as [x|] eqn:T; [|discriminate]. destruct x as [|i' k| |]; try discriminate. got E.
    apply SAME; [congruence|]. intros ->. split; [auto|].
    destruct St as [(k' & K & P)|[(r & K & P)|(k' & x & K & [X|X] & P)]]; try congruence. eauto.
  - destruct (nth_error (s_calls s) t') as [x|] eqn:T; [|discriminate]. destruct x as [|i' k| |]; try discriminate; got E;
      (apply SAME; [congruence|]; intros ->; split; [auto|]);
      destruct St as [(k' & K & P)|[(r & K & P)|(k' & x & K & [X|X] & P)]]; try congruence; eauto.
Qed.

Lemma alone_run t i l : forall s s' heard c, alone t i s heard -> Forall (quiet t) l -> srun s l = Some s' -> nth_error (s_conns s) i = Some c ->
  alone t i s' (heard ++ if n_open c then arrived i l else []).
Proof.
  induction l as [|a l IH]; intros s s' heard c A Q R N.
  - injection R as <-. destruct (n_open c); rewrite app_nil_r; exact A.
  - inversion Q as [|? ? Qa Ql]; subst. cbn [Starts.srun] in R. destruct (sstep s a) as [s1|] eqn:E; [|discriminate].
    destruct (alone_step t i s a s1 heard A Qa E) as (c0 & c1 & N0 & N1 & Op & A1). rewrite N in N0. injection N0 as <-.
    specialize (IH s1 s' _ c1 A1 Ql R N1). rewrite <- app_assoc in IH.
    replace (if n_open c then arrived i (a :: l) else []) with
      (match a with SArrive j ms => if Nat.eqb j i && n_open c then ms else [] | _ => [] end ++ (if n_open c1 then arrived i l else [])); [exact IH|].
    rewrite Op. destruct a; cbn [arrived app]; try reflexivity.
    + destruct (Nat.eqb i0 i), (n_open c); reflexivity.
    + destruct (Nat.eqb i0 i), (n_open c); reflexivity.
Qed.

Lemma comes_end es r p0 : comes p0 es (PEnd r) -> run_prog p0 (map Some (gots es)) = (es, [], r).
Proof. intros H. specialize (H []). rewrite app_nil_r in H. rewrite H. cbn. rewrite app_nil_r. reflexivity. Qed.
Lemma comes_wait es k p0 : comes p0 es (PRead k) -> run_prog p0 (map Some (gots es)) = (es, [], Err TimeoutError).
Proof. intros H. specialize (H []). rewrite app_nil_r in H. rewrite H. cbn. rewrite app_nil_r. reflexivity. Qed.

(** ** Old connections *)

Definition current_last (s : starts) : Prop := match s_current s with Some i => S i = length (s_conns s) | None => True end.

Lemma go_none t p cs : exists x, go t None p cs = (cs, x) /\ ((exists r, p = PEnd r /\ x = TEnded r) \/ x = TEnded (Err InvalidSession)).
Proof. destruct p; cbn; eexists; (split; [reflexivity|]); eauto. Qed.

Lemma go_given t cur p cs j cj : nth_error cs j = Some cj ->
  exists cj', nth_error (fst (go t cur p cs)) j = Some cj' /\ (cur <> Some j -> cj' = cj).
Proof.
  intros N. destruct cur as [i|].
  - destruct (nth_error cs i) as [c|] eqn:I.
    + destruct (go t (Some i) p cs) as [cs' x] eqn:G. destruct (go_spec t i p cs c cs' x I G) as (c' & es & p' & N' & O & L & _). cbn [fst].
      destruct (Nat.eq_dec j i) as [->|D]; [exists c'; split; [exact N'|congruence]|]. exists cj. rewrite (O j D). auto.
    + exists cj. split; [|reflexivity]. clear -N I. revert cs N I. induction p as [m k IH|k IH|r]; intros cs N I; cbn [go].
      * destruct (msg_bytes m); [|exact N]. apply IH; unfold on_conn; rewrite I; assumption.
      * rewrite I. exact N.
      * exact N.
  - destruct (go_none t p cs) as (x & -> & _). exists cj. auto.
Qed.

Lemma go_length t cur p cs : length (fst (go t cur p cs)) = length cs.
Proof.
  revert cs. induction p as [m k IH|k IH|r]; intros cs; cbn [go]; [| |reflexivity].
  - destruct cur as [i|]; [|reflexivity]. destruct (msg_bytes m); [rewrite IH; apply on_conn_length|reflexivity].
  - destruct cur as [i|]; [|reflexivity]. destruct (nth_error cs i) as [c|]; [|reflexivity]. destruct (n_unread c); [reflexivity|]. rewrite IH. apply on_conn_length.
Qed.

Lemma last_step s a s' : current_last s -> sstep s a = Some s' ->
  current_last s' /\ (length (s_conns s) <= length (s_conns s'))%nat /\
  forall j c, nth_error (s_conns s) j = Some c -> s_current s <> Some j ->
    exists c', nth_error (s_conns s') j = Some c' /\ n_given c' = n_given c.
Proof.
  intros K E. unfold current_last in *.
  destruct a as [t|t|i ms|i|t|t|t|]; cbn [Starts.sstep] in E.
  - destruct (nth_error (s_calls s) t) as [[]|]; try discriminate. got E. cbn [set_call s_conns s_current s_calls fst snd]. rewrite go_length, app_length. cbn. split; [lia|]. split; [lia|].
    intros j c N D. assert (Lj : (j < length (s_conns s))%nat) by (apply nth_error_Some; congruence).
    destruct (go_given t (Some (length (s_conns s))) (start_prog C ty pw (rnd t)) (s_conns s ++ [new_conn]) j c) as (c' & N' & X); [rewrite nth_error_app1 by exact Lj; exact N|].
    exists c'. split; [exact N'|]. rewrite X; [reflexivity|]. intros Y. injection Y as Y. lia.
  - destruct (nth_error (s_calls s) t) as [[]|]; try discriminate. got E. cbn. split; [exact K|]. split; [lia|]. eauto.
  - got E. cbn. rewrite on_conn_length. split; [exact K|]. split; [lia|]. intros j c N _. destruct (Nat.eq_dec i j) as [->|D].
    + exists (hear ms c). rewrite (on_conn_same _ _ _ _ N). split; [reflexivity|]. unfold hear. destruct (n_open c); reflexivity.
    + exists c. rewrite on_conn_other by exact D. auto 10.
  - got E. cbn. rewrite on_conn_length. split; [exact K|]. split; [lia|]. intros j c N _. destruct (Nat.eq_dec i j) as [->|D].
    + exists (hang_up c). rewrite (on_conn_same _ _ _ _ N). auto.
    + exists c. rewrite on_conn_other by exact D. auto 10.
  - destruct (nth_error (s_calls s) t) as [x|]; [|discriminate]. destruct x as [|i k| |]; try discriminate.
    destruct (nth_error (s_conns s) i) as [ci|] eqn:I; [|discriminate]. destruct (n_unread ci) as [|m q] eqn:U; [discriminate|]. got E.
    cbn [set_call s_conns s_current s_calls fst snd]. rewrite go_length, on_conn_length. split; [exact K|]. split; [lia|]. intros j c N D.
    assert (exists c1, nth_error (on_conn (pop t) i (s_conns s)) j = Some c1 /\ n_given c1 = n_given c) as (c1 & N1 & G1).
    { destruct (Nat.eq_dec i j) as [->|Dj]; [|exists c; rewrite on_conn_other by exact Dj; auto]. exists (pop t c). rewrite (on_conn_same _ _ _ _ N). split; [reflexivity|].
      unfold pop. destruct (n_unread c); reflexivity. }
    destruct (go_given t (s_current s) (k m) _ j c1 N1) as (c' & N' & X). exists c'. split; [exact N'|]. rewrite (X D). exact G1.
  - destruct (nth_error (s_calls s) t) as [[]|]; try discriminate. got E. cbn. split; [exact K|]. split; [lia|]. eauto.
  - destruct (nth_error (s_calls s) t) as [[]|]; try discriminate; got E; cbn; (split; [exact K|]; split; [lia|]; eauto).
  - got E. cbn. split; [exact I|]. destruct (s_current s) as [i|] eqn:Cu; [|split; [lia|eauto]]. rewrite on_conn_length. split; [lia|].
    intros j c N D. exists c. rewrite on_conn_other by congruence. auto.
Qed.

Lemma last_run l : forall s s', current_last s -> srun s l = Some s' -> current_last s' /\ (length (s_conns s) <= length (s_conns s'))%nat /\
  forall j c, nth_error (s_conns s) j = Some c -> (s_current s <> Some j) ->
    exists c', nth_error (s_conns s') j = Some c' /\ n_given c' = n_given c.
Proof.
  induction l as [|a l IH]; intros s s' K R; [injection R as <-; split; [exact K|]; split; [lia|]; eauto|].
  cbn [Starts.srun] in R. destruct (sstep s a) as [s1|] eqn:E; [|discriminate]. destruct (last_step s a s1 K E) as (K1 & L1 & H1).
  destruct (IH s1 s' K1 R) as (K2 & L2 & H2). split; [exact K2|]. split; [lia|]. intros j c N D. destruct (H1 j c N D) as (c1 & N1 & G1).
  assert (D1 : s_current s1 <> Some j).
  { assert (Lj : (j < length (s_conns s))%nat) by (apply nth_error_Some; congruence). clear H1 H2 IH R.
    destruct a as [t|t|i ms|i|t|t|t|]; cbn [Starts.sstep] in E.
    - destruct (nth_error (s_calls s) t) as [[]|]; try discriminate. got E. cbn. intros Y. injection Y as Y. lia.
    - destruct (nth_error (s_calls s) t) as [[]|]; try discriminate. got E. exact D.
    - got E. exact D.
    - got E. exact D.
    - destruct (nth_error (s_calls s) t) as [x|]; [|discriminate]. destruct x as [|i k| |]; try discriminate.
      destruct (nth_error (s_conns s) i) as [ci|] eqn:I; [|discriminate]. destruct (n_unread ci) as [|m q] eqn:U; [discriminate|]. got E. exact D.
    - destruct (nth_error (s_calls s) t) as [[]|]; try discriminate. got E. exact D.
    - destruct (nth_error (s_calls s) t) as [[]|]; try discriminate; got E; exact D.
    - got E. discriminate. }
  destruct (H2 j c1 N1 D1) as (c2 & N2 & G2). exists c2. split; [exact N2|congruence].
Qed.
End Run.
