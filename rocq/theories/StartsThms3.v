(** * Proofs about overlapping start() calls: each is a handshake of its own *)
From Coq Require Import String List NArith ZArith Bool Lia.
From Verif Require Import PyStr Tags Messages AuthOpen AuthHmac IO Client Queue QueueThms Starts SpecStarts StartsThms.
Import ListNotations.
Open Scope N_scope.
Open Scope list_scope.

Local Ltac got E := apply some_inj in E; match type of E with _ = ?v => subst v end.

Lemma own_app {X} t (a b : list (nat * X)) : own t (a ++ b) = own t a ++ own t b.
Proof. unfold own. rewrite filter_app, map_app. reflexivity. Qed.
Lemma own_mine {X} t (l : list X) : own t (map (pair t) l) = l.
Proof. unfold own. induction l as [|x l IH]; [reflexivity|]. cbn. rewrite Nat.eqb_refl. cbn. rewrite IH. reflexivity. Qed.
Lemma own_other {X} t t' (l : list X) : t <> t' -> own t (map (pair t') l) = [].
Proof. intros D. unfold own. induction l as [|x l IH]; [reflexivity|]. cbn. destruct (Nat.eqb_spec t' t); [congruence|exact IH]. Qed.

Section By.
Context {X : Type} (g : sconn -> list (nat * X)).
Definition entries (t : nat) (cs : list sconn) : list X := flat_map (fun c => own t (g c)) cs.
Definition none_after (t i : nat) (cs : list sconn) : Prop := forall j c, (i < j)%nat -> nth_error cs j = Some c -> own t (g c) = [].

Lemma entries_none t cs : (forall j c, nth_error cs j = Some c -> own t (g c) = []) -> entries t cs = [].
Proof. unfold entries. induction cs as [|c cs IH]; intros H; [reflexivity|]. cbn. rewrite (H O c eq_refl), IH; [reflexivity|]. intros j c' N. apply (H (S j) c' N). Qed.

Lemma entries_app t a b : entries t (a ++ b) = entries t a ++ entries t b.
Proof. unfold entries. apply flat_map_app. Qed.

Lemma entries_grow t f i cs : forall c z, nth_error cs i = Some c -> g (f c) = g c ++ z -> none_after t i cs -> entries t (on_conn f i cs) = entries t cs ++ own t z.
Proof.
  intros c z N F A. unfold on_conn. rewrite N. revert cs N A. induction i as [|i IH]; intros [|c0 cs] N A; cbn in N; try discriminate.
  - injection N as ->. cbn [setnth]. unfold entries. cbn [flat_map]. rewrite F, own_app. fold (entries t cs). rewrite (entries_none t cs) by (intros j c' N'; apply (A (S j) c'); [lia|exact N']). rewrite !app_nil_r. reflexivity.
  - cbn [setnth]. unfold entries in *. cbn [flat_map]. rewrite (IH cs N); [rewrite app_assoc; reflexivity|]. intros j c' L N'. apply (A (S j) c'); [lia|exact N'].
Qed.

Lemma entries_keep t f i cs : (forall c, own t (g (f c)) = own t (g c)) -> entries t (on_conn f i cs) = entries t cs.
Proof.
  intros F. unfold on_conn. destruct (nth_error cs i) as [c|] eqn:N; [|reflexivity]. revert cs N. induction i as [|i IH]; intros [|c0 cs] N; cbn in N; try discriminate.
  - injection N as ->. cbn. rewrite F. reflexivity.
  - cbn [setnth]. unfold entries in *. cbn [flat_map]. rewrite (IH cs N). reflexivity.
Qed.

Lemma none_keep t f i k cs : (forall c, own t (g (f c)) = own t (g c)) -> none_after t k cs -> none_after t k (on_conn f i cs).
Proof.
  intros F A j c L N. destruct (Nat.eq_dec i j) as [->|D].
  - destruct (nth_error cs j) as [c0|] eqn:N0; [|unfold on_conn in N; rewrite N0 in N; congruence]. rewrite (on_conn_same _ _ _ _ N0) in N. injection N as <-. rewrite F. apply (A j c0 L N0).
  - rewrite on_conn_other in N by exact D. apply (A j c L N).
Qed.
End By.

Lemma conns_ext (a b : list sconn) : (forall i, nth_error a i = nth_error b i) -> a = b.
Proof.
  revert b. induction a as [|x a IH]; intros [|y b] H; [reflexivity|specialize (H O); discriminate|specialize (H O); discriminate|].
  pose proof (H O) as H0. injection H0 as <-. f_equal. apply IH. intros i. apply (H (S i)).
Qed.

Section Run.
Context (C : crypto) (ty : session) (pw : str) (rnd : nat -> list N).
Local Notation sstep := (sstep C ty pw rnd).
Local Notation srun := (srun C ty pw rnd).

(** What a task does on the last connection. *)
Lemma go_entries t L p cs cs' x : S L = length cs -> go t (Some L) p cs = (cs', x) ->
  exists es p', entries n_given t cs' = entries n_given t cs ++ sents es /\ entries n_taken t cs' = entries n_taken t cs ++ gots es /\
    (forall t', t' <> t -> entries n_given t' cs' = entries n_given t' cs /\ entries n_taken t' cs' = entries n_taken t' cs /\
       forall i, none_after n_taken t' i cs -> none_after n_taken t' i cs') /\
    length cs' = length cs /\ comes p es p' /\ ((exists k, x = TWaits L k /\ p' = PRead k) \/ (exists r, x = TEnded r /\ p' = PEnd r)).
Proof.
  intros Len G. destruct (nth_error cs L) as [c|] eqn:N; [|apply nth_error_None in N; lia].
  destruct (go_spec t L p cs c cs' x N G) as (c' & es & p' & N' & O & L' & Gi & Ta & Un & Op & Co & X).
  assert (E : cs' = on_conn (fun _ => c') L cs).
  { apply conns_ext. intros i. destruct (Nat.eq_dec i L) as [->|D]; [rewrite N', (on_conn_same _ _ _ _ N); reflexivity|]. rewrite (O i D), on_conn_other by congruence. reflexivity. }
  assert (NA : forall Y (g : sconn -> list (nat * Y)) t0, none_after g t0 L cs).
  { intros Y g t0 j d Lj Nj. assert (j < length cs)%nat by (apply nth_error_Some; congruence). lia. }
  exists es, p'. split; [rewrite E, (entries_grow n_given t (fun _ => c') L cs c (map (pair t) (sents es)) N Gi (NA _ _ _)), own_mine; reflexivity|].
  split; [rewrite E, (entries_grow n_taken t (fun _ => c') L cs c (map (pair t) (gots es)) N Ta (NA _ _ _)), own_mine; reflexivity|].
  split.
  { intros t' D. split; [|split].
    - rewrite E, (entries_grow n_given t' (fun _ => c') L cs c _ N Gi (NA _ _ _)), own_other, app_nil_r by exact D. reflexivity.
    - rewrite E, (entries_grow n_taken t' (fun _ => c') L cs c _ N Ta (NA _ _ _)), own_other, app_nil_r by exact D. reflexivity.
    - intros i A j d Lj Nj. destruct (Nat.eq_dec j L) as [->|Dj]; [rewrite N' in Nj; injection Nj as <-; rewrite Ta, own_app, own_other, app_nil_r by exact D; apply (A L c Lj N)|].
      rewrite (O j Dj) in Nj. apply (A j d Lj Nj). }
  split; [exact L'|]. split; [exact Co|]. destruct X as [(k & -> & -> & _)|(r & -> & ->)]; [left|right]; eauto.
Qed.

(** The program of each task; for those that call start() it is that of Starts.v. *)
Context (pr : nat -> prog).

(** Task [t] has got this far with its own conversation. *)
Definition along (t : nat) (cs : list sconn) (x : stask) : Prop :=
  exists es p, comes (pr t) es p /\ entries n_taken t cs = gots es /\ entries n_given t cs = sents es /\
    match x with
    | TNew => p = pr t /\ es = []
    | TWaits i k => p = PRead k /\ (i < length cs)%nat /\ none_after n_taken t i cs
    | TEnded r => p = PEnd r \/ r = Err TimeoutError \/ r = Err InvalidSession
    | TCancelled => True
    end.

Definition all_along (s : starts) : Prop := current_last s /\ forall t x, nth_error (s_calls s) t = Some x -> along t (s_conns s) x.

Lemma along_conns t cs cs' x : entries n_taken t cs' = entries n_taken t cs -> entries n_given t cs' = entries n_given t cs -> (length cs <= length cs')%nat ->
  (forall i, (i < length cs)%nat -> none_after n_taken t i cs -> none_after n_taken t i cs') -> along t cs x -> along t cs' x.
Proof.
  intros A B L K (es & p & Co & Ta & Gi & St). exists es, p. split; [exact Co|]. split; [congruence|]. split; [congruence|]. destruct x as [|i k|r|]; auto. destruct St as (P & Li & Na). split; [exact P|]. split; [lia|auto].
Qed.

Lemma all_set s j y : (forall t x, nth_error (s_calls s) t = Some x -> along t (s_conns s) x) -> (nth_error (s_calls s) j <> None -> along j (s_conns s) y) ->
  forall t x, nth_error (setnth j y (s_calls s)) t = Some x -> along t (s_conns s) x.
Proof.
  intros A B t x H. destruct (Nat.eq_dec j t) as [->|D]; [|rewrite setnth_other in H by exact D; exact (A t x H)].
  assert (Lt : (t < length (setnth t y (s_calls s)))%nat) by (apply nth_error_Some; congruence). rewrite setnth_length in Lt. rewrite setnth_same in H by exact Lt. injection H as <-. apply B. apply nth_error_Some, Lt.
Qed.

Lemma along_step s a s' : (forall t, a = SConnect t -> pr t = start_prog C ty pw (rnd t)) -> all_along s -> sstep s a = Some s' -> all_along s'.
Proof.
  intros PR [K A] E. split; [apply (last_step C ty pw rnd s a s' K E)|].
  assert (CONN : forall f i, (forall c, n_taken (f c) = n_taken c) -> (forall c, n_given (f c) = n_given c) ->
    forall t x, nth_error (s_calls s) t = Some x -> along t (on_conn f i (s_conns s)) x).
  { intros f i F1 F2 t x H. refine (along_conns t (s_conns s) _ x _ _ _ _ (A t x H)).
    - apply entries_keep. intros c. rewrite F1. reflexivity.
    - apply entries_keep. intros c. rewrite F2. reflexivity.
    - rewrite on_conn_length. lia.
    - intros k _. apply none_keep. intros c. rewrite F1. reflexivity. }
  assert (STOP : forall j y x, nth_error (s_calls s) j = Some x -> (y = TEnded (Err TimeoutError) \/ y = TCancelled) -> along j (s_conns s) y).
  { intros j y x H Y. destruct (A j x H) as (es & p & Co & Ta & Gi & _). exists es, p. repeat (split; [assumption|]). destruct Y as [-> | ->]; auto. }
  destruct a as [t|t|i ms|i|t|t|t|]; cbn [Starts.sstep] in E.
  - destruct (nth_error (s_calls s) t) as [x|] eqn:T; [|discriminate]. destruct x; try discriminate. cbv zeta in E. got E.
    destruct (go t (Some (length (s_conns s))) (start_prog C ty pw (rnd t)) (s_conns s ++ [new_conn])) as [cs y] eqn:G.
    destruct (go_entries t (length (s_conns s)) (start_prog C ty pw (rnd t)) (s_conns s ++ [new_conn]) cs y ltac:(rewrite app_length; cbn; lia) G) as (es & p' & Gi & Ta & Oth & Len & Co & X).
    cbn [set_call s_conns s_calls fst snd]. intros j x H. rewrite app_length in Len. cbn in Len.
    assert (NEW : forall Y (g : sconn -> list (nat * Y)) j, g new_conn = [] -> entries g j (s_conns s ++ [new_conn]) = entries g j (s_conns s)).
    { intros Y g j0 Z. rewrite entries_app. unfold entries at 2. cbn. rewrite Z. cbn. rewrite app_nil_r. reflexivity. }
    destruct (Nat.eq_dec t j) as [->|D].
    + assert (Lt : (j < length (setnth j y (s_calls s)))%nat) by (apply nth_error_Some; congruence). rewrite setnth_length in Lt. rewrite setnth_same in H by exact Lt. injection H as <-.
      destruct (A j TNew T) as (es0 & p0 & Co0 & Ta0 & Gi0 & -> & ->). cbn in Ta0, Gi0.
      exists es, p'. split; [rewrite (PR j eq_refl); exact Co|]. split; [rewrite Ta, NEW, Ta0 by reflexivity; reflexivity|]. split; [rewrite Gi, NEW, Gi0 by reflexivity; reflexivity|].
      destruct X as [(k & -> & ->)|(r & -> & ->)]; [|auto]. split; [reflexivity|]. split; [lia|].
      intros i c Li Ni. assert (i < length cs)%nat by (apply nth_error_Some; congruence). lia.
    + rewrite setnth_other in H by exact D. destruct (Oth j ltac:(congruence)) as (G1 & T1 & N1). rewrite NEW in G1, T1 by reflexivity.
      refine (along_conns j (s_conns s) cs x T1 G1 _ _ (A j x H)); [lia|]. intros i Li Na. apply N1. intros k c Lk Nk.
      destruct (Nat.ltb_spec k (length (s_conns s))) as [Lk'|Lk']; [rewrite nth_error_app1 in Nk by exact Lk'; apply (Na k c Lk Nk)|].
      rewrite nth_error_app2 in Nk by exact Lk'. destruct (k - length (s_conns s))%nat as [|q]; [|destruct q; discriminate]. injection Nk as <-. reflexivity.
  - destruct (nth_error (s_calls s) t) as [x|] eqn:T; [|discriminate]. destruct x; try discriminate. got E. cbn [set_call s_conns s_calls fst snd].
    apply (all_set s); [exact A|]. intros _. apply (STOP t _ TNew T). auto.
  - got E. cbn [s_conns s_calls]. apply CONN; intros c; unfold hear; destruct (n_open c); reflexivity.
  - got E. cbn [s_conns s_calls]. apply CONN; intros c; reflexivity.
  - destruct (nth_error (s_calls s) t) as [x|] eqn:T; [|discriminate]. destruct x as [|i k| |]; try discriminate.
    destruct (nth_error (s_conns s) i) as [ci|] eqn:I; [|discriminate]. destruct (n_unread ci) as [|m q] eqn:U; [discriminate|]. got E.
    destruct (A t _ T) as (es & p & Co & Ta & Gi & -> & Li & Na).
    set (cs1 := on_conn (pop t) i (s_conns s)).
    assert (P1 : n_taken (pop t ci) = n_taken ci ++ map (pair t) [m]) by (unfold pop; rewrite U; reflexivity).
    assert (P2 : forall c, n_given (pop t c) = n_given c) by (intros c; unfold pop; destruct (n_unread c); reflexivity).
    assert (T1 : entries n_taken t cs1 = gots es ++ [m]) by (unfold cs1; rewrite (entries_grow n_taken t (pop t) i (s_conns s) ci _ I P1 Na), own_mine, Ta; reflexivity).
    assert (G1 : entries n_given t cs1 = sents es) by (unfold cs1; rewrite entries_keep by (intros c; rewrite P2; reflexivity); exact Gi).
    assert (L1 : length cs1 = length (s_conns s)) by apply on_conn_length.
    assert (Q : forall t' c, t' <> t -> own t' (n_taken (pop t c)) = own t' (n_taken c)).
    { intros t' c D. unfold pop. destruct (n_unread c) as [|m' q']; [reflexivity|]. cbn [n_taken]. rewrite own_app. change [(t, m')] with (map (pair t) [m']). rewrite own_other by exact D. apply app_nil_r. }
    assert (Oth1 : forall t' x, t' <> t -> nth_error (s_calls s) t' = Some x -> along t' cs1 x).
    { intros t' x D H. refine (along_conns t' (s_conns s) cs1 x _ _ _ _ (A t' x H)).
      - apply entries_keep. intros c. apply Q, D.
      - apply entries_keep. intros c. rewrite P2. reflexivity.
      - lia.
      - intros k' _. apply none_keep. intros c. apply Q, D. }
    assert (Co1 : comes (pr t) (es ++ [Got m]) (k m)) by (apply (comes_trans _ es (PRead k)); [exact Co|apply comes_read]).
    cbn [set_call s_conns s_calls fst snd]. intros j x H. unfold current_last in K. destruct (s_current s) as [L|] eqn:Cu.
    + destruct (go t (Some L) (k m) cs1) as [cs2 y] eqn:G. cbn [fst snd] in *.
      destruct (go_entries t L (k m) cs1 cs2 y ltac:(lia) G) as (es2 & p2 & Gi2 & Ta2 & Oth2 & Len2 & Co2 & X).
      destruct (Nat.eq_dec t j) as [->|D].
      * assert (Lt : (j < length (setnth j y (s_calls s)))%nat) by (apply nth_error_Some; congruence). rewrite setnth_length in Lt. rewrite setnth_same in H by exact Lt. injection H as <-.
        exists ((es ++ [Got m]) ++ es2), p2. split; [apply (comes_trans _ _ _ _ _ Co1 Co2)|]. split; [rewrite Ta2, T1, !gots_app; reflexivity|]. split; [rewrite Gi2, G1, !sents_app; cbn; rewrite app_nil_r; reflexivity|].
        destruct X as [(k' & -> & ->)|(r & -> & ->)]; [|auto]. split; [reflexivity|]. split; [lia|]. intros i' c Li' Ni'. assert (i' < length cs2)%nat by (apply nth_error_Some; congruence). lia.
      * rewrite setnth_other in H by exact D. destruct (Oth2 j ltac:(congruence)) as (G3 & T3 & N3). refine (along_conns j cs1 cs2 x T3 G3 _ _ (Oth1 j x ltac:(congruence) H)); [lia|auto].
    + destruct (go_none t (k m) cs1) as (y & G & Y). rewrite G in *. cbn [fst snd] in *. destruct (Nat.eq_dec t j) as [->|D]; [|rewrite setnth_other in H by exact D; apply Oth1; [congruence|exact H]].
      assert (Lt : (j < length (setnth j y (s_calls s)))%nat) by (apply nth_error_Some; congruence). rewrite setnth_length in Lt. rewrite setnth_same in H by exact Lt. injection H as <-.
      exists (es ++ [Got m]), (k m). split; [exact Co1|]. split; [rewrite T1, gots_app; reflexivity|]. split; [rewrite G1, sents_app; cbn; rewrite app_nil_r; reflexivity|].
      destruct Y as [(r & Kr & ->)| ->]; auto.
  - destruct (nth_error (s_calls s) t) as [x|] eqn:T; [|discriminate]. destruct x as [|i k| |]; try discriminate. got E. cbn [set_call s_conns s_calls fst snd].
    apply (all_set s); [exact A|]. intros _. apply (STOP t _ _ T). auto.
  - destruct (nth_error (s_calls s) t) as [x|] eqn:T; [|discriminate]. destruct x as [|i k| |]; try discriminate; got E; cbn [set_call s_conns s_calls fst snd];
      (apply (all_set s); [exact A|]; intros _; apply (STOP t _ _ T); auto).
  - got E. cbn [s_conns s_calls]. destruct (s_current s) as [i|]; [|exact A]. apply CONN; intros c; reflexivity.
Qed.

Lemma along_run l : forall s s', (forall t, In (SConnect t) l -> pr t = start_prog C ty pw (rnd t)) -> all_along s -> srun s l = Some s' -> all_along s'.
Proof.
  induction l as [|a l IH]; intros s s' PR A R; [injection R as <-; exact A|]. cbn [Starts.srun] in R. destruct (sstep s a) as [s1|] eqn:E; [|discriminate].
  apply (IH s1 s'); [intros; apply PR; right; assumption| |exact R]. apply (along_step s a); try assumption. intros t ->. apply PR. left. reflexivity.
Qed.

Lemma along_before n : all_along (before_starts n).
Proof.
  split; [exact I|]. intros t x H. pose proof (nth_error_In _ _ H) as J. cbn in J. apply repeat_spec in J. subst x. exists [], (pr t). split; [apply comes_refl|]. auto.
Qed.
End Run.
