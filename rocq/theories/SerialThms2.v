(** * Calls that do not overlap: which messages each of them reads *)
From Coq Require Import String List NArith ZArith Bool Lia.
From Verif Require Import PyStr Tags Messages Protocol Queue QueueThms IO Client Items HandshakeThms ItemThms Conc SpecConc ConcThms SpecSingle SingleThms SpecSerial SerialThms SpecTogether.
Import ListNotations.
Open Scope list_scope.

(** A call that ended, with what it read and its result. *)
Definition ended : Set := (nat * (pc * list N)) * (list msg * res unit).
Definition result_of (d : ended) : nat * res unit := (fst (fst d), snd (snd d)).
Definition read_by (d : ended) : list (nat * msg) := map (pair (fst (fst d))) (fst (snd d)).
Definition ends (p : pc) (ms : list msg) (r : res unit) : Prop :=
  (exists read m, ms = read ++ [m] /\ Forall (fun m => Conc.react p m = None) read /\ Conc.react p m = Some r) \/
  (r = Err TimeoutError /\ Forall (fun m => Conc.react p m = None) ms).
Definition so_far (pend : list (nat * (pc * list N))) (read : list msg) : list (nat * msg) := match pend with [] => [] | (i, _) :: _ => map (pair i) read end.

Definition dinv (s : cstate) (es : list kevent) : Prop := exists ds pend read,
  all_calls es = map fst ds ++ pend /\ k_done s = map result_of ds /\ q_out (k_q s) = concat (map read_by ds) ++ so_far pend read /\
  Forall (fun d => ends (fst (snd (fst d))) (fst (snd d)) (snd (snd d)) /\ (snd (snd d) = Err TimeoutError -> exists i, In (KTimeout i) es)) ds /\ busy pend read s.

Lemma pump_tagged fuel i p : forall s done read, (length (c_queue (q_conn (k_q s))) < fuel)%nat ->
  q_out (k_q s) = done ++ map (pair i) read -> Forall (fun m => Conc.react p m = None) read ->
  let s' := pump fuel i p s in
  (exists read', q_out (k_q s') = done ++ map (pair i) read' /\ Forall (fun m => Conc.react p m = None) read' /\ k_done s' = k_done s /\ k_pc s' = k_pc s) \/
  (exists read' m r, q_out (k_q s') = done ++ map (pair i) (read' ++ [m]) /\ Forall (fun m => Conc.react p m = None) read' /\ Conc.react p m = Some r /\
     k_done s' = k_done s ++ [(i, r)] /\ k_pc s' = setnth i PIdle (k_pc s)).
Proof.
  induction fuel as [|fuel IH]; intros s done read Hf O F; [lia|]. cbn zeta. cbn [pump].
  destruct (c_queue (q_conn (k_q s))) as [|m q] eqn:Q.
  - left. exists read. cbn [moved k_q k_done k_pc]. unfold try_get. rewrite Q. cbn [q_out]. auto.
  - assert (T : q_out (try_get i (k_q s)) = q_out (k_q s) ++ [(i, m)] /\ c_queue (q_conn (try_get i (k_q s))) = q) by (unfold try_get; rewrite Q; auto).
    destruct T as (T1 & T2).
    assert (T3 : q_out (k_q s) ++ [(i, m)] = done ++ map (pair i) (read ++ [m])) by (rewrite O, map_app, <- app_assoc; reflexivity).
    destruct (Conc.react p m) as [r|] eqn:E.
    + right. exists read, m, r. cbn [finished k_q k_done k_pc]. rewrite T1. auto 8.
    + apply (IH (Conc.moved (try_get i (k_q s)) s) done (read ++ [m])); [cbn [moved k_q]; rewrite T2; cbn in Hf; lia|cbn [moved k_q]; congruence|apply Forall_app; auto].
Qed.

Lemma mono_ends es e (ds : list ended) :
  Forall (fun d => ends (fst (snd (fst d))) (fst (snd d)) (snd (snd d)) /\ (snd (snd d) = Err TimeoutError -> exists i, In (KTimeout i) es)) ds ->
  Forall (fun d => ends (fst (snd (fst d))) (fst (snd d)) (snd (snd d)) /\ (snd (snd d) = Err TimeoutError -> exists i, In (KTimeout i) (es ++ [e]))) ds.
Proof. apply Forall_impl. intros d (A & B). split; [exact A|]. intros X. destruct (B X) as (i & Hi). exists i. apply in_or_app; auto. Qed.

Lemma react_no_timeout p m : Conc.react p m <> Some (Err TimeoutError).
Proof.
  destruct p; cbn; [discriminate| |]; repeat match goal with |- context [if ?b then _ else _] => destruct b end; discriminate.
Qed.

Lemma idle_after i s k q : (forall k q, nth_error (k_pc s) k = Some q -> q <> PIdle -> k = i) -> (i < length (k_pc s))%nat ->
  nth_error (setnth i PIdle (k_pc s)) k = Some q -> q = PIdle.
Proof.
  intros K L H. destruct (Nat.eq_dec k i) as [->|Nk].
  - rewrite setnth_same in H by assumption. congruence.
  - rewrite setnth_other in H by congruence. destruct q; [reflexivity| |]; exfalso; apply Nk; eapply K; try eassumption; discriminate.
Qed.

Lemma go_dinv i p b s es e (ds : list ended) read : p <> PIdle -> nth_error (k_pc s) i = Some p -> (forall k q, nth_error (k_pc s) k = Some q -> q <> PIdle -> k = i) ->
  all_calls (es ++ [e]) = map fst ds ++ [(i, (p, b))] -> k_done s = map result_of ds -> q_out (k_q s) = concat (map read_by ds) ++ map (pair i) read ->
  Forall (fun m => Conc.react p m = None) read ->
  Forall (fun d => ends (fst (snd (fst d))) (fst (snd d)) (snd (snd d)) /\ (snd (snd d) = Err TimeoutError -> exists i, In (KTimeout i) es)) ds ->
  dinv (go i p s) (es ++ [e]).
Proof.
  intros Hp P K C D O F E. unfold go.
  destruct (pump_tagged (S (length (c_queue (q_conn (k_q s))))) i p s _ read ltac:(lia) O F) as [(read' & A1 & A2 & A3 & A4)|(read' & m & r & A1 & A2 & A3 & A4 & A5)].
  - exists ds, [(i, (p, b))], read'. split; [exact C|]. split; [congruence|]. split; [exact A1|]. split; [apply mono_ends, E|].
    right. exists i, p, b. rewrite A4. auto.
  - exists (ds ++ [((i, (p, b)), (read' ++ [m], r))]), [], []. rewrite !map_app, app_nil_r. split; [exact C|]. split; [rewrite A4, D; reflexivity|].
    split; [rewrite A1, concat_app; cbn; rewrite !app_nil_r; reflexivity|]. split.
    + apply Forall_app. split; [apply mono_ends, E|]. constructor; [|constructor]. cbn [fst snd]. split; [left; eauto|].
      intros ->. destruct (react_no_timeout _ _ A3).
    + left. split; [reflexivity|]. split; [reflexivity|]. rewrite A5. intros k q. apply idle_after; [exact K|]. apply nth_error_Some. congruence.
Qed.

Lemma dinv_step n s e s' es : (forall i, (i < n)%nat -> tinv i s es) -> length (q_readers (k_q s)) = n -> dinv s es ->
  (forall i p b, e = KCall i p b -> Forall (eq PIdle) (k_pc s)) -> cstep s e = Some s' -> dinv s' (es ++ [e]).
Proof.
  intros T L (ds & pend & read & C & D & O & E & B) Id H.
  assert (Same : forall q, q_out q = q_out (k_q s) -> all_calls [e] = [] -> dinv (Conc.moved q s) (es ++ [e])).
  { intros q Eq Ec. exists ds, pend, read. cbn [Conc.moved k_q k_done]. rewrite all_calls_app, Ec, app_nil_r, Eq.
    repeat (split; [assumption|]). split; [apply mono_ends, E|exact B]. }
  assert (R : forall j x, nth_error (q_readers (k_q s)) j = Some x -> x <> RIdle -> exists p b, pend = [(j, (p, b))] /\ p <> PIdle /\ nth_error (k_pc s) j = Some p /\
     Forall (fun m => Conc.react p m = None) read /\ forall k q, nth_error (k_pc s) k = Some q -> q <> PIdle -> k = j).
  { intros j x Rj Nx. assert (Hj : (j < n)%nat) by (rewrite <- L; apply nth_error_Some; congruence).
    destruct (ti_view _ _ _ (T j Hj)) as (cs' & t' & p & read' & pend' & M & _ & _ & _ & I). pose proof (mid_pc _ _ _ _ _ _ M) as Pj.
    assert (Np : p <> PIdle) by (intros ->; destruct I as [I _]; specialize (I eq_refl); congruence).
    destruct B as [(_ & _ & All)|(i & p' & b & E' & Np' & Pi & F & K)]; [exfalso; eauto|].
    assert (j = i) by eauto. subst j. rewrite Pj in Pi. injection Pi as ->. exists p', b. auto. }
  destruct e as [j p b|d|j|j].
  - specialize (Id j p b eq_refl). cbn [cstep] in H. destruct (nth_error (k_pc s) j) as [[]|] eqn:Pj; try discriminate.
    assert (Hp : p <> PIdle) by (intros ->; discriminate).
    assert (X : s' = go j p {| k_q := k_q s; k_pc := setnth j p (k_pc s); k_writes := k_writes s ++ [(j, b)]; k_done := k_done s |}).
    { destruct p; [congruence| |]; destruct (nth_error (q_readers (k_q s)) j) as [[]|]; try discriminate; injection H as <-; reflexivity. }
    subst s'. rewrite Forall_forall in Id.
    assert (B' : pend = []).
    { destruct B as [(-> & -> & _)|(i & p' & b' & _ & Np' & Pi & _)]; [auto|]. exfalso. apply Np'. symmetry. apply Id. eapply nth_error_In, Pi. }
    subst pend. rewrite app_nil_r in C. cbn [so_far] in O.
    eapply (go_dinv j p b _ es _ ds []); cbn [k_pc k_done k_q]; try assumption.
    + apply setnth_same. apply nth_error_Some. congruence.
    + intros k q Hk Nq. destruct (Nat.eq_dec k j) as [->|Nk]; [reflexivity|]. rewrite setnth_other in Hk by congruence. exfalso. apply Nq. symmetry. apply Id. eapply nth_error_In, Hk.
    + rewrite all_calls_app, C. reflexivity.
    + constructor.
  - cbn [cstep] in H. destruct (qstep (k_q s) (EPacket d)) as [q|] eqn:Q; [|discriminate]. injection H as <-. apply Same; [|reflexivity].
    cbn [qstep] in Q. destruct (wakeups _ _ _). injection Q as <-. reflexivity.
  - destruct (run_shape s j s' H) as (x & p & Rj & Pj & [(-> & ->)|(Hx & q & Q & ->)]).
    + destruct (R j _ Rj ltac:(discriminate)) as (p' & b & -> & Np & Pj' & F & K). rewrite Pj in Pj'. injection Pj' as <-.
      eapply (go_dinv j p b s es _ ds read); try assumption. rewrite all_calls_app, app_nil_r. exact C.
    + destruct (R j x Rj ltac:(destruct Hx; congruence)) as (p' & b & -> & Np & Pj' & F & K). rewrite Pj in Pj'. injection Pj' as <-.
      assert (Ti : In (KTimeout j) es).
      { assert (Hj : (j < n)%nat) by (rewrite <- L; apply nth_error_Some; congruence). eapply (ti_cancel _ _ _ (T j Hj)); eassumption. }
      assert (Oq : q_out q = q_out (k_q s)).
      { cbn [qstep] in Q. rewrite Rj in Q. destruct Hx as [-> | ->]; [destruct (match c_queue (q_conn (k_q s)) with [] => _ | _ => _ end)|]; injection Q as <-; reflexivity. }
      exists (ds ++ [((j, (p, b)), (read, Err TimeoutError))]), [], []. rewrite all_calls_app, !map_app, !app_nil_r. cbn [finished k_done k_q].
      split; [exact C|]. split; [rewrite D; reflexivity|]. split; [rewrite Oq, O, concat_app; cbn; rewrite !app_nil_r; reflexivity|]. split.
      * apply Forall_app. split; [apply mono_ends, E|]. constructor; [|constructor]. cbn [fst snd]. split; [right; auto|].
        intros _. exists j. apply in_or_app; auto.
      * left. split; [reflexivity|]. split; [reflexivity|]. cbn [finished k_pc]. intros k q'. apply idle_after; [exact K|]. apply nth_error_Some. congruence.
  - cbn [cstep] in H. destruct (qstep (k_q s) (ECancel j)) as [q|] eqn:Q; [|discriminate]. injection H as <-. apply Same; [|reflexivity].
    cbn [qstep] in Q. destruct (nth_error (q_readers (k_q s)) j) as [[]|]; try discriminate; injection Q as <-; reflexivity.
Qed.

Lemma dinv_run n es : forall s, crun (cinit n) es = Some s -> serial n es -> dinv s es.
Proof.
  induction es as [|e es IH] using rev_ind; intros s R Se.
  - cbn in R. injection R as <-. exists [], [], []. do 3 (split; [reflexivity|]). split; [constructor|].
    left. split; [reflexivity|]. split; [reflexivity|]. intros k q H. apply nth_error_In in H. exact (repeat_spec _ _ _ H).
  - destruct (crun_app es [e] _ _ R) as (s0 & R0 & R1). cbn [crun] in R1. destruct (cstep s0 e) as [s1|] eqn:E; [|discriminate]. injection R1 as ->.
    eapply (dinv_step n); [| |apply IH; [exact R0|eapply serial_app, Se]| |exact E].
    + intros i Hi. exact (tinv_run i _ _ _ [] (tinv_init i n Hi) R0).
    + rewrite (crun_readers _ _ _ R0). cbn. apply repeat_length.
    + intros i p b ->. eapply (Se es i p b [] s0); [reflexivity|exact R0].
Qed.

(** Two readings of one stream by calls of the same kind are the same. *)
Lemma reading_unique p a r b r' u v : (exists read m, a = read ++ [m] /\ Forall (fun m => Conc.react p m = None) read /\ Conc.react p m = Some r) ->
  (exists read m, b = read ++ [m] /\ Forall (fun m => Conc.react p m = None) read /\ Conc.react p m = Some r') ->
  a ++ u = b ++ v -> a = b /\ r = r' /\ u = v.
Proof.
  intros (x & m & -> & F & E) (y & m' & -> & F' & E'). rewrite <- !app_assoc. cbn [app]. revert y F'.
  induction F as [|k x Hk F IH]; intros y F' H; destruct F' as [|k' y Hk' F']; cbn [app] in H.
  - injection H as -> ->. rewrite E in E'. injection E' as ->. auto.
  - injection H as -> _. congruence.
  - injection H as -> _. congruence.
  - injection H as -> H. destruct (IH y F' H) as (A & B & C). cbn [app]. rewrite A. auto.
Qed.

Lemma ends_dialogue (ds : list ended) : forall pend ans u, Forall (fun d => exists read m, fst (snd d) = read ++ [m] /\ Forall (fun m => Conc.react (fst (snd (fst d))) m = None) read /\ Conc.react (fst (snd (fst d))) m = Some (snd (snd d))) ds ->
  dialogue (map fst ds ++ pend) ans -> concat (map (fun d => fst (snd d)) ds) ++ u = concat (map fst ans) ->
  map snd ds = firstn (length ds) ans /\ u = concat (map fst (skipn (length ds) ans)).
Proof.
  induction ds as [|d ds IH]; intros pend ans u F D E; cbn [map app concat length] in *; [split; [reflexivity|exact E]|].
  inversion F as [|? ? Hd F0]; subst. inversion D as [|? [ms r] ? a W D0]; subst. cbn [map concat fst snd] in *. rewrite <- app_assoc in E.
  destruct (react_ends _ _ _ W) as (_ & read & m & W').
  destruct (reading_unique _ _ _ _ _ _ _ Hd (ex_intro _ read (ex_intro _ m W')) E) as (A & B & C).
  destruct (IH pend a u F0 D0 C) as (I1 & I2). cbn [firstn skipn]. split; [|exact I2]. rewrite I1. destruct (snd d) as [x y] eqn:X. cbn [fst snd] in *. congruence.
Qed.

(** Calls that do not overlap, no timeouts, whole answers: what each task read. *)
Theorem serial_reads n es s ans later : crun (cinit n) es = Some s -> serial n es -> (forall i, ~ In (KTimeout i) es) -> dialogue (all_calls es) ans ->
  SpecConc.answers es ++ later = concat (map fst ans) ->
  exists (ds : list ended) pend read, all_calls es = map fst ds ++ pend /\ (length pend <= 1)%nat /\ map snd ds = firstn (length ds) ans /\
    k_done s = map result_of ds /\ q_out (k_q s) = concat (map read_by ds) ++ so_far pend read.
Proof.
  intros R Se T D A. destruct (dinv_run n es s R Se) as (ds & pend & read & C & Dn & O & E & B).
  exists ds, pend, read. split; [exact C|]. split; [destruct B as [(-> & _)|(i & p & b & -> & _)]; cbn; lia|]. split; [|auto].
  assert (V : SpecConc.answers es = map snd (q_out (k_q s)) ++ c_queue (q_conn (k_q s))) by (symmetry; apply (all_views n es s R)).
  rewrite V, O, map_app in A.
  assert (X : map snd (concat (map read_by ds)) = concat (map (fun d => fst (snd d)) ds)).
  { clear. induction ds as [|d ds IH]; [reflexivity|]. cbn [map concat]. rewrite map_app, IH. f_equal. unfold read_by. rewrite map_map. apply map_id. }
  rewrite X, <- !app_assoc in A. rewrite C in D.
  eapply (ends_dialogue ds pend ans); [|exact D|exact A]. eapply Forall_impl; [|exact E].
  intros d ([Hd|(Hd & _)] & Ht); [exact Hd|]. destruct (Ht Hd) as (i & Hi). destruct (T i Hi).
Qed.
