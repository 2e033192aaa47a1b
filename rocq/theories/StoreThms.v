(** * Sharing between messages: proofs *)
From Coq Require Import String List NArith ZArith Bool Lia.
From Verif Require Import PyStr Tags Messages Store.
Import ListNotations.
Open Scope N_scope.
Open Scope list_scope.

Lemma known_in a l : existsb (Nat.eqb a) l = true <-> In a l.
Proof.
  rewrite existsb_exists. split; [intros (x & H & E); apply Nat.eqb_eq in E; congruence|]. intros H. exists a. split; [exact H|apply Nat.eqb_refl].
Qed.

(** Addresses in use are below the next one. *)
Definition sane (s : store) : Prop :=
  Forall (fun a => a < st_next s)%nat (st_known s) /\ Forall (fun h => match h with ListAt a => (a < st_next s)%nat | _ => True end) (st_msgs s).

Lemma sane_weaken n l : Forall (fun h => match h with ListAt a => (a < n)%nat | _ => True end) l ->
  Forall (fun h => match h with ListAt a => (a < S n)%nat | _ => True end) l.
Proof. apply Forall_impl. intros [|]; auto; lia. Qed.

Lemma sane_alloc s l b : sane s -> sane (alloc s l b).
Proof.
  intros [H1 H2]. split; cbn.
  - assert (X : Forall (fun a => (a < S (st_next s))%nat) (st_known s)) by (eapply Forall_impl; [|exact H1]; cbn; intros; lia).
    destruct b; [constructor; [lia|exact X]|exact X].
  - apply sane_weaken, H2.
Qed.

Lemma sane_add s h : sane s -> (match h with ListAt a => (a < st_next s)%nat | _ => True end) -> sane (add_msg s h).
Proof. intros [H1 H2] H. split; [exact H1|]. cbn. apply Forall_app. split; [exact H2|]. constructor; [exact H|constructor]. Qed.

Lemma sane_step s x : sane s -> sane (step s x).
Proof.
  intros H. destruct x as [text|l|a|i|a l]; cbn [step].
  - destruct (parse_message text) as [[| | | | | | |tags]|]; try (apply sane_add; [exact H|exact I]); try exact H.
    apply sane_add; [apply sane_alloc, H|cbn; lia].
  - apply sane_alloc, H.
  - destruct (existsb (Nat.eqb a) (st_known s)) eqn:E; [|exact H]. apply sane_add; [exact H|]. apply known_in in E.
    destruct H as [H _]. rewrite Forall_forall in H. apply H, E.
  - destruct (nth_error (st_msgs s) i) as [[|]|]; try exact H. apply sane_alloc, H.
  - destruct (existsb (Nat.eqb a) (st_known s)); exact H.
Qed.

Lemma sane_run acts : forall s, sane s -> sane (run s acts).
Proof. induction acts as [|x acts IH]; intros s H; [exact H|]. apply IH, sane_step, H. Qed.

Lemma sane_empty : sane empty_store.
Proof. split; constructor. Qed.

(** ** Existing messages stay where they are *)

Lemma step_msgs s x : exists l, st_msgs (step s x) = st_msgs s ++ l.
Proof.
  destruct x as [text|l|a|i|a l]; cbn [step].
  - destruct (parse_message text) as [[| | | | | | |tags]|]; cbn; try (eexists; reflexivity). exists []. rewrite app_nil_r. reflexivity.
  - exists []. cbn. rewrite app_nil_r. reflexivity.
  - destruct (existsb _ _); cbn; [eexists; reflexivity|exists []; rewrite app_nil_r; reflexivity].
  - destruct (nth_error (st_msgs s) i) as [[|]|]; exists []; cbn; rewrite app_nil_r; reflexivity.
  - destruct (existsb _ _); exists []; cbn; rewrite app_nil_r; reflexivity.
Qed.

Lemma nth_step s x i h : nth_error (st_msgs s) i = Some h -> nth_error (st_msgs (step s x)) i = Some h.
Proof.
  intros H. destruct (step_msgs s x) as (l & ->). rewrite nth_error_app1; [exact H|]. apply nth_error_Some. congruence.
Qed.

Lemma nth_run acts : forall s i h, nth_error (st_msgs s) i = Some h -> nth_error (st_msgs (run s acts)) i = Some h.
Proof. induction acts as [|x acts IH]; intros s i h H; [exact H|]. apply IH, nth_step, H. Qed.

(** ** A list nobody knows is never modified *)

Definition hidden (s : store) (a : nat) : Prop := (a < st_next s)%nat /\ ~ In a (st_known s).

Lemma hidden_step s x a : hidden s a -> hidden (step s x) a /\ st_cells (step s x) a = st_cells s a.
Proof.
  intros [L K].
  assert (AL : forall l b, hidden (alloc s l b) a /\ st_cells (alloc s l b) a = st_cells s a).
  { intros l b. split; [split; cbn; [lia|destruct b; [|exact K]; intros [X|X]; [lia|contradiction]]|].
    cbn. unfold set_cell. replace (a =? st_next s)%nat with false by (symmetry; apply Nat.eqb_neq; lia). reflexivity. }
  assert (AM : forall h, hidden (add_msg s h) a /\ st_cells (add_msg s h) a = st_cells s a) by (intros h; split; [split; assumption|reflexivity]).
  destruct x as [text|l|b|i|b l]; cbn [step].
  - destruct (parse_message text) as [[| | | | | | |tags]|]; try apply AM; [|split; [split; assumption|reflexivity]].
    destruct (AL tags false) as [[A1 A2] A3]. split; [split; assumption|exact A3].
  - apply AL.
  - destruct (existsb _ _); [apply AM|split; [split; assumption|reflexivity]].
  - destruct (nth_error (st_msgs s) i) as [[|]|]; try (split; [split; assumption|reflexivity]). apply AL.
  - destruct (existsb (Nat.eqb b) (st_known s)) eqn:E; [|split; [split; assumption|reflexivity]].
    split; [split; assumption|]. cbn. unfold set_cell. destruct (Nat.eqb_spec a b) as [->|]; [|reflexivity]. apply known_in in E. contradiction.
Qed.

Lemma hidden_run acts : forall s a, hidden s a -> st_cells (run s acts) a = st_cells s a.
Proof.
  induction acts as [|x acts IH]; intros s a H; [reflexivity|]. destruct (hidden_step s x a H) as [H1 H2].
  change (run s (x :: acts)) with (run (step s x) acts). rewrite IH by exact H1. exact H2.
Qed.

(** A parsed message reads the same for ever. *)
Theorem parsed_stable before text m acts : parse_message text = Ok m ->
  view (run (step (run empty_store before) (Parse text)) acts) (length (st_msgs (run empty_store before))) = Some m.
Proof.
  intros P. pose proof (sane_run before _ sane_empty) as S. set (s := run empty_store before) in *. clearbody s.
  assert (T : forall m', Ok m = Ok m' -> nth_error (st_msgs (add_msg s (Tuple m'))) (length (st_msgs s)) = Some (Tuple m')).
  { intros m' _. cbn. rewrite nth_error_app2, Nat.sub_diag by lia. reflexivity. }
  unfold view. cbn [step]. rewrite P.
  destruct m; try (erewrite nth_run; [|apply T; reflexivity]; reflexivity).
  set (s1 := add_msg (alloc s tags false) (ListAt (st_next s))).
  assert (N : nth_error (st_msgs s1) (length (st_msgs s)) = Some (ListAt (st_next s))).
  { cbn. rewrite nth_error_app2, Nat.sub_diag by lia. reflexivity. }
  rewrite (nth_run acts _ _ _ N). rewrite hidden_run.
  - cbn. unfold set_cell. rewrite Nat.eqb_refl. reflexivity.
  - split; cbn; [lia|]. intros X. destruct S as [S _]. rewrite Forall_forall in S. specialize (S _ X). lia.
Qed.

(** ** A message made from a list *)

(** It shows the current content of the list, for ever. *)
Theorem built_follows before a acts : In a (st_known (run empty_store before)) ->
  let s := run empty_store before in
  view (run (step s (Build a)) acts) (length (st_msgs s)) = Some (MGeneric (st_cells (run (step s (Build a)) acts) a)).
Proof.
  intros K s. unfold view. assert (N : nth_error (st_msgs (step s (Build a))) (length (st_msgs s)) = Some (ListAt a)).
  { cbn [step]. replace (existsb (Nat.eqb a) (st_known s)) with true by (symmetry; apply known_in, K). cbn.
    rewrite nth_error_app2, Nat.sub_diag by lia. reflexivity. }
  rewrite (nth_run acts _ _ _ N). reflexivity.
Qed.

(** Only a modification of that very list changes its content. *)
Lemma cell_changes s x a : sane s -> (a < st_next s)%nat -> (forall l, x <> Mutate a l) -> st_cells (step s x) a = st_cells s a.
Proof.
  intros [S _] L H.
  assert (AL : forall l b, st_cells (alloc s l b) a = st_cells s a).
  { intros l b. cbn. unfold set_cell. replace (a =? st_next s)%nat with false by (symmetry; apply Nat.eqb_neq; lia). reflexivity. }
  destruct x as [text|l|b|i|b l]; cbn [step].
  - destruct (parse_message text) as [[| | | | | | |tags]|]; try reflexivity. apply (AL tags false).
  - apply AL.
  - destruct (existsb _ _); reflexivity.
  - destruct (nth_error (st_msgs s) i) as [[|]|]; try reflexivity. apply AL.
  - destruct (existsb _ _); [|reflexivity]. cbn. unfold set_cell. destruct (Nat.eqb_spec a b) as [->|]; [|reflexivity]. exfalso. eapply H. reflexivity.
Qed.

(** ** The copy returned by tags *)

(** A history without the modifications of one list. *)
Definition without (a : nat) (acts : list act) : list act :=
  filter (fun x => match x with Mutate b _ => negb (b =? a)%nat | _ => true end) acts.

(** Two stores that differ in the contents of some lists only. *)
Definition similar (T : nat -> bool) (s t : store) : Prop :=
  st_next s = st_next t /\ st_known s = st_known t /\ st_msgs s = st_msgs t /\ (forall b, T b = false -> st_cells s b = st_cells t b).

Lemma similar_alloc T s t l l' k : sane s -> similar T s t -> (forall b, T b = true -> (b < st_next s)%nat) ->
  exists T', similar T' (alloc s l k) (alloc t l' k) /\ (forall b, (b < st_next s)%nat -> T' b = T b) /\ (forall b, T' b = true -> (b < S (st_next s))%nat) /\
    (l = l' -> T' (st_next s) = false).
Proof.
  intros _ (N & K & M & C) B.
  destruct (list_eq_dec (list_eq_dec N.eq_dec) l l') as [E|E].
  - exists T. split; [|split; [reflexivity|split; [intros b Hb; specialize (B b Hb); lia|]]].
    + repeat split; cbn; try congruence; [rewrite N, K; reflexivity|].
      intros b Hb. unfold set_cell. rewrite N. destruct (b =? st_next t)%nat; [exact E|apply C, Hb].
    + intros _. destruct (T (st_next s)) eqn:X; [|reflexivity]. specialize (B _ X). lia.
  - exists (fun b => (b =? st_next s)%nat || T b). split; [|split; [|split]].
    + repeat split; cbn; try congruence; [rewrite N, K; reflexivity|].
      intros b Hb. apply orb_false_iff in Hb as [H1 H2]. unfold set_cell. rewrite <- N, H1. apply C, H2.
    + intros b Hb. replace (b =? st_next s)%nat with false by (symmetry; apply Nat.eqb_neq; lia). reflexivity.
    + intros b Hb. apply orb_true_iff in Hb as [Hb|Hb]; [apply Nat.eqb_eq in Hb; lia|specialize (B b Hb); lia].
    + contradiction.
Qed.

Lemma similar_add T s t h : similar T s t -> similar T (add_msg s h) (add_msg t h).
Proof. intros (N & K & M & C). repeat split; cbn; try assumption. rewrite M. reflexivity. Qed.

(** One step on both sides; the tainted set grows only above [n]. *)
Lemma similar_step n T s t x : (n <= st_next s)%nat -> sane s -> similar T s t -> (forall b, T b = true -> (b < st_next s)%nat) ->
  exists T', similar T' (step s x) (step t x) /\ (forall b, (b < n)%nat -> T' b = T b) /\ (forall b, T' b = true -> (b < st_next (step s x))%nat) /\ (n <= st_next (step s x))%nat.
Proof.
  intros L Sa R B. pose proof R as (N & K & M & C).
  assert (AL : forall l l' k, exists T', similar T' (alloc s l k) (alloc t l' k) /\ (forall b, (b < n)%nat -> T' b = T b) /\ (forall b, T' b = true -> (b < S (st_next s))%nat)).
  { intros l l' k. destruct (similar_alloc T s t l l' k Sa R B) as (T' & A1 & A2 & A3 & _). exists T'. split; [exact A1|]. split; [|exact A3]. intros b Hb. apply A2. lia. }
  destruct x as [text|l|a|i|a l]; cbn [step].
  - destruct (parse_message text) as [[| | | | | | |tags]|];
      try (exists T; split; [apply similar_add, R|split; [reflexivity|split; [exact B|cbn; lia]]]); try (exists T; split; [exact R|split; [reflexivity|split; [exact B|lia]]]).
    destruct (AL tags tags false) as (T' & A1 & A2 & A3). exists T'. rewrite <- N. split; [apply similar_add, A1|]. split; [exact A2|]. split; [exact A3|cbn; lia].
  - destruct (AL l l true) as (T' & A1 & A2 & A3). exists T'. split; [exact A1|]. split; [exact A2|]. split; [exact A3|cbn; lia].
  - rewrite <- K. destruct (existsb _ _); exists T; (split; [|split; [reflexivity|split; [exact B|cbn; lia]]]); [apply similar_add, R|exact R].
  - rewrite <- M. destruct (nth_error (st_msgs s) i) as [[|a]|]; try (exists T; split; [exact R|split; [reflexivity|split; [exact B|lia]]]).
    destruct (AL (st_cells s a) (st_cells t a) true) as (T' & A1 & A2 & A3). exists T'. split; [exact A1|]. split; [exact A2|]. split; [exact A3|cbn; lia].
  - rewrite <- K. destruct (existsb _ _); exists T; (split; [|split; [reflexivity|split; [exact B|cbn; lia]]]); [|exact R].
    repeat split; cbn; try assumption. intros b Hb. unfold set_cell. destruct (b =? a)%nat; [reflexivity|apply C, Hb].
Qed.

Lemma similar_run n a acts : forall T s t, (n <= a)%nat -> (n <= st_next s)%nat -> (a < st_next s)%nat -> T a = true -> sane s -> similar T s t -> (forall b, T b = true -> (b < st_next s)%nat) ->
  exists T', similar T' (run s acts) (run t (without a acts)) /\ (forall b, (b < n)%nat -> T' b = T b).
Proof.
  induction acts as [|x acts IH]; intros T s t NA L LA TA Sa R B.
  - exists T. split; [exact R|reflexivity].
  - cbn [without filter]. fold (without a acts).
    destruct (match x with Mutate b _ => negb (b =? a)%nat | _ => true end) eqn:E.
    + destruct (similar_step (S a) T s t x LA Sa R B) as (T1 & R1 & A1 & B1 & L1).
      destruct (IH T1 (step s x) (step t x)) as (T2 & R2 & A2); try assumption; try lia.
      * rewrite A1 by lia. exact TA.
      * apply sane_step, Sa.
      * exists T2. split; [exact R2|]. intros b Hb. rewrite A2 by exact Hb. apply A1. lia.
    + destruct x as [text|l|b|i|b l]; try discriminate. apply negb_false_iff, Nat.eqb_eq in E. subst b.
      change (run s (Mutate a l :: acts)) with (run (step s (Mutate a l)) acts).
      destruct (IH T (step s (Mutate a l)) t) as (T2 & R2 & A2); try assumption.
      * cbn [step]. destruct (existsb _ _); cbn; lia.
      * cbn [step]. destruct (existsb _ _); cbn; lia.
      * apply sane_step, Sa.
      * destruct R as (N & K & M & C). cbn [step]. destruct (existsb _ _); repeat split; cbn; try assumption.
        intros b Hb. unfold set_cell. destruct (Nat.eqb_spec b a); [congruence|apply C, Hb].
      * cbn [step]. destruct (existsb _ _); cbn; assumption.
      * exists T2. split; [exact R2|exact A2].
Qed.

Lemma similar_refl T s : similar T s s.
Proof. repeat split. Qed.

(** tags of a generic message hands out a new list with the same content. *)
Theorem tags_copy before i : let s := run empty_store before in
  In (st_next s) (st_known (step s (Tags i))) ->
  view s i = Some (MGeneric (st_cells (step s (Tags i)) (st_next s))) /\
  (forall j, view (step s (Tags i)) j = view s j) /\ ~ In (st_next s) (st_known s).
Proof.
  intros s. pose proof (sane_run before _ sane_empty) as Sa. fold s in Sa. clearbody s.
  assert (F : ~ In (st_next s) (st_known s)) by (intros X; destruct Sa as [Sa _]; rewrite Forall_forall in Sa; specialize (Sa _ X); lia).
  cbn [step]. destruct (nth_error (st_msgs s) i) as [[m|a]|] eqn:E; intros H; try contradiction.
  assert (V : forall j, view (alloc s (st_cells s a) true) j = view s j).
  { intros j. unfold view. cbn. destruct (nth_error (st_msgs s) j) as [[|b]|] eqn:J; try reflexivity. unfold set_cell.
    destruct Sa as [_ Sa]. rewrite Forall_forall in Sa. specialize (Sa _ (nth_error_In _ _ J)). cbn in Sa.
    replace (b =? st_next s)%nat with false by (symmetry; apply Nat.eqb_neq; lia). reflexivity. }
  split; [|split; [exact V|exact F]]. unfold view. rewrite E. cbn. unfold set_cell. rewrite Nat.eqb_refl. reflexivity.
Qed.

(** What is done to the list returned by tags never shows in a message that
    existed when tags was called. *)
Theorem tags_independent before i acts j : let s := run empty_store before in
  In (st_next s) (st_known (step s (Tags i))) -> (j < length (st_msgs s))%nat ->
  view (run (step s (Tags i)) acts) j = view (run (step s (Tags i)) (without (st_next s) acts)) j.
Proof.
  intros s H J. pose proof (sane_run before _ sane_empty) as Sa. fold s in Sa. clearbody s.
  assert (F : ~ In (st_next s) (st_known s)) by (intros X; destruct Sa as [Sa _]; rewrite Forall_forall in Sa; specialize (Sa _ X); lia).
  destruct (nth_error (st_msgs s) j) as [h|] eqn:HJ; [|apply nth_error_None in HJ; lia].
  assert (V : forall acts, nth_error (st_msgs (run (step s (Tags i)) acts)) j = Some h) by (intros; apply nth_run, nth_step, HJ).
  unfold view. rewrite !V. destruct h as [m|b]; [reflexivity|].
  assert (Hb : (b < st_next s)%nat) by (destruct Sa as [_ Sb]; rewrite Forall_forall in Sb; apply (Sb _ (nth_error_In _ _ HJ))).
  assert (N : st_next (step s (Tags i)) = S (st_next s)).
  { cbn [step] in *. destruct (nth_error (st_msgs s) i) as [[m|a]|]; try contradiction. reflexivity. }
  destruct (similar_run (st_next s) (st_next s) acts (fun c => (c =? st_next s)%nat) (step s (Tags i)) (step s (Tags i))) as (T & (_ & _ & _ & C) & A).
  - lia.
  - lia.
  - lia.
  - apply Nat.eqb_refl.
  - apply sane_step, Sa.
  - apply similar_refl.
  - intros c Hc. apply Nat.eqb_eq in Hc. lia.
  - rewrite C; [reflexivity|]. rewrite A by exact Hb. apply Nat.eqb_neq. lia.
Qed.

(** Every generic message holds a list. *)
Definition lists (s : store) : Prop := Forall (fun h => match h with Tuple (MGeneric _) => False | _ => True end) (st_msgs s).

Lemma lists_add s h : lists s -> (match h with Tuple (MGeneric _) => False | _ => True end) -> lists (add_msg s h).
Proof. intros H X. unfold lists. cbn. apply Forall_app. split; [exact H|]. constructor; [exact X|constructor]. Qed.

Lemma lists_step s x : lists s -> lists (step s x).
Proof.
  intros H. destruct x as [text|l|a|i|a l]; cbn [step].
  - destruct (parse_message text) as [[| | | | | | |tags]|]; try (apply lists_add; [exact H|exact I]); try exact H.
  - exact H.
  - destruct (existsb _ _); [apply lists_add; [exact H|exact I]|exact H].
  - destruct (nth_error (st_msgs s) i) as [[|]|]; exact H.
  - destruct (existsb _ _); exact H.
Qed.

Lemma lists_run acts : forall s, lists s -> lists (run s acts).
Proof. induction acts as [|x acts IH]; intros s H; [exact H|]. apply IH, lists_step, H. Qed.

Lemma handed before i l : let s := run empty_store before in
  view s i = Some (MGeneric l) -> In (st_next s) (st_known (step s (Tags i))).
Proof.
  intros s V. assert (H : lists s) by (apply lists_run; constructor). clearbody s. unfold view in V. cbn [step].
  destruct (nth_error (st_msgs s) i) as [[m|a]|] eqn:E; [| |discriminate].
  - unfold lists in H. rewrite Forall_forall in H. specialize (H _ (nth_error_In _ _ E)). cbn in H. injection V as ->. destruct H.
  - left. reflexivity.
Qed.
