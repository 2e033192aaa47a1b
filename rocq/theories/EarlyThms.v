(** * Proofs about a client used while its start() is under way *)
From Coq Require Import String List NArith ZArith Bool Lia.
From Verif Require Import PyStr Tags Messages AuthOpen AuthHmac IO Client Items Queue QueueThms Starts SpecStarts StartsThms StartsThms3 Early SpecEarly.
Import ListNotations.
Open Scope N_scope.
Open Scope list_scope.

Local Ltac got E := apply some_inj in E; match type of E with _ = ?v => subst v end.

Lemma prog_normal it what s : cl_proto (it_client it) = true -> cl_session (it_client it) <> Event ->
  run_prog (normal_prog it what) s = send_normal_message it what s.
Proof.
  intros P S. unfold normal_prog, send_normal_message. rewrite plift_run. unfold andthen at 1, lift. destruct (create_normal_message it what) as [m|e]; [|reflexivity].
  assert (CS : is_cmd_session (it_client it) = true) by (unfold is_cmd_session; destruct (cl_session (it_client it)); congruence).
  unfold item_send, item_read, client_send, client_read, put, lift, take, andthen. rewrite P, CS. cbn.
  destruct (msg_bytes m) as [b|e]; [|reflexivity]. destruct s as [|[m'|] s']; try reflexivity. unfold check_ack. destruct (mtype_eqb (msg_type m') T_ACK); reflexivity.
Qed.

Section Run.
Context (C : crypto) (ty : session) (pw : str) (rnd : nat -> list N).
Local Notation estep := (estep C ty pw rnd).
Local Notation erun := (erun C ty pw rnd).
Local Notation start t := (start_prog C ty pw (rnd t)).

Lemma erun_snoc l a s : erun s (l ++ [a]) = match erun s l with Some s1 => estep s1 a | None => None end.
Proof. revert s. induction l as [|b l IH]; intros s; cbn; [destruct (estep s a); reflexivity|]. destruct (estep s b); auto. Qed.

(** A task that has not begun may still be given any program. *)
Lemma along_change pr pr' t cs x : pr' t = pr t -> along pr t cs x -> along pr' t cs x.
Proof. intros E (es & p & A). exists es, p. rewrite E. exact A. Qed.
Lemma along_new pr pr' t cs : along pr t cs TNew -> along pr' t cs TNew.
Proof. intros (es & p & Co & Ta & Gi & -> & ->). exists [], (pr' t). split; [apply comes_refl|]. auto. Qed.

Definition chosen (t : nat) (p : prog) (pr : nat -> prog) (j : nat) : prog := if Nat.eqb j t then p else pr j.

Lemma all_chosen pr t p s : all_along pr s -> nth_error (s_calls s) t = Some TNew -> all_along (chosen t p pr) s.
Proof.
  intros [K A] T. split; [exact K|]. intros j x H. specialize (A j x H). destruct (Nat.eq_dec j t) as [->|D].
  - rewrite T in H. injection H as <-. apply (along_new pr), A.
  - apply (along_change pr); [|exact A]. unfold chosen. destruct (Nat.eqb_spec j t); [contradiction|reflexivity].
Qed.

Lemma use_along pr s t s' : all_along pr s -> estep s (EUse t (pr t)) = Some s' -> all_along pr s'.
Proof.
  intros [K A] E. cbn [Early.estep] in E. destruct (nth_error (s_calls s) t) as [x|] eqn:T; [|discriminate]. destruct x; try discriminate. got E.
  destruct (A t TNew T) as (es0 & p0 & Co0 & Ta0 & Gi0 & -> & ->). cbn in Ta0, Gi0.
  assert (SETT : forall y z, nth_error (setnth t y (s_calls s)) t = Some z -> z = y).
  { intros y z H. assert (Lt : (t < length (setnth t y (s_calls s)))%nat) by (apply nth_error_Some; congruence). rewrite setnth_length in Lt. rewrite setnth_same in H by exact Lt. congruence. }
  unfold all_along, current_last in *. destruct (s_current s) as [L|] eqn:Cu.
  - destruct (go t (Some L) (pr t) (s_conns s)) as [cs y] eqn:G. cbn [set_call s_conns s_current s_calls fst snd].
    destruct (go_entries t L (pr t) (s_conns s) cs y K G) as (es & p' & Gi & Ta & Oth & Len & Co & X). rewrite Cu. split; [congruence|].
    intros j x H. destruct (Nat.eq_dec t j) as [->|D].
    + apply SETT in H. subst x. exists es, p'. split; [exact Co|]. split; [rewrite Ta, Ta0; reflexivity|]. split; [rewrite Gi, Gi0; reflexivity|].
      destruct X as [(k & -> & ->)|(r & -> & ->)]; [|auto]. split; [reflexivity|]. split; [lia|]. intros i c Li Ni. assert (i < length cs)%nat by (apply nth_error_Some; congruence). lia.
    + rewrite setnth_other in H by exact D. destruct (Oth j ltac:(congruence)) as (G1 & T1 & N1). refine (along_conns pr j (s_conns s) cs x T1 G1 _ _ (A j x H)); [lia|auto].
  - destruct (go_none t (pr t) (s_conns s)) as (y & G & Y). rewrite G. cbn [set_call s_conns s_current s_calls fst snd]. rewrite Cu. split; [exact I|].
    intros j x H. destruct (Nat.eq_dec t j) as [->|D]; [|rewrite setnth_other in H by exact D; exact (A j x H)].
    apply SETT in H. subst x. exists [], (pr j). split; [apply comes_refl|]. split; [exact Ta0|]. split; [exact Gi0|]. destruct Y as [(r & -> & ->)| ->]; auto.
Qed.

(** Which tasks have begun. *)
Definition begun (l : list eact) (pr : nat -> prog) (t : nat) (x : stask) : Prop :=
  match x with TNew | TCancelled | TEnded (Err TimeoutError) => True | _ => begins t l (start t) (pr t) end.

Lemma begins_more l a t st p : begins t l st p -> begins t (l ++ [a]) st p.
Proof. intros [H|[H E]]; [left|right; split; [|exact E]]; apply in_or_app; auto. Qed.
Lemma begun_more l a pr t x : begun l pr t x -> begun (l ++ [a]) pr t x.
Proof. destruct x as [|? ?|[u|[]]|]; cbn; auto using begins_more. Qed.

Lemma erun_along n l : forall s, erun (before_starts n) l = Some s -> exists pr, all_along pr s /\ forall t x, nth_error (s_calls s) t = Some x -> begun l pr t x.
Proof.
  induction l as [|a l IH] using rev_ind; intros s R.
  - injection R as <-. exists (fun t => start t). split; [apply along_before|]. intros t x H. apply nth_error_In in H. cbn in H. apply repeat_spec in H. subst x. exact I.
  - rewrite erun_snoc in R. destruct (erun (before_starts n) l) as [s1|] eqn:R1; [|discriminate]. destruct (IH s1 eq_refl) as (pr & A & B).
    assert (KEEP : forall t p j x, j <> t -> nth_error (s_calls s1) j = Some x -> begun (l ++ [a]) (chosen t p pr) j x).
    { intros t p j x D H. apply begun_more. specialize (B j x H). unfold begun in *. replace (chosen t p pr j) with (pr j); [exact B|]. unfold chosen. destruct (Nat.eqb_spec j t); [contradiction|reflexivity]. }
    destruct a as [a|t p].
    + cbn [Early.estep] in R. destruct (connects a) eqn:Ca.
      * destruct a; try discriminate. exists (chosen t (start t) pr).
        assert (T : nth_error (s_calls s1) t = Some TNew) by (cbn [sstep] in R; destruct (nth_error (s_calls s1) t) as [[]|]; congruence).
        split.
        -- apply (along_step C ty pw rnd (chosen t (start t) pr) s1 (SConnect t)); [|apply all_chosen; assumption|exact R]. intros t0 E. injection E as <-. unfold chosen. rewrite Nat.eqb_refl. reflexivity.
        -- intros j x H. cbn [sstep] in R. rewrite T in R. cbv zeta in R. got R. cbn [set_call s_calls] in H. destruct (Nat.eq_dec j t) as [->|D].
           ++ assert (BG : begins t (l ++ [EStarts (SConnect t)]) (start t) (chosen t (start t) pr t)).
              { right. split; [apply in_or_app; right; left; reflexivity|]. unfold chosen. rewrite Nat.eqb_refl. reflexivity. }
              unfold begun. destruct x as [|? ?|[u|[]]|]; auto.
           ++ rewrite setnth_other in H by congruence. apply KEEP; assumption.
      * exists pr. split; [apply (along_step C ty pw rnd pr s1 a); [intros t ->; discriminate|exact A|exact R]|].
        intros j x H.
        assert (OLD : nth_error (s_calls s1) j = Some x -> begun (l ++ [EStarts a]) pr j x) by (intros H1; apply begun_more, B, H1).
        destruct a as [t|t|i ms|i|t|t|t|]; try discriminate; cbn [sstep] in R; try (got R; apply OLD, H).
        -- destruct (nth_error (s_calls s1) t) as [[]|] eqn:T; try discriminate. got R. cbn [set_call s_calls snd] in H. destruct (Nat.eq_dec t j) as [->|D]; [|rewrite setnth_other in H by exact D; auto].
           rewrite setnth_same in H by (apply nth_error_Some; congruence). injection H as <-. exact I.
        -- destruct (nth_error (s_calls s1) t) as [y|] eqn:T; [|discriminate]. destruct y as [|i k| |]; try discriminate.
           destruct (nth_error (s_conns s1) i) as [ci|]; [|discriminate]. destruct (n_unread ci); [discriminate|]. got R. cbn [set_call s_calls] in H. destruct (Nat.eq_dec t j) as [->|D]; [|rewrite setnth_other in H by exact D; auto].
           specialize (B j _ T). cbn in B. apply (begins_more _ (EStarts (SWake j))) in B. unfold begun. destruct x as [|? ?|[u|[]]|]; auto.
        -- destruct (nth_error (s_calls s1) t) as [[]|] eqn:T; try discriminate. got R. cbn [set_call s_calls snd] in H. destruct (Nat.eq_dec t j) as [->|D]; [|rewrite setnth_other in H by exact D; auto].
           rewrite setnth_same in H by (apply nth_error_Some; congruence). injection H as <-. exact I.
        -- destruct (nth_error (s_calls s1) t) as [[]|] eqn:T; try discriminate; got R; cbn [set_call s_calls snd] in H; (destruct (Nat.eq_dec t j) as [->|D]; [|rewrite setnth_other in H by exact D; auto]);
             (rewrite setnth_same in H by (apply nth_error_Some; congruence); injection H as <-; exact I).
    + exists (chosen t p pr).
      assert (T : nth_error (s_calls s1) t = Some TNew) by (cbn [Early.estep] in R; destruct (nth_error (s_calls s1) t) as [[]|]; congruence).
      assert (CH : chosen t p pr t = p) by (unfold chosen; rewrite Nat.eqb_refl; reflexivity).
      split.
      * apply (use_along (chosen t p pr) s1 t s); [apply all_chosen; assumption|rewrite CH; exact R].
      * intros j x H. cbn [Early.estep] in R. rewrite T in R. got R. cbn [set_call s_calls] in H. destruct (Nat.eq_dec j t) as [->|D].
        -- assert (BG : begins t (l ++ [EUse t p]) (start t) (chosen t p pr t)) by (left; rewrite CH; apply in_or_app; right; left; reflexivity).
           unfold begun. destruct x as [|? ?|[u|[]]|]; auto.
        -- rewrite setnth_other in H by congruence. apply KEEP; assumption.
Qed.

(** A task begins once. *)
Lemma begins_once n l s t : erun (before_starts n) l = Some s -> nth_error (s_calls s) t = Some TNew -> forall p, ~ begins t l (start t) p.
Proof.
  revert s. induction l as [|a l IH] using rev_ind; intros s R T p B.
  - destruct B as [[]|[[] _]].
  - rewrite erun_snoc in R. destruct (erun (before_starts n) l) as [s1|] eqn:R1; [|discriminate].
    assert (T1 : nth_error (s_calls s1) t = Some TNew /\ (forall q, a <> EUse t q) /\ a <> EStarts (SConnect t)).
    { assert (SET : forall j y z, nth_error (setnth j y (s_calls s1)) t = Some TNew -> nth_error (s_calls s1) j = Some z -> y <> TNew -> nth_error (s_calls s1) t = Some TNew /\ j <> t).
      { intros j y z H J Y. destruct (Nat.eq_dec j t) as [->|D]; [rewrite setnth_same in H by (apply nth_error_Some; congruence); congruence|rewrite setnth_other in H by exact D; auto]. }
      assert (GO : forall j cur p0 cs, snd (go j cur p0 cs) <> TNew).
      { intros j cur p0. induction p0 as [m k IHp|k IHp|r]; intros cs; cbn [go]; [| |discriminate].
        - destruct cur; [|discriminate]. destruct (msg_bytes m); [apply IHp|discriminate].
        - destruct cur; [|discriminate]. destruct (nth_error cs n0) as [c|]; [|discriminate]. destruct (n_unread c); [discriminate|apply IHp]. }
      destruct a as [a|j q]; cbn [Early.estep] in R.
      - destruct a as [j|j|i ms|i|j|j|j|]; cbn [sstep] in R; try (got R; split; [exact T|split; [intros; discriminate|discriminate]]).
        + destruct (nth_error (s_calls s1) j) as [[]|] eqn:J; try discriminate. cbv zeta in R. got R. cbn [set_call s_calls] in T. destruct (SET j _ _ T J (GO _ _ _ _)) as [T1 D]. split; [exact T1|]. split; [intros; discriminate|congruence].
        + destruct (nth_error (s_calls s1) j) as [[]|] eqn:J; try discriminate. got R. cbn [set_call s_calls snd] in T. destruct (SET j _ _ T J ltac:(discriminate)) as [T1 D]. split; [exact T1|]. split; [intros; discriminate|discriminate].
        + destruct (nth_error (s_calls s1) j) as [y|] eqn:J; [|discriminate]. destruct y as [|i k| |]; try discriminate. destruct (nth_error (s_conns s1) i) as [ci|]; [|discriminate]. destruct (n_unread ci); [discriminate|]. got R.
          cbn [set_call s_calls] in T. destruct (SET j _ _ T J (GO _ _ _ _)) as [T1 D]. split; [exact T1|]. split; [intros; discriminate|discriminate].
        + destruct (nth_error (s_calls s1) j) as [[]|] eqn:J; try discriminate. got R. cbn [set_call s_calls snd] in T. destruct (SET j _ _ T J ltac:(discriminate)) as [T1 D]. split; [exact T1|]. split; [intros; discriminate|discriminate].
        + destruct (nth_error (s_calls s1) j) as [[]|] eqn:J; try discriminate; got R; cbn [set_call s_calls snd] in T; destruct (SET j _ _ T J ltac:(discriminate)) as [T1 D]; (split; [exact T1|]; split; [intros; discriminate|discriminate]).
      - destruct (nth_error (s_calls s1) j) as [[]|] eqn:J; try discriminate. got R. cbn [set_call s_calls] in T. destruct (SET j _ _ T J (GO _ _ _ _)) as [T1 D]. split; [exact T1|]. split; [congruence|discriminate]. }
    destruct T1 as (T1 & U & S0). apply (IH s1 eq_refl T1 p). destruct B as [B|[B E]]; apply in_app_or in B; destruct B as [B|[B|[]]].
    + left. exact B.
    + exfalso. apply (U p B).
    + right. auto.
    + contradiction.
Qed.

Lemma begins_unique n l s t p q : erun (before_starts n) l = Some s -> begins t l (start t) p -> begins t l (start t) q -> p = q.
Proof.
  revert s. induction l as [|a l IH] using rev_ind; intros s R P Q.
  - destruct P as [[]|[[] _]].
  - rewrite erun_snoc in R. destruct (erun (before_starts n) l) as [s1|] eqn:R1; [|discriminate].
    assert (CASE : forall p, begins t (l ++ [a]) (start t) p -> begins t l (start t) p \/ (a = EUse t p \/ (a = EStarts (SConnect t) /\ p = start t))).
    { intros p0 [B|[B E]]; apply in_app_or in B; destruct B as [B|[B|[]]]; [left; left; exact B|right; left; congruence|left; right; auto|right; right; auto]. }
    assert (NEW : (exists p0, a = EUse t p0) \/ a = EStarts (SConnect t) -> nth_error (s_calls s1) t = Some TNew).
    { intros [(p0 & ->)| ->]; cbn [Early.estep sstep] in R; destruct (nth_error (s_calls s1) t) as [[]|]; congruence. }
    destruct (CASE p P) as [P1|P1], (CASE q Q) as [Q1|Q1].
    + apply (IH s1 eq_refl P1 Q1).
    + exfalso. refine (begins_once n l s1 t R1 (NEW _) p P1). destruct Q1 as [->|[-> _]]; eauto.
    + exfalso. refine (begins_once n l s1 t R1 (NEW _) q Q1). destruct P1 as [->|[-> _]]; eauto.
    + destruct P1 as [P1|[P1 P2]], Q1 as [Q1|[Q1 Q2]]; congruence.
Qed.

(** Before the first connection. *)
Lemma before_any n l : forall s, erun (before_starts n) l = Some s -> (forall t, ~ In (EStarts (SConnect t)) l) -> s_conns s = [] /\ s_current s = None /\
  forall t p, In (EUse t p) l -> (forall r, p <> PEnd r) -> nth_error (s_calls s) t = Some (TEnded (Err InvalidSession)).
Proof.
  induction l as [|a l IH] using rev_ind; intros s R NC.
  - injection R as <-. split; [reflexivity|]. split; [reflexivity|]. intros t p [].
  - rewrite erun_snoc in R. destruct (erun (before_starts n) l) as [s1|] eqn:R1; [|discriminate].
    destruct (IH s1 eq_refl) as (Cs & Cu & U); [intros t J; apply (NC t), in_or_app; auto|].
    assert (SETT : forall j y t z, nth_error (s_calls s1) j = Some z -> z <> TEnded (Err InvalidSession) -> nth_error (s_calls s1) t = Some (TEnded (Err InvalidSession)) -> nth_error (setnth j y (s_calls s1)) t = Some (TEnded (Err InvalidSession))).
    { intros j y t z J Z T. destruct (Nat.eq_dec j t) as [->|D]; [congruence|]. rewrite setnth_other by exact D. exact T. }
    destruct a as [a|t p].
    + assert (OLD : forall t p, In (EUse t p) (l ++ [EStarts a]) -> In (EUse t p) l) by (intros t p J; apply in_app_or in J; destruct J as [J|[J|[]]]; [exact J|discriminate]).
      destruct a as [j|j|i ms|i|j|j|j|]; cbn [Early.estep sstep] in R.
      * exfalso. apply (NC j), in_or_app. right. left. reflexivity.
      * destruct (nth_error (s_calls s1) j) as [[]|] eqn:J; try discriminate. got R. cbn [set_call s_conns s_current s_calls fst snd]. split; [exact Cs|]. split; [exact Cu|]. intros t p In1 P. eapply SETT; eauto. discriminate.
      * got R. cbn [s_conns s_current s_calls]. rewrite Cs. split; [unfold on_conn; destruct i; reflexivity|]. split; [exact Cu|]. intros t p In1 P. eauto.
      * got R. cbn [s_conns s_current s_calls]. rewrite Cs. split; [unfold on_conn; destruct i; reflexivity|]. split; [exact Cu|]. intros t p In1 P. eauto.
      * destruct (nth_error (s_calls s1) j) as [y|] eqn:J; [|discriminate]. destruct y as [|i k| |]; try discriminate. rewrite Cs in R. destruct i; discriminate.
      * destruct (nth_error (s_calls s1) j) as [[]|] eqn:J; try discriminate. got R. cbn [set_call s_conns s_current s_calls fst snd]. split; [exact Cs|]. split; [exact Cu|]. intros t p In1 P. eapply SETT; eauto. discriminate.
      * destruct (nth_error (s_calls s1) j) as [[]|] eqn:J; try discriminate; got R; cbn [set_call s_conns s_current s_calls fst snd]; (split; [exact Cs|]; split; [exact Cu|]; intros t p In1 P; eapply SETT; eauto; discriminate).
      * got R. cbn [s_conns s_current s_calls]. rewrite Cu. split; [exact Cs|]. split; [reflexivity|]. intros t p In1 P. eauto.
    + cbn [Early.estep] in R. destruct (nth_error (s_calls s1) t) as [[]|] eqn:J; try discriminate. got R. rewrite Cu.
      destruct (go_none t p (s_conns s1)) as (y & G & Y). rewrite G. cbn [set_call s_conns s_current s_calls fst snd]. split; [exact Cs|]. split; [exact Cu|].
      intros t' p' In1 P. apply in_app_or in In1. destruct In1 as [In1|[In1|[]]].
      * eapply SETT; eauto. discriminate.
      * injection In1 as <- <-. rewrite setnth_same by (apply nth_error_Some; congruence). destruct Y as [(r & E & _)| ->]; [exfalso; apply (P r E)|reflexivity].
Qed.
End Run.
