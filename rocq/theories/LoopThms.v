(** * Proofs about loop() called late and again *)
From Coq Require Import String List NArith ZArith Bool Lia.
From Verif Require Import PyStr Tags Messages SpecMsg SpecEnergy EnergyThms Protocol IO Client Items Energy Dispatch SpecDispatch DispatchThms DispatchThms2
  Loop SpecLoop.
Import ListNotations.
Open Scope N_scope.
Open Scope list_scope.

Lemma lrun_snoc v s xs x : lrun v s (xs ++ [x]) = lstep v (lrun v s xs) x.
Proof. unfold lrun. rewrite fold_left_app. reflexivity. Qed.

Lemma callbacks_snoc r xs k c : callbacks r (xs ++ [Do (Register k c)]) = register (callbacks r xs) k c.
Proof.
  revert r. induction xs as [|b xs IH]; intros r; cbn [app callbacks]; [reflexivity|]. destruct b as [[]|]; apply IH.
Qed.

Lemma callbacks_other r xs x : (forall k c, x <> Do (Register k c)) -> callbacks r (xs ++ [x]) = callbacks r xs.
Proof.
  intros H. revert r. induction xs as [|b xs IH]; intros r; cbn [app callbacks].
  - destruct x as [[]|]; try reflexivity. exfalso. eapply H. reflexivity.
  - destruct b as [[]|]; apply IH.
Qed.

Lemma drain_stray_sound v r pre m post : v < 13 -> forall its ts, Forall built (pre ++ m :: post) -> sound its ->
  Forall (fun m => ~ stray m) pre -> stray m ->
  exists l tss e, drain v r (Some false) (pre ++ m :: post) its ts = (post, its ++ l, ts ++ concat tss, Failed e) /\
    (e = IndexError \/ e = InvalidTag) /\ sound (its ++ l) /\ Forall2 (fun m t => made (its ++ l) r m t) pre tss.
Proof.
  intros Hv. induction pre as [|m' pre IH]; intros its ts B S NS St; cbn [app drain].
  - inversion B as [|? ? Bm Bq]; subst. destruct (handle v r its m) as [[its1 ts1] x] eqn:H.
    destruct (handle_spec v r its m its1 ts1 x Hv Bm S H) as (_ & _ & [(-> & N1 & _)|(_ & -> & -> & whr & _ & C)]); [contradiction|].
    exists [], []. cbn [concat]. rewrite !app_nil_r. destruct C as [[-> _]|[-> _]]; eexists; (split; [reflexivity|]); (split; [tauto|]); (split; [exact S|constructor]).
  - inversion B as [|? ? Bm Bq]; subst. inversion NS as [|? ? Nm Nq]; subst.
    destruct (handle v r its m') as [[its1 ts1] x] eqn:H.
    destruct (handle_spec v r its m' its1 ts1 x Hv Bm S H) as (S1 & (l1 & ->) & [(-> & _ & M)|(St' & _)]); [|contradiction].
    destruct (IH (its ++ l1) (ts ++ ts1) Bq S1 Nq St) as (l2 & tss & e & E & He & S2 & F).
    exists (l1 ++ l2), (ts1 :: tss), e. rewrite E. cbn [concat]. rewrite <- !app_assoc in *. split; [reflexivity|]. split; [exact He|].
    split; [exact S2|]. constructor; [|exact F]. rewrite app_assoc. apply made_more. exact M.
Qed.

Definition mode (up : bool) (l : status) : Prop :=
  if up then l = Waiting else l = Idle \/ l = Failed IndexError \/ l = Failed InvalidTag.

Definition lstate (r : registry) (xs : list lact) (q : list msg) (its : items) (ts : list task) (l : status) : state :=
  {| st_session := Event; st_trans := Some false; st_queue := q; st_items := its; st_reg := callbacks r xs; st_started := ts; st_loop := l |}.

Lemma handled_more its l ev ts : handled its ev ts -> handled (its ++ l) ev ts.
Proof. intros [H|[H M]]; [left; exact H|right]. split; [exact H|]. apply made_more, M. Qed.

Lemma handled_more2 its l evs tss : Forall2 (handled its) evs tss -> Forall2 (handled (its ++ l)) evs tss.
Proof. induction 1; constructor; [apply handled_more; assumption|assumption]. Qed.

Lemma handled_pre its r pre tss : Forall (fun m => ~ stray m) pre -> Forall2 (fun m t => made its r m t) pre tss ->
  Forall2 (handled its) (map (fun m => (r, m)) pre) tss.
Proof. intros NS F. induction F; cbn [map]; inversion NS; subst; constructor; [right; split; assumption|auto]. Qed.

Lemma turn_drains v r xs up q its ts l x : mode up l -> turn up x -> (up = true -> q <> []) ->
  lstep v (lstate r xs q its ts l) x = drained v (lstate r xs q its ts l).
Proof.
  intros M T Q. unfold turn in T. destruct up; subst x.
  - cbn in M. subst l. destruct q; [exfalso; apply Q; reflexivity|reflexivity].
  - reflexivity.
Qed.

Lemma turn_not_register up x : turn up x -> forall k c, x <> Do (Register k c).
Proof. intros -> k c. destruct up; discriminate. Qed.

Theorem story_run v r xs up evs q : v < 13 -> story r xs up evs q ->
  Forall built q /\
  exists its tss l, lrun v (connected r) xs = lstate r xs q its (concat tss) l /\ mode up l /\ sound its /\ Forall2 (handled its) evs tss.
Proof.
  intros Hv O.
  induction O as [|xs up evs q data ms O IH P|xs up evs q k c O IH|xs up evs q w whr O IH T|xs evs q O IH|xs up evs q x O IH T NS|xs up evs pre m post x O IH T NS St].
  - split; [constructor|]. exists [], [], Idle. split; [reflexivity|]. split; [left; reflexivity|]. split; [split; constructor|constructor].
  - destruct IH as (B & its & tss & l & E & M & S & F). split; [apply Forall_app; split; [exact B|eapply packet_built, P]|].
    exists its, tss, l. rewrite lrun_snoc, E. split; [|auto]. unfold lstep, step, lstate. cbn [st_trans st_queue].
    rewrite (DispatchThms2.received _ _ _ P). rewrite callbacks_other by discriminate. reflexivity.
  - destruct IH as (B & its & tss & l & E & M & S & F). split; [exact B|].
    exists its, tss, l. rewrite lrun_snoc, E. split; [|auto]. unfold lstate. rewrite callbacks_snoc. reflexivity.
  - destruct IH as (B & its & tss & l & E & M & S & F). split; [exact B|].
    destruct (get_item its w whr) as [its' y] eqn:G. exists its', tss, l. rewrite lrun_snoc, E. split; [|split; [exact M|split]].
    + unfold lstep, step, lstate. cbn [st_items]. rewrite G. cbn [fst]. rewrite callbacks_other by discriminate. reflexivity.
    + eapply get_item_sound; eassumption.
    + destruct S as [N1 _]. destruct (get_item_spec _ _ _ _ _ N1 G) as (_ & (k & ->) & _). apply handled_more2, F.
  - destruct IH as (B & its & tss & l & E & M & S & F). split; [exact B|].
    exists its, tss, l. rewrite lrun_snoc, E. split; [|auto].
    unfold lstate. rewrite callbacks_other by discriminate. cbn in M. destruct M as [->|[->| ->]]; reflexivity.
  - destruct IH as (B & its & tss & l & E & M & S & F). split; [constructor|]. rewrite lrun_snoc, E.
    destruct (drain_all v (callbacks r xs) q Hv its (concat tss) B S NS) as (k & tss' & D & S' & F').
    exists (its ++ k), (tss ++ tss'), Waiting. split; [|split; [reflexivity|split; [exact S'|]]].
    + assert (D2 : drained v (lstate r xs q its (concat tss) l) = lstate r (xs ++ [x]) [] (its ++ k) (concat (tss ++ tss')) Waiting).
      { unfold drained, lstate. cbn [st_reg st_trans st_queue st_items st_started st_session]. rewrite D.
        rewrite callbacks_other by (eapply turn_not_register, T). rewrite concat_app. reflexivity. }
      destruct up; [destruct q as [|m q]|].
      * rewrite <- D2. cbn in M. subst l. unfold turn in T. subst x. reflexivity.
      * rewrite (turn_drains v r xs true _ _ _ _ _ M T) by discriminate. exact D2.
      * rewrite (turn_drains v r xs false _ _ _ _ _ M T) by discriminate. exact D2.
    + apply Forall2_app; [apply handled_more2, F|]. apply handled_pre; assumption.
  - destruct IH as (B & its & tss & l & E & M & S & F). split.
    { apply Forall_app in B as [_ B]. inversion B; assumption. }
    rewrite lrun_snoc, E.
    destruct (drain_stray_sound v (callbacks r xs) pre m post Hv its (concat tss) B S NS St) as (k & tss' & e & D & He & S' & F').
    exists (its ++ k), (tss ++ (tss' ++ [[]])), (Failed e). split; [|split; [destruct He as [-> | ->]; cbn; auto|split; [exact S'|]]].
    + rewrite (turn_drains v r xs up _ _ _ _ _ M T) by (destruct pre; discriminate).
      unfold drained, lstate. cbn [st_reg st_trans st_queue st_items st_started st_session]. rewrite D.
      rewrite callbacks_other by (eapply turn_not_register, T). rewrite !concat_app. cbn [concat]. rewrite !app_nil_r. reflexivity.
    + apply Forall2_app; [apply handled_more2, F|]. rewrite map_app. apply Forall2_app; [apply handled_pre; assumption|].
      constructor; [left; split; [exact St|reflexivity]|constructor].
Qed.

(** Nothing is lost and nothing is invented. *)
Theorem story_arrived r xs up evs q : story r xs up evs q -> arrived xs (map snd evs ++ q).
Proof.
  assert (Id : forall (r : registry) l, map snd (map (fun m : msg => (r, m)) l) = l) by (intros r' l; rewrite map_map; cbn; apply map_id).
  induction 1 as [|xs up evs q data ms O IH P|xs up evs q k c O IH|xs up evs q w whr O IH T|xs evs q O IH|xs up evs q x O IH T NS|xs up evs pre m post x O IH T NS St].
  - constructor.
  - rewrite app_assoc. apply A_packet; assumption.
  - apply A_other; [exact IH|discriminate].
  - apply A_other; [exact IH|discriminate].
  - apply A_other; [exact IH|discriminate].
  - rewrite map_app, Id, app_nil_r. apply A_other; [exact IH|]. intros d. rewrite T. destruct up; discriminate.
  - rewrite map_app, Id, <- !app_assoc. apply A_other; [exact IH|]. intros d. rewrite T. destruct up; discriminate.
Qed.

Lemma N_le_dec (a b : N) : {a <= b} + {~ a <= b}.
Proof. destruct (a <=? b) eqn:E; [left; apply N.leb_le, E|right; apply N.leb_nle, E]. Qed.

Lemma energy_class_dec whr : (exists t, energy_class whr t) \/ ~ (exists t, energy_class whr t).
Proof.
  assert (D : forall c, {digitchar c \/ c = 35} + {~ (digitchar c \/ c = 35)}).
  { intros c. unfold digitchar. destruct (N.eq_dec c 35); [left; tauto|]. destruct (N_le_dec 48 c); destruct (N_le_dec c 57);
      [left; lia|right; lia|right; lia|right; lia]. }
  destruct (Forall_dec _ D whr) as [T|T].
  - destruct (type_spec whr T) as (H & _). destruct (get_type whr) as [t|e] eqn:G.
    + left. exists t. apply H. reflexivity.
    + right. intros (t & X). apply H in X. discriminate.
  - right. intros (t & X). apply T. eapply class_tag, X.
Qed.

Lemma stray_dec m : stray m \/ ~ stray m.
Proof.
  unfold stray. destruct (msg_who m) as [w|]; [|right; intros [X _]; discriminate].
  destruct (who_eqb w ENERGY_MANAGEMENT) eqn:E.
  2:{ right. intros [[= ->] _]. discriminate. }
  assert (w = ENERGY_MANAGEMENT) by (destruct w; try discriminate; reflexivity). subst w.
  destruct (msg_where m) as [whr|]; [|right; intros (_ & whr & X & _); discriminate].
  destruct (energy_class_dec whr) as [(t & H)|H].
  - right. intros (_ & whr' & [= <-] & X). exact (X t H).
  - left. split; [reflexivity|]. exists whr. split; [reflexivity|]. intros t X. apply H. exists t. exact X.
Qed.

Lemma first_stray q : Forall (fun m => ~ stray m) q \/ exists pre m post, q = pre ++ m :: post /\ Forall (fun m => ~ stray m) pre /\ stray m.
Proof.
  induction q as [|m q IH]; [left; constructor|]. destruct (stray_dec m) as [St|NS].
  - right. exists [], m, q. split; [reflexivity|]. split; [constructor|exact St].
  - destruct IH as [IH|(pre & m' & post & -> & F & St)]; [left; constructor; assumption|].
    right. exists (m :: pre), m', post. split; [reflexivity|]. split; [constructor; assumption|exact St].
Qed.

(** A turn can always be taken. *)
Theorem story_turn r xs up evs q x : story r xs up evs q -> turn up x -> exists up' evs' q', story r (xs ++ [x]) up' evs' q'.
Proof.
  intros O T. destruct (first_stray q) as [F|(pre & m & post & -> & F & St)].
  - do 3 eexists. eapply S_all; eassumption.
  - do 3 eexists. eapply S_stray; eassumption.
Qed.

(** Every calm history in which loop() is not called while it runs has a story. *)
Theorem story_next r xs up evs q x : story r xs up evs q -> calm x -> (x = Call -> up = false) ->
  exists up' evs' q', story r (xs ++ [x]) up' evs' q'.
Proof.
  intros O C U. destruct x as [[data| | |k c|w whr|]|]; cbn in C; try contradiction.
  - destruct C as (ms & P). do 3 eexists. eapply S_packet; eassumption.
  - do 3 eexists. apply S_register, O.
  - do 3 eexists. apply S_lookup; eassumption.
  - destruct up; [eapply story_turn; [exact O|reflexivity]|]. do 3 eexists. apply S_nothing, O.
  - rewrite (U eq_refl) in O. eapply story_turn; [exact O|reflexivity].
Qed.

(** ** The entry *)

Theorem entry v s :
  (st_session s <> Event \/ st_trans s = None -> enter v s = with_loop s (Failed InvalidSession)) /\
  (st_session s = Event -> st_trans s = Some true -> enter v s = with_loop s Returned).
Proof.
  split.
  - intros [H|H]; unfold enter; [|rewrite H; destruct (is_cmd_session _); reflexivity]. destruct (st_session s); try reflexivity. congruence.
  - intros H1 H2. unfold enter. rewrite H2. unfold is_cmd_session. cbn [cl_session]. rewrite H1. reflexivity.
Qed.

(** ** After the end of the connection *)

Definition over (s : state) : Prop := st_loop s <> Waiting /\ st_trans s <> Some false.

Lemma over_step v s x : over s -> over (lstep v s x) /\ st_started (lstep v s x) = st_started s.
Proof.
  intros [L T]. destruct x as [a|]; cbn [lstep].
  - destruct a as [data| | |k c|w whr|]; cbn [step].
    + destruct (st_trans s) as [[]|] eqn:E; try congruence; (split; [split; [exact L|congruence]|reflexivity]).
    + destruct (st_trans s) as [[]|] eqn:E; try congruence; (split; [split; cbn; congruence|reflexivity]).
    + split; [split; cbn; [exact L|discriminate]|reflexivity].
    + split; [split; assumption|reflexivity].
    + split; [split; assumption|reflexivity].
    + destruct (st_loop s) eqn:E; try congruence; (split; [split; congruence|reflexivity]).
  - unfold enter. destruct (is_cmd_session _); [split; [split; [discriminate|exact T]|reflexivity]|].
    destruct (st_trans s) as [[]|] eqn:E; try congruence; (split; [split; cbn; congruence|reflexivity]).
Qed.

Theorem over_run v s xs : over s -> st_started (lrun v s xs) = st_started s.
Proof.
  revert s. induction xs as [|x xs IH]; intros s O; [reflexivity|].
  destruct (over_step v s x O) as [O' E]. unfold lrun. cbn [fold_left]. rewrite <- E. apply IH. exact O'.
Qed.

Theorem lost_backlog v r xs evs q a more : v < 13 -> story r xs false evs q -> In a [Lost; Close] ->
  st_queue (lrun v (connected r) (xs ++ [Do a])) = q /\
  st_started (lrun v (connected r) (xs ++ Do a :: more)) = st_started (lrun v (connected r) xs).
Proof.
  intros Hv O A. destruct (story_run v r xs false evs q Hv O) as (_ & its & tss & l & E & M & _).
  replace (xs ++ Do a :: more) with ((xs ++ [Do a]) ++ more) by (rewrite <- app_assoc; reflexivity).
  assert (Q : st_queue (lrun v (connected r) (xs ++ [Do a])) = q /\ over (lrun v (connected r) (xs ++ [Do a])) /\
    st_started (lrun v (connected r) (xs ++ [Do a])) = st_started (lrun v (connected r) xs)).
  { rewrite lrun_snoc, E. cbn in M.
    destruct A as [<-|[<-|[]]]; (split; [reflexivity|]); (split; [|reflexivity]); (split; [|discriminate]); destruct M as [->|[->| ->]]; discriminate. }
  destruct Q as (Q1 & Q2 & Q3). split; [exact Q1|]. unfold lrun at 1. rewrite fold_left_app. fold (lrun v (connected r) (xs ++ [Do a])).
  change (fold_left (lstep v) more ?s) with (lrun v s more). rewrite over_run by exact Q2. exact Q3.
Qed.
