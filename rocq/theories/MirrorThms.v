(** * Events keep a mirror of the house *)
From Coq Require Import String List NArith ZArith Bool Lia.
From Verif Require Import PyStr Tags Messages SpecMsg SpecTag SpecProto MessageThms3 Protocol Queue Sender SenderThms IO Client SpecItem Items Lighting SpecLight ItemThms LightThms2
  Conc SpecConc SpecSerial SpecHouse HouseThms HouseThms2 SpecTogether SerialThms2 TogetherThms Line SpecLine LineThms LineThms2 LineThms3 SpecCrowd CrowdThms
  SpecLate LateThms SpecAgain AgainThms SpecLoss LossThms Dispatch SpecDispatch DispatchThms DispatchThms2 DispatchThms3 SpecNotice NoticeThms SpecMirror.
Import ListNotations.
Open Scope N_scope.
Open Scope list_scope.

(** [latest es p]: the last of the events [es] about the place of [p] gives its
    state.  [silent es p]: none is about it. *)
Definition silent (es : list (list N)) (p : point) : Prop := forall q, point_ok q -> In (frame_state q) es -> place q <> place p.
Definition latest (es : list (list N)) (p : point) : Prop := exists e1 e2, es = e1 ++ frame_state p :: e2 /\ silent e2 p.

Lemma silent_app es es' p : silent es p -> silent es' p -> silent (es ++ es') p.
Proof. intros A B q Q I. apply in_app_or in I as [I|I]; [apply A|apply B]; assumption. Qed.
Lemma latest_silent es es' p : latest es p -> silent es' p -> latest (es ++ es') p.
Proof. intros (a & b & -> & S) S'. exists a, (b ++ es'). rewrite <- app_assoc. split; [reflexivity|]. apply silent_app; assumption. Qed.
Lemma latest_app es es' p : latest es' p -> latest (es ++ es') p.
Proof. intros (a & b & -> & S). exists (es ++ a), b. rewrite <- app_assoc. auto. Qed.
Lemma silent_nil p : silent [] p.
Proof. intros q _ []. Qed.
Lemma silent_place es p q : place p = place q -> silent es p -> silent es q.
Proof. intros E S x X I. rewrite <- E. apply S; assumption. Qed.
Lemma frame_same p q : place p = place q -> p_state p = p_state q -> frame_state p = frame_state q.
Proof. unfold place, frame_state. intros E ->. injection E as -> ->. reflexivity. Qed.
Lemma latest_same es p q : place p = place q -> p_state p = p_state q -> latest es p -> latest es q.
Proof. intros E F (a & b & -> & S). exists a, b. rewrite (frame_same _ _ E F). split; [reflexivity|]. eapply silent_place; eauto. Qed.

Lemma aimed_place gw w a p q : place p = place q -> aimed gw w a p = aimed gw w a q.
Proof. unfold place, aimed. intros E. injection E as -> ->. reflexivity. Qed.
Lemma step_place gw o p : place (SpecHouse.step gw p o) = place p.
Proof. unfold SpecHouse.step. destruct (at_whom gw o p); [|reflexivity]. destruct o; reflexivity. Qed.
Lemma step_distinct gw o h : distinct h -> distinct (map (fun p => SpecHouse.step gw p o) h).
Proof. unfold distinct. rewrite map_map. intros D. erewrite map_ext; [exact D|]. intros p. apply step_place. Qed.

(** The events of a report of some of the points, or of a beginning of it. *)
Lemma filter_distinct f (h : house) : distinct h -> distinct (filter f h).
Proof.
  unfold distinct. induction h as [|p h IH]; intros D; [constructor|]. inversion D as [|x l N D' E]; subst. cbn. destruct (f p); [|apply IH, D'].
  cbn. constructor; [|apply IH, D']. intros I. apply N. apply in_map_iff in I as (q & <- & I). apply filter_In in I as (I & _). apply in_map, I.
Qed.
Lemma report_silent ps p : Forall point_ok ps -> ~ In (place p) (map place ps) -> silent (map frame_state ps) p.
Proof.
  intros F N q Q I E. apply in_map_iff in I as (x & Ex & I). rewrite Forall_forall in F.
  destruct (state_inj x q (F _ I) Q Ex) as (A & B & _). apply N. rewrite <- E. apply in_map_iff. exists x. split; [unfold place; congruence|exact I].
Qed.
Lemma report_latest ps p : Forall point_ok ps -> distinct ps -> In p ps -> latest (map frame_state ps) p.
Proof.
  intros F D I. apply in_split in I as (a & b & ->). exists (map frame_state a), (map frame_state b). rewrite map_app. split; [reflexivity|].
  apply Forall_app in F as (_ & F). inversion F; subst. apply report_silent; [assumption|].
  unfold distinct in D. rewrite map_app in D. apply NoDup_remove in D as (_ & D). intros I. apply D, in_or_app. right. exact I.
Qed.
Lemma map_firstn {A B} (f : A -> B) n : forall l, map f (firstn n l) = firstn n (map f l).
Proof. induction n; intros [|x l]; cbn; try reflexivity. f_equal. apply IHn. Qed.
Lemma distinct_app ps qs : distinct (ps ++ qs) -> distinct ps.
Proof. unfold distinct. rewrite map_app. induction (map place ps) as [|x l IH]; cbn; intros D; [constructor|]. inversion D; subst. constructor; [|apply IH; assumption].
  intros I. match goal with H : ~ In _ _ |- _ => apply H end. apply in_or_app. left. exact I. Qed.
Lemma place_dec (a b : who * str) : {a = b} + {a <> b}.
Proof. decide equality; [apply list_eq_dec, N.eq_dec|decide equality]. Qed.

(** Any beginning of the events of one call: the last event about a point gives
    its state after the call. *)
Lemma report_prefix gw w a h pre post p : house_ok h -> distinct h -> In p h ->
  map frame_state (filter (aimed gw w a) h) = pre ++ post -> latest pre p \/ silent pre p.
Proof.
  intros H D I E.
  assert (X : exists ps qs, filter (aimed gw w a) h = ps ++ qs /\ pre = map frame_state ps).
  { apply map_eq_app in E as (ps & qs & A & <- & _). eauto. } clear E.
  destruct X as (ps & qs & E & ->).
  assert (F : Forall point_ok ps).
  { apply Forall_forall. intros x Ix. unfold house_ok in H. rewrite Forall_forall in H. apply H.
    assert (Ix' : In x (filter (aimed gw w a) h)) by (rewrite E; apply in_or_app; left; exact Ix). apply filter_In in Ix'. apply Ix'. }
  assert (Dp : distinct ps) by (apply (distinct_app ps qs); rewrite <- E; apply filter_distinct, D).
  destruct (in_dec place_dec (place p) (map place ps)) as [Ip|Np]; [|right; apply report_silent; assumption].
  left. apply in_map_iff in Ip as (q & Eq & Iq).
  assert (q = p) as ->; [|apply report_latest; assumption].
  assert (Iq' : In q h) by (assert (Y : In q (filter (aimed gw w a) h)) by (rewrite E; apply in_or_app; left; exact Iq); apply filter_In in Y; apply Y).
  clear - D I Iq' Eq. unfold distinct in D. induction h as [|x h IH]; [destruct I|]. cbn in D. inversion D as [|y l N D' E]; subst.
  destruct I as [->|I], Iq' as [->|Iq']; [reflexivity| | |apply IH; assumption].
  - destruct N. rewrite <- Eq. apply in_map, Iq'.
  - destruct N. rewrite Eq. apply in_map, I.
Qed.

Lemma does_obeys gw h c h1 obs r evs : does gw h c h1 obs r evs -> exists o ans, stands_for c o /\ obeys gw h o h1 ans evs.
Proof. destruct 1; [|eauto..]. exists o, [frame_nack]. split; [assumption|apply Ob_nobody; assumption]. Qed.

Lemma does_prefix gw h c h1 obs r evs pre post p : gateway_ok gw -> house_ok h -> distinct h -> does gw h c h1 obs r evs -> evs = pre ++ post -> In p h1 ->
  latest pre p \/ silent pre p.
Proof.
  intros G H D Do E I. pose proof (does_ok _ _ _ _ _ _ _ G H Do) as H1.
  assert (D1 : distinct h1) by (destruct (does_step _ _ _ _ _ _ _ Do) as (o & _ & ->); apply step_distinct, D).
  destruct (does_obeys _ _ _ _ _ _ _ Do) as (o & ans & _ & O).
  assert (Z : forall q, [] = pre ++ post -> latest pre q \/ silent pre q).
  { intros q Z. symmetry in Z. apply app_eq_nil in Z as (-> & _). right. apply silent_nil. }
  destruct O; try (apply Z; exact E).
  - eapply report_prefix; eauto.
  - destruct (echoes gw); [|apply Z; exact E]. eapply report_prefix; eauto.
Qed.

(** All of the events of one call: a point that none is about is in its old
    state. *)
Lemma does_last gw h c h1 obs r evs p : gateway_ok gw -> house_ok h -> distinct h -> does gw h c h1 obs r evs -> In p h1 ->
  latest evs p \/ silent evs p /\ exists p0, In p0 h /\ place p0 = place p /\ p_state p0 = p_state p.
Proof.
  intros G H D Do I.
  destruct (does_prefix gw h c h1 obs r evs evs [] p G H D Do) as [L|S]; [symmetry; apply app_nil_r|exact I|left; exact L|].
  right. split; [exact S|].
  pose proof (does_ok _ _ _ _ _ _ _ G H Do) as H1.
  destruct (does_obeys _ _ _ _ _ _ _ Do) as (o & ans & _ & O).
  destruct O; try (exists p; auto; fail).
  - apply in_map_iff in I as (p0 & E & I0). exists p0. split; [exact I0|].
    destruct (aimed gw w a p0) eqn:A; [|subst; auto].
    exfalso. assert (Ip : In p h') by (apply in_map_iff; exists p0; rewrite A; auto).
    apply (S p); [unfold house_ok in H1; rewrite Forall_forall in H1; apply H1, Ip| |reflexivity].
    apply in_map, filter_In. split; [exact Ip|]. rewrite <- E, <- A. apply aimed_place. reflexivity.
  - apply in_map_iff in I as (p0 & E & I0). exists p0. split; [exact I0|]. destruct (aimed gw w a p0); subst; auto.
Qed.

Lemma story_keeps gw h cs log evs h' : story gw h cs log evs h' -> gateway_ok gw -> house_ok h -> distinct h -> house_ok h' /\ distinct h'.
Proof.
  induction 1 as [h|h c cs h1 obs r evs log evs' h' Do S IH]; intros G H D; [auto|]. apply IH; [exact G|apply (does_ok _ _ _ _ _ _ _ G H Do)|].
  destruct (does_step _ _ _ _ _ _ _ Do) as (o & _ & ->). apply step_distinct, D.
Qed.

(** All of the events of a story. *)
Theorem story_last gw h cs log evs h' : story gw h cs log evs h' -> gateway_ok gw -> house_ok h -> distinct h -> forall p, In p h' ->
  latest evs p \/ silent evs p /\ exists p0, In p0 h /\ place p0 = place p /\ p_state p0 = p_state p.
Proof.
  induction 1 as [h|h c cs h1 obs r evs log evs' h' Do S IH]; intros G H D p I.
  { right. split; [apply silent_nil|]. exists p. auto. }
  assert (H1 : house_ok h1) by apply (does_ok _ _ _ _ _ _ _ G H Do).
  assert (D1 : distinct h1) by (destruct (does_step _ _ _ _ _ _ _ Do) as (o & _ & ->); apply step_distinct, D).
  destruct (IH G H1 D1 p I) as [L|(Si & p1 & I1 & E1 & S1)]; [left; apply latest_app, L|].
  destruct (does_last gw h c h1 obs r evs p1 G H D Do I1) as [L|(Si1 & p0 & I0 & E0 & S0)].
  - left. apply latest_silent; [|exact Si]. apply (latest_same _ p1); assumption.
  - right. split; [apply silent_app; [apply (silent_place _ p1); assumption|exact Si]|]. exists p0. split; [exact I0|]. split; congruence.
Qed.

(** Any beginning of them. *)
Theorem story_past gw h cs log evs h' : story gw h cs log evs h' -> gateway_ok gw -> house_ok h -> distinct h -> forall pre post, evs = pre ++ post ->
  forall p, In p h -> exists cs1 cs2 log1 log2 e1 e2 h1 p1, cs = cs1 ++ cs2 /\ log = log1 ++ log2 /\ evs = e1 ++ e2 /\
    story gw h cs1 log1 e1 h1 /\ story gw h1 cs2 log2 e2 h' /\ In p1 h1 /\ place p1 = place p /\ (latest pre p1 \/ silent pre p1 /\ p_state p1 = p_state p).
Proof.
  induction 1 as [h|h c cs h1 obs r evs log evs' h' Do S IH]; intros G H D pre post E p I.
  { symmetry in E. apply app_eq_nil in E as (-> & ->). exists [], [], [], [], [], [], h, p.
    repeat (split; [first [reflexivity|assumption|apply Story_nil]|]). right. split; [apply silent_nil|reflexivity]. }
  assert (H1 : house_ok h1) by apply (does_ok _ _ _ _ _ _ _ G H Do).
  assert (D1 : distinct h1) by (destruct (does_step _ _ _ _ _ _ _ Do) as (o & _ & ->); apply step_distinct, D).
  assert (I1 : exists p1, In p1 h1 /\ place p1 = place p).
  { destruct (does_step _ _ _ _ _ _ _ Do) as (o & _ & ->). exists (SpecHouse.step gw p o). split; [apply (in_map (fun x => SpecHouse.step gw x o)), I|apply step_place]. }
  destruct I1 as (p1 & I1 & E1).
  assert (Cut : (exists post', evs = pre ++ post') \/ exists pre', pre = evs ++ pre' /\ evs' = pre' ++ post).
  { clear - E. revert pre E. induction evs as [|x evs IH]; intros pre E; [right; exists pre; auto|].
    destruct pre as [|y pre]; [left; exists (x :: evs); reflexivity|]. injection E as -> E. destruct (IH pre E) as [(q & ->)|(q & -> & ->)]; [left; exists q; reflexivity|right; exists q; auto]. }
  assert (Sc : story gw h [c] [(obs, r)] (evs ++ []) h1) by (eapply Story_cons; [exact Do|apply Story_nil]). rewrite app_nil_r in Sc.
  destruct Cut as [(post' & ->)|(pre' & -> & ->)].
  - destruct (does_prefix gw h c h1 obs r _ pre post' p1 G H D Do eq_refl I1) as [L|Si].
    + exists [c], cs, [(obs, r)], log, (pre ++ post'), evs', h1, p1. repeat (split; [first [reflexivity|assumption]|]). left. exact L.
    + exists [], (c :: cs), [], ((obs, r) :: log), [], ((pre ++ post') ++ evs'), h, p.
      repeat (split; [first [reflexivity|assumption|apply Story_nil|eapply Story_cons; eassumption]|]).
      right. split; [apply (silent_place _ p1); assumption|reflexivity].
  - destruct (IH G H1 D1 pre' post eq_refl p1 I1) as (cs1 & cs2 & l1 & l2 & e1 & e2 & h2 & p2 & -> & -> & Ee & S1 & S2 & I2 & E2 & L).
    assert (S1' : story gw h (c :: cs1) ((obs, r) :: l1) (evs ++ e1) h2) by (eapply Story_cons; eassumption).
    destruct L as [L|(Si & St)].
    + exists (c :: cs1), cs2, ((obs, r) :: l1), l2, (evs ++ e1), e2, h2, p2. rewrite Ee, app_assoc.
      repeat (split; [first [reflexivity|assumption|congruence]|]). left. apply latest_app, L.
    + destruct (does_last gw h c h1 obs r evs p1 G H D Do I1) as [L|(Si1 & p0 & I0 & E0 & S0)].
      * exists (c :: cs1), cs2, ((obs, r) :: l1), l2, (evs ++ e1), e2, h2, p2. rewrite Ee, app_assoc.
        repeat (split; [first [reflexivity|assumption|congruence]|]). left. apply latest_silent; [|exact Si]. apply (latest_same _ p1); [congruence|congruence|exact L].
      * exists (c :: cs1), cs2, ((obs, r) :: l1), l2, (evs ++ e1), e2, h2, p2. rewrite Ee, app_assoc.
        repeat (split; [first [reflexivity|assumption|congruence]|]). right. split; [apply silent_app; [apply (silent_place _ p1); [congruence|assumption]|exact Si]|].
        assert (p0 = p) as ->; [|congruence]. clear - D I I0 E0 E1.
        assert (E : place p0 = place p) by congruence. clear E0 E1. unfold distinct in D. induction h as [|x h IH]; [destruct I|]. cbn in D. inversion D as [|y l N D' Ey]; subst.
        destruct I as [->|I], I0 as [->|I0]; [reflexivity| | |apply IH; assumption].
        -- destruct N. rewrite <- E. apply in_map, I0.
        -- destruct N. rewrite E. apply in_map, I.
Qed.

(** ** From events to callbacks *)

Definition tell f i (known : option (list val)) (t : task) : option (list val) := match about f i t with Some args => Some args | None => known end.
Lemma last_told_fold f i ts : last_told f i ts = fold_left (tell f i) ts None.
Proof. reflexivity. Qed.
Lemma last_told_app f i ts ts' : never_told i ts' -> last_told f i (ts ++ ts') = last_told f i ts.
Proof.
  rewrite !last_told_fold, fold_left_app. generalize (fold_left (tell f i) ts None).
  induction ts' as [|(g & args) ts' IH]; intros x N; [reflexivity|]. cbn [fold_left].
  assert (A : about f i (g, args) = None).
  { destruct args as [|[] args]; try reflexivity. cbn. destruct ((g =? f) && _) eqn:B; [|reflexivity].
    apply andb_true_iff in B as (_ & B). apply Nat.eqb_eq in B as <-. destruct (N g args). left. reflexivity. }
  unfold tell at 2. rewrite A. apply IH. intros g' a' I. apply (N g' a'). right. exact I.
Qed.
Lemma last_told_all i args fs f : In f fs -> forall ts : list task, last_told (cb_id f) i (ts ++ map (fun g => (cb_id g, VItem i :: args)) fs) = Some args.
Proof.
  intros I ts. rewrite last_told_fold, (fold_left_app (tell (cb_id f) i) ts). generalize (fold_left (tell (cb_id f) i) ts None).
  assert (K : forall l, fold_left (tell (cb_id f) i) (map (fun g => (cb_id g, VItem i :: args)) l) (Some args) = Some args).
  { induction l as [|g l IH]; [reflexivity|]. cbn [map fold_left]. unfold tell at 2. cbn [about]. destruct (_ && _); exact IH. }
  induction fs as [|g fs IH]; intros x; [destruct I|]. cbn [map fold_left]. destruct I as [->|I].
  - unfold tell at 2. cbn [about]. rewrite N.eqb_refl, Nat.eqb_refl. cbn. apply K.
  - apply IH, I.
Qed.

Lemma noticed_about its r f ts i g args : noticed its r f ts -> In (g, VItem i :: args) ts -> exists q, f = frame_state q /\ point_ok q /\ nth_error its i = Some (place q).
Proof.
  intros (q & j & k & args' & -> & Q & Nj & _ & C) I. exists q. split; [reflexivity|]. split; [exact Q|].
  assert (E : VItem i :: args = VItem j :: args'). { clear - C I. induction C as [|h fs ts T C IH|]; [destruct I| |destruct I]. destruct I as [I|I]; [congruence|apply IH, I]. }
  injection E as -> _. exact Nj.
Qed.

Lemma noticed_silent its r evs tss p i : Forall2 (noticed its r) evs tss -> silent evs p -> nth_error its i = Some (place p) -> never_told i (concat tss).
Proof.
  intros F S N g args I. apply in_concat in I as (ts & It & I). destruct (Forall2_in' _ _ _ _ F It) as (f & If & M).
  destruct (noticed_about _ _ _ _ _ _ _ M I) as (q & -> & Q & N'). apply (S q Q If). congruence.
Qed.

Lemma announces_fun p q k args k' args' : p_who p = p_who q -> p_state p = p_state q -> announces p k args -> announces q k' args' -> k' = k /\ args' = args.
Proof. intros E1 E2 A B. destruct A, B; try (split; congruence); exfalso; congruence. Qed.

Lemma noticed_latest its r evs tss p k args f : Forall2 (noticed its r) evs tss -> latest evs p -> point_ok p -> announces p k args ->
  (forall g, In g (r k) -> cb_takes g (S (length args)) = true) -> In f (r k) ->
  exists i, nth_error its i = Some (place p) /\ last_told (cb_id f) i (concat tss) = Some args.
Proof.
  intros F (e1 & e2 & -> & S) P A T If.
  apply Forall2_app_inv_l in F as (t1 & t2 & _ & F2 & ->). inversion F2 as [|x ts l t3 M F3]; subst.
  destruct M as (q & i & k' & args' & Eq & Q & Ni & A' & C). destruct (state_inj p q P Q Eq) as (E1 & E2 & E3).
  destruct (announces_fun p q k args k' args' E1 E3 A A') as (-> & ->).
  assert (Np : nth_error its i = Some (place p)) by (rewrite Ni; unfold place; congruence).
  exists i. split; [exact Np|]. rewrite concat_app. cbn [concat]. rewrite app_assoc, last_told_app.
  - rewrite (calls_unique _ _ _ _ C (calls_all (VItem i :: args) (r k) T)). apply last_told_all, If.
  - exact (noticed_silent its r e2 t3 p i F3 S Np).
Qed.

(** ** The clients of a crowd command, another one listens *)

Theorem crowd_noticed gw high low ns es ord ls h h' inn out evs css v r acts : gateway_ok gw -> house_ok h -> plain h ->
  crowd gw high low (fun j => linit (ns j)) h (fun _ => []) (fun _ => []) es ord ls h' inn out evs ->
  (forall j, behaves_any high low ns es css j) -> forall pre post, evs = pre ++ post -> v < 13 -> delivers acts pre ->
  exists its tss, let st := Dispatch.run v (enter v (Dispatch.connected r)) (acts ++ [Wake]) in
    st_started st = concat tss /\ st_items st = its /\ NoDup its /\ st_loop st = Dispatch.Waiting /\ st_queue st = [] /\ Forall2 (noticed its r) pre tss.
Proof.
  intros G H P C B pre post E Hv D. destruct (any_story gw high low ns es ord ls h h' inn out evs css G H P C B) as (cs & log & heard & S & _).
  destruct (story_events gw h cs log evs h' S G H) as (ps & Fp & ->). apply map_eq_app in E as (ps1 & ps2 & -> & <- & <-).
  apply Forall_app in Fp as (Fp & _). apply events_noticed; assumption.
Qed.

Theorem crowd_mirror gw high low ns es ord ls h h' inn out evs css v r acts : gateway_ok gw -> house_ok h -> plain h -> distinct h ->
  crowd gw high low (fun j => linit (ns j)) h (fun _ => []) (fun _ => []) es ord ls h' inn out evs ->
  (forall j, behaves_any high low ns es css j) -> v < 13 -> delivers acts evs ->
  let st := Dispatch.run v (enter v (Dispatch.connected r)) (acts ++ [Wake]) in
  forall p k args f, In p h' -> announces p k args -> (forall g, In g (r k) -> cb_takes g (S (length args)) = true) -> In f (r k) ->
  (exists i, nth_error (st_items st) i = Some (place p) /\ last_told (cb_id f) i (st_started st) = Some args) \/
  ((forall i, nth_error (st_items st) i = Some (place p) -> never_told i (st_started st)) /\ exists p0, In p0 h /\ place p0 = place p /\ p_state p0 = p_state p).
Proof.
  intros G H P Di C B Hv D. destruct (any_story gw high low ns es ord ls h h' inn out evs css G H P C B) as (cs & log & heard & S & _).
  destruct (crowd_noticed gw high low ns es ord ls h h' inn out evs css v r acts G H P C B evs [] (eq_sym (app_nil_r evs)) Hv D) as (its & tss & Es & Ei & _ & _ & _ & M).
  cbv zeta. rewrite Es, Ei. intros p k args f I A T If.
  destruct (story_keeps _ _ _ _ _ _ S G H Di) as (H' & _).
  destruct (story_last _ _ _ _ _ _ S G H Di p I) as [L|(Si & p0 & I0 & E0 & S0)].
  - left. eapply noticed_latest; eauto. unfold house_ok in H'. rewrite Forall_forall in H'. apply H', I.
  - right. split; [|exists p0; auto]. intros i N. eapply noticed_silent; eauto.
Qed.

Theorem crowd_past gw high low ns es ord ls h h' inn out evs css v r acts pre post : gateway_ok gw -> house_ok h -> plain h -> distinct h ->
  crowd gw high low (fun j => linit (ns j)) h (fun _ => []) (fun _ => []) es ord ls h' inn out evs ->
  (forall j, behaves_any high low ns es css j) -> v < 13 -> evs = pre ++ post -> delivers acts pre ->
  let st := Dispatch.run v (enter v (Dispatch.connected r)) (acts ++ [Wake]) in
  forall p, In p h -> exists cs1 cs2 log1 log2 e1 e2 h1 p1, story gw h cs1 log1 e1 h1 /\ story gw h1 cs2 log2 e2 h' /\ evs = e1 ++ e2 /\
    length (cs1 ++ cs2) = length ord /\ In p1 h1 /\ place p1 = place p /\
    forall k args f, announces p1 k args -> (forall g, In g (r k) -> cb_takes g (S (length args)) = true) -> In f (r k) ->
    (exists i, nth_error (st_items st) i = Some (place p) /\ last_told (cb_id f) i (st_started st) = Some args) \/
    ((forall i, nth_error (st_items st) i = Some (place p) -> never_told i (st_started st)) /\ p_state p1 = p_state p).
Proof.
  intros G H P Di C B Hv E D. destruct (any_story gw high low ns es ord ls h h' inn out evs css G H P C B) as (cs & log & heard & S & Lc & _).
  destruct (crowd_noticed gw high low ns es ord ls h h' inn out evs css v r acts G H P C B pre post E Hv D) as (its & tss & Es & Ei & _ & _ & _ & M).
  cbv zeta. rewrite Es, Ei. intros p I.
  destruct (story_past _ _ _ _ _ _ S G H Di pre post E p I) as (cs1 & cs2 & l1 & l2 & e1 & e2 & h1 & p1 & -> & -> & Ee & S1 & S2 & I1 & E1 & L).
  exists cs1, cs2, l1, l2, e1, e2, h1, p1. repeat (split; [assumption|]). intros k args f A T If.
  destruct (story_keeps _ _ _ _ _ _ S1 G H Di) as (H1 & _).
  rewrite <- E1. destruct L as [L|(Si & St)]; [left|right].
  - eapply noticed_latest; eauto. unfold house_ok in H1. rewrite Forall_forall in H1. apply H1, I1.
  - split; [|exact St]. intros i N. eapply noticed_silent; eauto.
Qed.

(** A command answered in time is heard. *)
Theorem crowd_heard gw high low ns es ord ls h h' inn out evs css v r acts : gateway_ok gw -> house_ok h -> plain h ->
  crowd gw high low (fun j => linit (ns j)) h (fun _ => []) (fun _ => []) es ord ls h' inn out evs ->
  (forall j, behaves_any high low ns es css j) -> v < 13 -> delivers acts evs ->
  forall j n ans c p w what a k args f, in_time (map snd (k_done (l_c (ls j)))) n ans ->
  nth_error (among went_out (outcomes (ls j)) (css j)) n = Some c -> stands_for c (Command w what a) ->
  In p h -> aimed gw w a p = true -> (forall st, SpecHouse.react gw w what st = what) ->
  announces {| p_who := w; p_where := p_where p; p_state := what; p_dims := p_dims p |} k args ->
  (forall g, In g (r k) -> cb_takes g (S (length args)) = true) -> In f (r k) ->
  exists i, let st := Dispatch.run v (enter v (Dispatch.connected r)) (acts ++ [Wake]) in
    nth_error (st_items st) i = Some (w, p_where p) /\ In (cb_id f, VItem i :: args) (st_started st).
Proof.
  intros G H P C B Hv D j n ans c p w what a k args f It Nc Ho Ip Ap Hr An Ta If.
  destruct (any_story gw high low ns es ord ls h h' inn out evs css G H P C B) as (cs & log & heard & S & Lc & Ll & _ & _ & Cl).
  destruct (Cl j) as (_ & _ & _ & Em & _ & _ & Ans). destruct (Ans n ans It) as (Na & _).
  assert (Ic : In c cs).
  { apply (mine_in j ord). rewrite Em. eapply nth_error_In with (n := n). rewrite <- Nc.
    assert (X : (n < count j ord)%nat).
    { unfold count. rewrite <- (mine_length j ord log) by lia. rewrite <- (map_length snd). apply nth_error_Some. rewrite Na. discriminate. }
    clear - X. revert n X. generalize (count j ord) as m. induction (among went_out (outcomes (ls j)) (css j)) as [|x l IH]; intros [|m] [|n] X; cbn; try reflexivity; try lia. apply IH. lia. }
  apply in_split in Ic as (before & after & ->).
  destruct (command_events gw h before c after log evs h' p w what a G H S Ho Ip Ap Hr) as (q & Q & Iq & Qw & Qa & Qs).
  destruct (crowd_noticed gw high low ns es ord ls h h' inn out evs css v r acts G H P C B evs [] (eq_sym (app_nil_r evs)) Hv D) as (its & tss & Es & Ei & _ & _ & _ & M).
  destruct (Forall2_in _ _ _ _ M Iq) as (ts & Its & (p' & i & k' & args' & Ef & P' & Ni & An' & Hc)).
  destruct (state_inj q p' Q P' Ef) as (E1 & E2 & E3).
  exists i. cbv zeta. rewrite Ei, Es. rewrite Ni, <- E1, <- E2, Qw, Qa. split; [reflexivity|].
  destruct (announces_fun {| p_who := w; p_where := p_where p; p_state := what; p_dims := p_dims p |} p' k args k' args') as (-> & ->); [cbn; congruence|cbn; congruence|exact An|exact An'|].
  apply in_concat. exists ts. split; [assumption|].
  rewrite (calls_unique _ _ _ _ Hc (calls_all (VItem i :: args) (r k) Ta)).
  apply in_map_iff. exists f. auto.
Qed.
