(** * A client that listens and asks for the states it was not told *)
From Coq Require Import String List NArith ZArith Bool Lia.
From Verif Require Import PyStr Tags Messages SpecMsg SpecTag SpecProto MessageThms3 Protocol Queue Sender SenderThms IO Client SpecItem Items Lighting SpecLight ItemThms LightThms2
  Conc SpecConc SpecSerial SpecHouse HouseThms HouseThms2 SpecTogether SerialThms2 TogetherThms Line SpecLine LineThms LineThms2 LineThms3 SpecCrowd CrowdThms
  SpecLate LateThms SpecAgain AgainThms SpecLoss LossThms Dispatch SpecDispatch DispatchThms DispatchThms2 DispatchThms3 SpecNotice NoticeThms SpecMirror MirrorThms.
Import ListNotations.
Open Scope N_scope.
Open Scope list_scope.

Lemma story_at gw h cs log evs h' : story gw h cs log evs h' -> forall n c obs r, nth_error cs n = Some c -> nth_error log n = Some (obs, r) ->
  exists h1 h2 e1 ev e2, story gw h (firstn n cs) (firstn n log) e1 h1 /\ does gw h1 c h2 obs r ev /\ story gw h2 (skipn (S n) cs) (skipn (S n) log) e2 h' /\ evs = e1 ++ ev ++ e2.
Proof.
  induction 1 as [h|h c cs h1 obs r evs log evs' h' Do S IH]; intros n c' obs' r' Nc Nl; [destruct n; discriminate|].
  destruct n as [|n].
  - injection Nc as <-. injection Nl as <- <-. exists h, h1, [], evs, evs'. split; [apply Story_nil|]. auto.
  - destruct (IH n c' obs' r' Nc Nl) as (k1 & k2 & e1 & ev & e2 & A & B & C & ->). exists k1, k2, (evs ++ e1), ev, e2.
    split; [cbn [firstn]; eapply Story_cons; eassumption|]. split; [exact B|]. split; [exact C|]. rewrite <- app_assoc. reflexivity.
Qed.

Lemma shows_same p q c ys w a : place p = place q -> p_state p = p_state q -> stands_for c (Status w a) -> shows p c ys -> shows q c ys.
Proof.
  unfold place. intros E F S Sh. injection E as _ E. destruct Sh as [it A|it A|it A B|it n A|it d A|it r vs more ns|it r]; try (inversion S; fail); rewrite F in A; try rewrite E.
  - apply Sh_on, A.
  - apply Sh_off, A.
  - apply Sh_other; [exact A|congruence].
  - apply Sh_level, A.
  - rewrite F. eapply Sh_auto, A.
Qed.

(** In a story, if no event was about a point, what a status request yielded about
    it is its state at the end. *)
Lemma story_asked gw h cs log evs h' n c obs w a p : story gw h cs log evs h' -> gateway_ok gw -> house_ok h -> distinct h ->
  nth_error cs n = Some c -> nth_error log n = Some (obs, Ok tt) -> stands_for c (Status w a) -> asks c = true ->
  In p h' -> aimed gw w a p = true -> silent evs p -> exists ys, shows p c ys /\ incl ys obs.
Proof.
  intros S G H D Nc Nl Sf As I A Si.
  destruct (story_at _ _ _ _ _ _ S n c obs (Ok tt) Nc Nl) as (h1 & h2 & e1 & ev & e2 & S1 & Do & S2 & ->).
  destruct (story_keeps _ _ _ _ _ _ S1 G H D) as (H1 & D1).
  assert (S3 : story gw h1 (c :: skipn (Datatypes.S n) cs) ((obs, Ok tt) :: skipn (Datatypes.S n) log) (ev ++ e2) h') by (eapply Story_cons; eassumption).
  destruct (story_keeps _ _ _ _ _ _ S3 G H1 D1) as (H' & _).
  destruct (story_last _ _ _ _ _ _ S3 G H1 D1 p I) as [L|(_ & p1 & I1 & E1 & F1)].
  { exfalso. destruct L as (x & y & E & _). apply (Si p).
    - unfold house_ok in H'. rewrite Forall_forall in H'. apply H', I.
    - rewrite E. apply in_or_app. right. apply in_or_app. right. left. reflexivity.
    - reflexivity. }
  inversion Do as [| |o h3 answer evs yss So _ Ex Ob Fs]; subst; [congruence|].
  assert (o = Status w a) as -> by (inversion Sf; subst; inversion So; subst; reflexivity).
  assert (J : In p1 (filter (at_whom gw (Status w a)) h1)).
  { apply filter_In. split; [exact I1|]. cbn [at_whom]. rewrite (aimed_place gw w a p1 p E1). exact A. }
  destruct (Forall2_in _ _ _ _ Fs J) as (ys & Iy & Sh). exists ys. split; [eapply shows_same; eauto|].
  intros y Y. apply in_concat. exists ys. auto.
Qed.

Theorem resync gw high low ns es ord ls h h' inn out evs css v r acts : gateway_ok gw -> house_ok h -> plain h -> distinct h ->
  crowd gw high low (fun j => linit (ns j)) h (fun _ => []) (fun _ => []) es ord ls h' inn out evs ->
  (forall j, behaves_any high low ns es css j) -> v < 13 -> delivers acts evs ->
  let st := Dispatch.run v (enter v (Dispatch.connected r)) (acts ++ [Wake]) in
  forall j n c w a, in_time (map snd (k_done (l_c (ls j)))) n (Ok tt) ->
  nth_error (among went_out (outcomes (ls j)) (css j)) n = Some c -> stands_for c (Status w a) -> asks c = true ->
  exists log heard msgs obs, told_any es j ord (ls j) (out j) log heard /\
    nth_error (mine j ord heard) n = Some msgs /\ alone c msgs (obs, Ok tt) /\
    (exists more, map snd (q_out (k_q (l_c (ls j)))) = concat (firstn n (mine j ord heard)) ++ msgs ++ more) /\
    forall p k args f, In p h' -> aimed gw w a p = true -> announces p k args ->
    (forall g, In g (r k) -> cb_takes g (S (length args)) = true) -> In f (r k) ->
    (exists i, nth_error (st_items st) i = Some (place p) /\ last_told (cb_id f) i (st_started st) = Some args) \/
    ((forall i, nth_error (st_items st) i = Some (place p) -> never_told i (st_started st)) /\ exists ys, shows p c ys /\ incl ys obs).
Proof.
  intros G H P Di C B Hv D st j n c w a It Nc Sf As.
  destruct (any_story gw high low ns es ord ls h h' inn out evs css G H P C B) as (cs & log & heard & S & Lc & Ll & Lh & Al & Cl).
  destruct (Cl j) as (_ & _ & Cn & Em & _ & To & Ans). destruct (Ans n _ It) as (Na & more & Eq).
  assert (X : (n < count j ord)%nat).
  { unfold count. rewrite <- (mine_length j ord log) by lia. rewrite <- (map_length snd). apply nth_error_Some. rewrite Na. discriminate. }
  destruct (turn_some j ord n X) as (t & T).
  rewrite nth_error_map in Na. destruct (nth_error (mine j ord log) n) as [(obs & r0)|] eqn:Nl; [|discriminate]. cbn in Na. injection Na as ->.
  assert (Nm : nth_error (mine j ord cs) n = Some c).
  { rewrite Em. rewrite <- Nc. clear - X. revert n X. generalize (count j ord) as m.
    induction (among went_out (outcomes (ls j)) (css j)) as [|x l IH]; intros [|m] [|n] X; cbn; try reflexivity; try lia. apply IH. lia. }
  assert (Xh : exists msgs, nth_error (mine j ord heard) n = Some msgs).
  { destruct (nth_error (mine j ord heard) n) eqn:E; [eauto|]. apply nth_error_None in E. rewrite mine_length in E by exact Lh. unfold count in X. lia. }
  destruct Xh as (msgs & Nh).
  pose proof (turn_mine j ord n t cs T) as Tc. pose proof (turn_mine j ord n t log T) as Tl. pose proof (turn_mine j ord n t heard T) as Th.
  rewrite Nm in Tc. rewrite Nl in Tl. rewrite Nh in Th.
  exists log, heard, msgs, obs. split; [exact To|]. split; [exact Nh|]. split.
  { assert (Y : nth_error (combine heard log) t = Some (msgs, (obs, Ok tt))).
    { symmetry in Tl, Th. clear - Tl Th. revert t log Tl Th. induction heard as [|x l IH]; intros [|t] [|y log] Tl Th; try discriminate; cbn in *; [congruence|]. apply IH; assumption. }
    symmetry in Tc. clear - Al Y Tc. revert t Tc Y. induction Al as [|x y l l' R F IH]; intros [|t] Tc Y; try discriminate; cbn in *; [|exact (IH t Tc Y)].
    injection Tc as <-. injection Y as ->. exact R. }
  split.
  { exists more. rewrite Eq. rewrite app_assoc. f_equal. clear - Nh. revert n Nh. induction (mine j ord heard) as [|x l IH]; intros [|n] E; try discriminate.
    - cbn in E. injection E as ->. cbn. apply app_nil_r.
    - cbn [nth_error] in E. cbn [firstn concat]. rewrite <- app_assoc, <- (IH n E). reflexivity. }
  destruct (crowd_noticed gw high low ns es ord ls h h' inn out evs css v r acts G H P C B evs [] (eq_sym (app_nil_r evs)) Hv D) as (its & tss & Es & Ei & _ & _ & _ & M).
  unfold st. rewrite Es, Ei. intros p k args f I A An Tk If.
  destruct (story_keeps _ _ _ _ _ _ S G H Di) as (H' & _).
  destruct (story_last _ _ _ _ _ _ S G H Di p I) as [L|(Si & _)].
  - left. eapply noticed_latest; eauto. unfold house_ok in H'. rewrite Forall_forall in H'. apply H', I.
  - right. split; [intros i N; eapply noticed_silent; eauto|]. eapply story_asked; eauto.
Qed.
