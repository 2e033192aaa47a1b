(** * An application that keeps what it was last told, while its callbacks send commands: proofs *)
From Coq Require Import String List NArith ZArith Bool Lia PeanoNat.
From Verif Require Import PyStr Tags Messages SpecMsg SpecTag SpecProto MessageThms3 Protocol IO Client SpecItem Items Lighting SpecLight ItemThms LightThms2
  SpecHouse HouseThms HouseThms2 Dispatch SpecDispatch DispatchThms DispatchThms2 DispatchThms3 SpecNotice NoticeThms SpecMirror MirrorThms
  Reflex SpecReflex ReflexThms ReflexThms2 Failing SpecFailing FailingThms Unlocked SpecUnlocked UnlockedThms SpecPicture.
Import ListNotations.
Open Scope nat_scope.
Open Scope list_scope.

Lemma story_places gw h cs log evs h' : story gw h cs log evs h' -> map place h' = map place h.
Proof. induction 1 as [h|h c cs h1 obs r evs log evs' h' D S IH]; [reflexivity|]. rewrite IH. exact (does_places _ _ _ _ _ _ _ D). Qed.

Lemma picture_core gw h cs log evs h' st r tss : gateway_ok gw -> house_ok h -> distinct h -> story gw h cs log evs h' ->
  st_started st = concat tss -> Forall2 (noticed (st_items st) r) evs tss -> right_picture st r h h'.
Proof.
  intros G H D S Es F p f I. destruct (story_keeps _ _ _ _ _ _ S G H D) as (H' & _).
  destruct (story_last _ _ _ _ _ _ S G H D p I) as [L|(Si & p0 & I0 & E0 & S0)].
  - assert (X : In (place p) (map place h)) by (rewrite <- (story_places _ _ _ _ _ _ S); apply in_map, I). apply in_map_iff in X as (p0 & E0 & I0).
    exists p0. split; [exact I0|]. split; [exact E0|]. intros k args A T If. left. rewrite Es. eapply noticed_latest; eauto.
    unfold house_ok in H'. rewrite Forall_forall in H'. apply H', I.
  - exists p0. split; [exact I0|]. split; [exact E0|]. intros k args A T If. right. split; [|symmetry; exact S0]. intros i N. rewrite Es. eapply noticed_silent; eauto.
Qed.

Lemma past_core gw h cs log pre post h' st r tss : gateway_ok gw -> house_ok h -> distinct h -> story gw h cs log (pre ++ post) h' ->
  st_started st = concat tss -> Forall2 (noticed (st_items st) r) pre tss -> past_picture gw st r h cs.
Proof.
  intros G H D S Es F p0 I.
  destruct (story_past _ _ _ _ _ _ S G H D pre post eq_refl p0 I) as (cs1 & cs2 & l1 & l2 & e1 & e2 & h1 & p1 & -> & -> & Ee & S1 & S2 & I1 & E1 & L).
  destruct (story_keeps _ _ _ _ _ _ S1 G H D) as (H1 & _).
  exists cs1, cs2, l1, e1, h1, p1. split; [reflexivity|]. split; [exact S1|]. split; [exact I1|]. split; [exact E1|]. intros f k args A T If.
  destruct L as [L|(Si & St)]; [left|right].
  - rewrite Es. eapply noticed_latest; eauto. unfold house_ok in H1. rewrite Forall_forall in H1. apply H1, I1.
  - split; [|exact St]. intros i N. rewrite Es. eapply noticed_silent; eauto.
Qed.

Theorem picture gw v r body h ls w : gateway_ok gw -> house_ok h -> distinct h -> (v < 13)%N -> wruns gw v r body (quiet_house h) ls w ->
  past_picture gw (listener v r (w_acts w)) r h (map snd (w_by w)) /\ (at_rest v r w -> right_picture (listener v r (w_acts w)) r h (w_house w)).
Proof.
  intros G H D Hv R. destruct (ordered _ _ _ _ _ _ _ G H Hv R) as (log & pre & post & tss & m & S & O & E & Es & F & _ & Z). cbv zeta in *. rewrite E in S. split.
  - eapply past_core; eassumption.
  - intros Re. destruct (Z Re) as (-> & _). rewrite app_nil_r in S. eapply picture_core; eassumption.
Qed.

Theorem failing_picture gw v r body h ls w es : gateway_ok gw -> house_ok h -> distinct h -> (v < 13)%N -> fruns gw v r body (quiet_house h, []) ls (w, es) ->
  past_picture gw (listener v r (w_acts w)) r h (map snd (w_by w)) /\ (at_rest v r w -> right_picture (listener v r (w_acts w)) r h (w_house w)).
Proof.
  intros G H D Hv R. destruct (failing_order _ _ _ _ _ _ _ _ G H Hv R) as (log & pre & post & tss & m & S & O & E & Es & F & _ & _ & Z). cbv zeta in *. rewrite E in S. split.
  - eapply past_core; eassumption.
  - intros Re. destruct (Z Re) as (-> & _). rewrite app_nil_r in S. eapply picture_core; eassumption.
Qed.

Theorem unlocked_picture gw v r body h ls u : gateway_ok gw -> house_ok h -> distinct h -> (v < 13)%N -> uruns gw v r body (calm_house h) ls u ->
  past_picture gw (listener v r (u_acts u)) r h (map snd (u_by u)) /\ (all_done v r u -> right_picture (listener v r (u_acts u)) r h (u_house u)).
Proof.
  intros G H D Hv R. destruct (each _ _ _ _ _ _ _ G H Hv R) as (log & pre & post & tss & S & O & E & Es & F & _ & _ & Z). cbv zeta in *. rewrite E in S. split.
  - eapply past_core; eassumption.
  - intros Re. rewrite (Z Re), app_nil_r in S. eapply picture_core; eassumption.
Qed.

(** ** In the end *)

Lemma surely_run gw v r body h (P Q : world -> Prop) : (forall ls w, wruns gw v r body (quiet_house h) ls w -> P w -> Q w) ->
  forall ls w, wruns gw v r body (quiet_house h) ls w -> surely gw v r body P w -> surely gw v r body Q w.
Proof.
  intros M ls w R S. revert ls R. induction S as [w Pw|w Ex All IH]; intros ls R; [apply Now; exact (M _ _ R Pw)|].
  apply Later; [exact Ex|]. intros w' St. eapply (IH w' St). eapply WR_snoc; eassumption.
Qed.

Lemma usurely_run gw v r body h (P Q : uworld -> Prop) : (forall ls u, uruns gw v r body (calm_house h) ls u -> P u -> Q u) ->
  forall ls u, uruns gw v r body (calm_house h) ls u -> usurely gw v r body P u -> usurely gw v r body Q u.
Proof.
  intros M ls u R S. revert ls R. induction S as [u Pu|u Ex All IH]; intros ls R; [apply UNow; exact (M _ _ R Pu)|].
  apply ULater; [exact Ex|]. intros u' St. eapply (IH u' St). eapply UR_snoc; eassumption.
Qed.

Lemma fsurely_run gw v r body h (P Q : fworld -> Prop) : (forall ls w es, fruns gw v r body (quiet_house h, []) ls (w, es) -> P (w, es) -> Q (w, es)) ->
  forall ls w es, fruns gw v r body (quiet_house h, []) ls (w, es) -> fsurely gw v r body P w es -> fsurely gw v r body Q w es.
Proof.
  intros M ls w es R S. revert ls R. induction S as [w es Pw|w es Ex All IH]; intros ls R; [apply FNow; exact (M _ _ _ R Pw)|].
  apply FLater; [exact Ex|]. intros w' es' St. eapply (IH w' es' St). eapply FR_snoc; eassumption.
Qed.
