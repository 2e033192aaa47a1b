(** * Callbacks that send commands: a follower comes to rest *)
From Coq Require Import String List NArith ZArith Bool Lia PeanoNat.
From Verif Require Import PyStr Tags Messages SpecMsg SpecTag SpecProto MessageThms3 Protocol IO Client SpecItem Items Lighting SpecLight ItemThms LightThms2
  SpecHouse HouseThms HouseThms2 Dispatch SpecDispatch DispatchThms DispatchThms2 DispatchThms3 SpecNotice NoticeThms SpecMirror MirrorThms Reflex SpecReflex ReflexThms ReflexThms2 ReflexThms3.
Import ListNotations.
Open Scope nat_scope.
Open Scope list_scope.

Definition event_weight (a : str) (n : nat) (k : who * str) : nat := if key_eqb k (LIGHTING, a) then n else 0.
Definition call_weight (it : item) (big : nat) (c : SpecHouse.call) : nat :=
  match c with CLight it' _ => if str_eqb (it_where it') (it_where it) then 1 else big | _ => big end.

Lemma key_eqb_true k k' : key_eqb k k' = true -> k = k'.
Proof.
  destruct k as (w & s), k' as (w' & s'). unfold key_eqb. cbn. intros E. apply andb_true_iff in E as (A & B).
  apply str_eqb_spec in B. subst. destruct w, w'; try discriminate A; reflexivity.
Qed.
Lemma sum_le {A} (f : A -> nat) b l : (forall x, In x l -> f x <= b) -> sum f l <= length l * b.
Proof.
  induction l as [|x l IH]; intros H; [cbn; lia|]. rewrite sum_cons. cbn [length]. pose proof (H x (or_introl eq_refl)).
  specialize (IH (fun y I => H y (or_intror I))). lia.
Qed.
Lemma filter_le {A} (f : A -> bool) l : length (filter f l) <= length l.
Proof. induction l as [|x l IH]; cbn; [lia|]. destruct (f x); cbn; lia. Qed.

Lemma does_few gw h c h' obs res evs : does gw h c h' obs res evs -> length evs <= length h.
Proof.
  intros D. destruct (does_obeys _ _ _ _ _ _ _ D) as (o & ans & _ & Ob). inversion Ob; subst; cbn [length]; try lia.
  - rewrite map_length. etransitivity; [apply filter_le|]. unfold h'0, done_to. rewrite map_length. lia.
  - destruct (echoes gw); [|cbn; lia]. unfold fs. rewrite map_length. apply filter_le.
Qed.

Lemma places_same ps qs : Forall point_ok ps -> Forall point_ok qs -> map frame_state ps = map frame_state qs -> map place ps = map place qs.
Proof.
  revert qs. induction ps as [|p ps IH]; intros [|q qs] P Q E; try discriminate; [reflexivity|]. apply Forall_inv in P as Pp; apply Forall_inv_tail in P; apply Forall_inv in Q as Qq; apply Forall_inv_tail in Q.
  cbn [map] in *. assert (E1 : frame_state p = frame_state q) by congruence. assert (E2 : map frame_state ps = map frame_state qs) by congruence.
  destruct (state_inj _ _ Pp Qq E1) as (A & B & _). f_equal; [unfold place; congruence|auto].
Qed.

Lemma follow_calls gw h a it n : gateway_ok gw -> covers gw (it_where it) a = false ->
  weighs_calls gw h (event_weight a n) (call_weight it (1 + length h * n)).
Proof.
  intros G Cv h1 c h' obs res ps H1 Pl D P.
  assert (Big : 1 + sum (fun p => event_weight a n (place p)) ps <= 1 + length h * n).
  { apply le_n_S. pose proof (does_few _ _ _ _ _ _ _ D) as L. rewrite map_length in L. apply (f_equal (@length _)) in Pl. rewrite !map_length in Pl.
    etransitivity; [apply (sum_le _ n)|apply Nat.mul_le_mono_r; lia]. intros x _. unfold event_weight. destruct (key_eqb _ _); lia. }
  destruct c; try exact Big. cbn [call_weight]. destruct (str_eqb (it_where it0) (it_where it)) eqn:E; [|exact Big]. apply str_eqb_spec in E.
  assert (Z : forall p, In p ps -> event_weight a n (place p) <= 0).
  { pose proof (does_ok _ _ _ _ _ _ _ G H1 D) as H1'. destruct (does_obeys _ _ _ _ _ _ _ D) as (o & ans & St & Ob). inversion St; subst.
    inversion Ob; subst; [destruct ps; [intros p []|discriminate]|].
    assert (Fq : Forall point_ok (filter (aimed gw LIGHTING (it_where it0)) h'0)).
    { unfold house_ok in H1'. rewrite Forall_forall in H1'. apply Forall_forall. intros q I. apply filter_In in I as (I & _). apply H1', I. }
    match goal with X : map frame_state _ = map frame_state ps |- _ => pose proof (places_same _ _ Fq P X) as Q end.
    intros p I. unfold event_weight. destruct (key_eqb (place p) (LIGHTING, a)) eqn:Ek; [|lia]. apply key_eqb_true in Ek.
    apply (in_map place) in I. rewrite <- Q in I. apply in_map_iff in I as (q & Eq & I). apply filter_In in I as (_ & I).
    unfold aimed in I. apply andb_true_iff in I as (_ & I). rewrite Ek in Eq. injection Eq as _ Eq. rewrite Eq, E in I. congruence. }
  pose proof (sum_le _ _ _ Z). lia.
Qed.

Lemma follow_events r a it big : weighs_events r (follow a it) (event_weight a (length (r (K_light STATUS_CHANGE)))) (call_weight it big).
Proof.
  intros its p ts P N. unfold event_weight. destruct (key_eqb (place p) (LIGHTING, a)) eqn:Ek.
  - apply key_eqb_true in Ek. pose proof N as (q & i & k & args & E & Pq & Nj & An & C). destruct (state_inj _ _ P Pq E) as (W & A & _). injection Ek as Ew Ea.
    assert (L : k = K_light STATUS_CHANGE) by (destruct An; [reflexivity|reflexivity|congruence]). subst k.
    clear N. revert C. generalize (r (K_light STATUS_CHANGE)). intros fs C.
    induction C as [|g fs ts T C IH|]; [cbn; lia| |cbn; lia].
    cbn [map concat]. rewrite sum_app. cbn [length].
    assert (X : sum (call_weight it big) (answer (follow a it) its (cb_id g, VItem i :: args)) <= 1).
    { cbn [answer]. rewrite Nj, <- W, Ew, <- A, Ea. unfold follow. destruct (str_eqb a a); [|cbn; lia].
      destruct args as [|[] [|]]; try (cbn; lia); destruct b; unfold sum; cbn [map call_weight]; try (cbn; lia); rewrite (proj2 (str_eqb_spec _ _) eq_refl); cbn; lia. }
    lia.
  - assert (Nk : place p <> (LIGHTING, a)).
    { intros Z. rewrite Z in Ek. unfold key_eqb in Ek. cbn in Ek. rewrite (proj2 (str_eqb_spec a a) eq_refl) in Ek. discriminate. }
    rewrite (elsewhere_quiet a it its r _ ts p N eq_refl P Nk). cbn. lia.
Qed.

Theorem follow_bounded gw v r h ls w a it : gateway_ok gw -> house_ok h -> (v < 13)%N -> covers gw (it_where it) a = false ->
  wruns gw v r (follow a it) (quiet_house h) ls w ->
  length (w_by w) <= length (pressed ls) * (1 + length h * length (r (K_light STATUS_CHANGE))).
Proof.
  intros G H Hv Cv R.
  etransitivity; [eapply (bounded gw v r (follow a it) h ls w); [assumption..|exact R|exact (follow_calls gw h a it (length (r (K_light STATUS_CHANGE))) G Cv)|apply follow_events]|].
  apply sum_le. intros c _. unfold call_weight. destruct c; try lia. destruct (str_eqb _ _); lia.
Qed.

Theorem follow_ends gw v r h ls w a it : gateway_ok gw -> house_ok h -> (v < 13)%N -> covers gw (it_where it) a = false ->
  wruns gw v r (follow a it) (quiet_house h) ls w -> Acc (fun y x => wstep gw v r (follow a it) x Act y) w.
Proof.
  intros G H Hv Cv R. eapply (ends gw v r (follow a it) h); [assumption..|exact (follow_calls gw h a it (length (r (K_light STATUS_CHANGE))) G Cv)|apply follow_events|exact R].
Qed.

Lemma follow_ok a it : (forall on, call_ok (switch it on)) -> forall f k args, Forall call_ok (follow a it f k args).
Proof.
  intros O f (k & s) args. unfold follow. destruct k; try constructor. destruct (str_eqb a s); [|constructor].
  destruct args as [|[] [|]]; try apply Forall_nil; destruct b; try apply Forall_nil; (apply Forall_cons; [|apply Forall_nil]); [apply (O true)|apply (O false)].
Qed.

Lemma wruns_cons gw v r body w l w1 ls w2 : wstep gw v r body w l w1 -> wruns gw v r body w1 ls w2 -> wruns gw v r body w (l :: ls) w2.
Proof.
  intros S R. induction R as [|ls l' a b R IH S']; [exact (WR_snoc _ _ _ _ _ [] _ _ _ (WR_nil _ _ _ _ _) S)|].
  exact (WR_snoc _ _ _ _ _ (l :: ls) _ _ _ IH S').
Qed.
