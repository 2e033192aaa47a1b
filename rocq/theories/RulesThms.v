(** * Rules between lamps: proofs *)
From Coq Require Import String List NArith ZArith Bool Lia PeanoNat.
From Verif Require Import PyStr Tags Messages SpecMsg SpecTag SpecProto MessageThms3 Protocol IO Client SpecItem Items Lighting SpecLight ItemThms LightThms2
  SpecHouse HouseThms HouseThms2 Dispatch SpecDispatch DispatchThms DispatchThms2 DispatchThms3 SpecNotice NoticeThms SpecMirror MirrorThms Reflex SpecReflex ReflexThms ReflexThms2 ReflexThms3 ReflexThms4 SpecRules.
Import ListNotations.
Open Scope nat_scope.
Open Scope list_scope.

(** ** The least weight of a call *)

Definition cost (gw : gateway) (h : house) (wt : who * str -> nat) (c : SpecHouse.call) : nat :=
  1 + sum (fun p => wt (place p)) (filter (aimed gw (call_who c) (it_where (call_item c))) h).

Lemma sum_map {A B} (f : B -> nat) (g : A -> B) l : sum f (map g l) = sum (fun x => f (g x)) l.
Proof. unfold sum. rewrite map_map. reflexivity. Qed.

Lemma filter_places gw w a h h1 : map place h1 = map place h -> map place (filter (aimed gw w a) h1) = map place (filter (aimed gw w a) h).
Proof.
  revert h1. induction h as [|p h IH]; intros [|q h1] E; try discriminate; [reflexivity|].
  assert (P1 : place q = place p) by (cbn in E; congruence). assert (P2 : map place h1 = map place h) by (cbn in E; congruence).
  cbn [filter]. rewrite (aimed_place gw w a q p P1). destruct (aimed gw w a p); [cbn [map]; rewrite P1, (IH _ P2); reflexivity|exact (IH _ P2)].
Qed.

Lemma cost_calls gw h wt : gateway_ok gw -> weighs_calls gw h wt (cost gw h wt).
Proof.
  intros G h1 c h' obs res ps H1 Pl D P. unfold cost. apply le_n_S.
  pose proof (does_ok _ _ _ _ _ _ _ G H1 D) as H1'. pose proof (does_places _ _ _ _ _ _ _ D) as Pl'. rewrite Pl in Pl'.
  destruct (does_obeys _ _ _ _ _ _ _ D) as (o & ans & St & Ob).
  assert (K : forall w a hh, Forall point_ok hh -> map place hh = map place h -> map frame_state (filter (aimed gw w a) hh) = map frame_state ps ->
    sum (fun p => wt (place p)) ps = sum (fun p => wt (place p)) (filter (aimed gw w a) h)).
  { intros w a hh Hh Ph E. assert (Fq : Forall point_ok (filter (aimed gw w a) hh)).
    { rewrite Forall_forall in Hh. apply Forall_forall. intros q I. apply filter_In in I as (I & _). apply Hh, I. }
    pose proof (places_same _ _ Fq P E) as Q. rewrite (filter_places _ _ _ _ _ Ph) in Q.
    rewrite <- (sum_map wt place ps), <- (sum_map wt place (filter _ h)), Q. reflexivity. }
  assert (Z : [] = map frame_state ps -> sum (fun p => wt (place p)) ps <= sum (fun p => wt (place p)) (filter (aimed gw (call_who c) (it_where (call_item c))) h)).
  { intros E. destruct ps; [cbn; lia|discriminate]. }
  inversion Ob; subst.
  - apply Z. assumption.
  - inversion St; subst; cbn [call_who call_item]; (erewrite K; [apply Nat.le_refl|exact H1'|exact Pl'|eassumption]).
  - apply Z. assumption.
  - destruct (echoes gw); [|apply Z; assumption]. inversion St; subst; cbn [call_who call_item]; (erewrite K; [apply Nat.le_refl|exact H1|exact Pl|eassumption]).
  - apply Z. assumption.
Qed.

(** ** Weights for rules *)

Definition weight (n m : nat) (rank : str -> nat) (k : who * str) : nat := match k with (LIGHTING, a) => heavy n m (rank a) | _ => 0 end.
Definition per_call (n m : nat) (k : nat) : nat := match k with O => 1 | S k => 1 + m * heavy n m k end.

Lemma heavy_per n m k : heavy n m k = n * per_call n m k.
Proof. destruct k; cbn; lia. Qed.
Lemma heavy_up n m k : heavy n m k <= heavy n m (S k).
Proof. induction k as [|k IH]; cbn [heavy] in *; [nia|]. apply Nat.mul_le_mono_l. apply le_n_S. apply Nat.mul_le_mono_l. exact IH. Qed.
Lemma heavy_mono n m j k : j <= k -> heavy n m j <= heavy n m k.
Proof. induction 1 as [|k L IH]; [lia|]. pose proof (heavy_up n m k). lia. Qed.

Lemma cost_switch gw h rules rank n a it on : ranked gw rules rank -> In (a, it) rules ->
  cost gw h (weight n (length h) rank) (switch it on) <= per_call n (length h) (rank a).
Proof.
  intros Rk I. unfold cost. cbn [switch call_who call_item].
  assert (A : forall p, In p (filter (aimed gw LIGHTING (it_where it)) h) -> rank (p_where p) < rank a).
  { intros p Ip. apply filter_In in Ip as (_ & Ip). unfold aimed in Ip. apply andb_true_iff in Ip as (_ & Ip). exact (Rk a it _ I Ip). }
  unfold per_call. destruct (rank a) as [|k] eqn:Ek.
  - destruct (filter _ h) as [|p l]; [cbn; lia|]. specialize (A p (or_introl eq_refl)). lia.
  - apply le_n_S. etransitivity; [apply (sum_le _ (heavy n (length h) k))|apply Nat.mul_le_mono_r, filter_le].
    intros p Ip. specialize (A p Ip). unfold weight, place. destruct (p_who p); try lia. apply heavy_mono. lia.
Qed.

Lemma sum_concat {A} (f : A -> nat) b ls : (forall l, In l ls -> sum f l <= b) -> sum f (concat ls) <= length ls * b.
Proof.
  induction ls as [|l ls IH]; intros H; [cbn; lia|]. cbn [concat length]. rewrite sum_app. pose proof (H l (or_introl eq_refl)).
  specialize (IH (fun x I => H x (or_intror I))). lia.
Qed.

Lemma follow_cost gw h rules rank n a it f k args b : ranked gw rules rank -> In (a, it) rules -> k = (LIGHTING, b) ->
  sum (cost gw h (weight n (length h) rank)) (follow a it f k args) <= per_call n (length h) (rank b).
Proof.
  intros Rk I ->. unfold follow. destruct (str_eqb a b) eqn:E; [|cbn; lia]. apply str_eqb_spec in E. subst b.
  pose proof (cost_switch gw h rules rank n a it true Rk I) as T. pose proof (cost_switch gw h rules rank n a it false Rk I) as F. change (switch it true) with (CLight it (LBase turn_on)) in T. change (switch it false) with (CLight it (LBase turn_off)) in F.
  destruct args as [|x [|y l]]; try (cbn; lia); destruct x; try (cbn; lia); try match goal with x : bool |- _ => destruct x end; try (cbn; lia); unfold sum; cbn [map list_sum fold_right]; rewrite ?Nat.add_0_r; assumption.
Qed.

Lemma rules_events gw r h rules rank : ranked gw rules rank ->
  let n := length (r (K_light STATUS_CHANGE)) * length rules in
  weighs_events r (by_rules rules) (weight n (length h) rank) (cost gw h (weight n (length h) rank)).
Proof.
  intros Rk n its p ts P (q & i & k & args & E & Pq & Nj & An & C). destruct (state_inj _ _ P Pq E) as (W & A & _).
  set (wt := weight n (length h) rank). assert (Ans : forall f, answer (by_rules rules) its (f, VItem i :: args) = by_rules rules f (place p) args).
  { intros f. cbn [answer]. rewrite Nj. unfold place. rewrite W, A. reflexivity. }
  destruct An as [L St|L St|L].
  1,2: assert (X : forall f ar, sum (cost gw h wt) (by_rules rules f (place p) ar) <= length rules * per_call n (length h) (rank (p_where p)));
    [intros f ar; unfold by_rules; rewrite <- (map_length (fun ru => follow (fst ru) (snd ru) f (place p) ar) rules); apply sum_concat; intros l Il;
     apply in_map_iff in Il as ((a & it) & <- & Il); apply (follow_cost gw h rules rank n a it f (place p) ar (p_where p) Rk Il); unfold place; congruence|];
    assert (Y : wt (place p) = length (r (K_light STATUS_CHANGE)) * (length rules * per_call n (length h) (rank (p_where p))));
    [unfold wt, weight, place; rewrite W, L, heavy_per; unfold n; lia|]; rewrite Y;
    clear Y; revert C; generalize (r (K_light STATUS_CHANGE)); intros fs C;
    induction C as [|g fs ts T C IH|]; [cbn; lia| |cbn; lia]; cbn [map concat length]; rewrite sum_app, Ans;
    match goal with |- context[by_rules _ ?f0 _ ?ar] => specialize (X f0 ar) end; lia.
  assert (X : forall f ar, by_rules rules f (place p) ar = []).
  { intros f ar. unfold by_rules, place. rewrite W, L. generalize rules. intros rl. induction rl as [|ru rs IH]; [reflexivity|exact IH]. }
  assert (Y : sum (cost gw h wt) (concat (map (answer (by_rules rules) its) ts)) = 0).
  { revert C. generalize (r K_auto). intros fs C. induction C as [|g fs ts T C IH|]; [reflexivity| |reflexivity]. cbn [map concat]. rewrite Ans, X. exact IH. }
  rewrite Y. lia.
Qed.

Lemma rules_ok rules : (forall a it on, In (a, it) rules -> call_ok (switch it on)) -> forall f k args, Forall call_ok (by_rules rules f k args).
Proof.
  intros O f k args. unfold by_rules. apply Forall_concat, Forall_map, Forall_forall. intros (a & it) I. cbn. apply follow_ok. intros on. exact (O a it on I).
Qed.

Lemma cost_most gw h n rank k c : (forall p, In p h -> rank (p_where p) <= k) -> cost gw h (weight n (length h) rank) c <= 1 + length h * heavy n (length h) k.
Proof.
  intros M. unfold cost. apply le_n_S. etransitivity; [apply (sum_le _ (heavy n (length h) k))|apply Nat.mul_le_mono_r, filter_le].
  intros p I. apply filter_In in I as (I & _). specialize (M p I). unfold weight, place. destruct (p_who p); try lia. apply heavy_mono, M.
Qed.

Lemma sum_most {A} (f : A -> nat) b l : (forall x, f x <= b) -> sum f l <= length l * b.
Proof. intros H. apply sum_le. intros x _. apply H. Qed.
