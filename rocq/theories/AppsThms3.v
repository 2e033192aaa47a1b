(** * Several applications in one house: rules between lamps *)
From Coq Require Import String List NArith ZArith Bool Lia PeanoNat.
From Verif Require Import PyStr Tags Messages SpecMsg SpecTag SpecProto MessageThms3 Protocol IO Client SpecItem Items Lighting SpecLight ItemThms LightThms2
  SpecHouse HouseThms HouseThms2 Dispatch SpecDispatch DispatchThms DispatchThms2 DispatchThms3 SpecNotice NoticeThms SpecMirror MirrorThms
  Reflex SpecReflex ReflexThms ReflexThms2 ReflexThms3 ReflexThms4 Unlocked SpecUnlocked UnlockedThms SpecRules RulesThms Apps SpecApps AppsThms AppsThms2.
Import ListNotations.
Open Scope nat_scope.
Open Scope list_scope.

(** The part of an event's weight that one application needs. *)
Definition share (n m : nat) (rank : str -> nat) (r : registry) (rules : list (str * item)) (k : who * str) : nat :=
  match k with (LIGHTING, a) => length (r (K_light STATUS_CHANGE)) * length rules * per_call n m (rank a) | _ => 0 end.

Lemma share_events gw r h rules rank n : ranked gw rules rank ->
  weighs_events r (by_rules rules) (share n (length h) rank r rules) (cost gw h (weight n (length h) rank)).
Proof.
  intros Rk its p ts P (q & i & k & args & E & Pq & Nj & An & C). destruct (state_inj _ _ P Pq E) as (W & A & _).
  set (wt := weight n (length h) rank). assert (Ans : forall f, answer (by_rules rules) its (f, VItem i :: args) = by_rules rules f (place p) args).
  { intros f. cbn [answer]. rewrite Nj. unfold place. rewrite W, A. reflexivity. }
  destruct An as [L St|L St|L].
  1,2: assert (X : forall f ar, sum (cost gw h wt) (by_rules rules f (place p) ar) <= length rules * per_call n (length h) (rank (p_where p)));
    [intros f ar; unfold by_rules; rewrite <- (map_length (fun ru => follow (fst ru) (snd ru) f (place p) ar) rules); apply sum_concat; intros l Il;
     apply in_map_iff in Il as ((a & it) & <- & Il); apply (follow_cost gw h rules rank n a it f (place p) ar (p_where p) Rk Il); unfold place; congruence|];
    assert (Y : share n (length h) rank r rules (place p) = length (r (K_light STATUS_CHANGE)) * (length rules * per_call n (length h) (rank (p_where p))));
    [unfold share, place; rewrite W, L; lia|]; rewrite Y;
    clear Y; revert C; generalize (r (K_light STATUS_CHANGE)); intros fs C;
    induction C as [|g fs ts T C IH|]; [cbn; lia| |cbn; lia]; cbn [map concat length]; rewrite sum_app, Ans;
    match goal with |- context[by_rules _ ?f0 _ ?ar] => specialize (X f0 ar) end; lia.
  assert (X : forall f ar, by_rules rules f (place p) ar = []).
  { intros f ar. unfold by_rules, place. rewrite W, L. generalize rules. intros rl. induction rl as [|ru rs IH]; [reflexivity|exact IH]. }
  assert (Y : sum (cost gw h wt) (concat (map (answer (by_rules rules) its) ts)) = 0).
  { revert C. generalize (r K_auto). intros fs C. induction C as [|g fs ts T C IH|]; [reflexivity| |reflexivity]. cbn [map concat]. rewrite Ans, X. exact IH. }
  rewrite Y. lia.
Qed.

Lemma total_mul g x N : total (fun i => g i * x) N = total g N * x.
Proof. induction N as [|N IH]; [reflexivity|]. rewrite !total_S, IH. lia. Qed.

Lemma shares rs rules rank m N k :
  total (fun i => share (total (fun i => length (rs i (K_light STATUS_CHANGE)) * length (rules i)) N) m rank (rs i) (rules i) k) N <=
  weight (total (fun i => length (rs i (K_light STATUS_CHANGE)) * length (rules i)) N) m rank k.
Proof.
  set (n := total (fun i => length (rs i (K_light STATUS_CHANGE)) * length (rules i)) N). destruct k as (w & a). unfold share, weight.
  destruct w; try (rewrite total_0; lia). rewrite total_mul. fold n. rewrite heavy_per. lia.
Qed.
