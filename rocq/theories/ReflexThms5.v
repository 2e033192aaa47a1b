(** * Callbacks that send commands: what is sure to come *)
From Coq Require Import String List NArith ZArith Bool Lia PeanoNat.
From Verif Require Import PyStr Tags Messages SpecMsg Items Lighting SpecItem SpecLight LightThms2 Dispatch SpecDispatch DispatchThms SpecTag SpecHouse HouseThms HouseThms2
  SpecNotice NoticeThms SpecMirror MirrorThms Protocol Reflex SpecReflex ReflexThms ReflexThms2 ReflexThms3.
Import ListNotations.
Open Scope nat_scope.
Open Scope list_scope.

(** Between two calls only so much can be done. *)
Theorem calls_come gw v r body h big : gateway_ok gw -> house_ok h -> (v < 13)%N ->
  forall ls w, wruns gw v r body (quiet_house h) ls w -> Acc (fun b a => wstep gw v r body a Act b /\ length (w_by b) <= big) w.
Proof.
  intros G H Hv.
  assert (M : forall p a b c ls w, wruns gw v r body (quiet_house h) ls w -> big - length (w_by w) = p -> length (w_wire w) = a ->
    length (st_queue (listener v r (w_acts w))) = b -> jobs w = c -> Acc (fun b a => wstep gw v r body a Act b /\ length (w_by b) <= big) w).
  { induction p as [p IHp] using (well_founded_induction Nat.lt_wf_0).
    induction a as [a IHa] using (well_founded_induction Nat.lt_wf_0).
    induction b as [b IHb] using (well_founded_induction Nat.lt_wf_0).
    induction c as [c IHc] using (well_founded_induction Nat.lt_wf_0).
    intros ls w R Ep Ea Eb Ec. constructor. intros w' (St & Le).
    pose proof (sound_runs _ _ _ _ _ _ _ G H Hv R) as Sw. pose proof Sw as (_ & _ & _ & Q).
    pose proof (WR_snoc _ _ _ _ _ _ _ _ _ R St) as R'.
    inversion St as [|f fs rest Ew| |m q Eq| |j js Er|n x cs h' obs res evs Ei Do|n Ei]; subst.
    - eapply (IHa (length rest)); [rewrite Ew, app_length; cbn; lia|exact R'|reflexivity|reflexivity|reflexivity|reflexivity].
    - eapply (IHb 0); [rewrite Eq; cbn; lia|exact R'|reflexivity|reflexivity| |reflexivity].
      cbn [with_acts w_acts]. rewrite (woken_queue _ _ _ _ _ _ _ G H Hv Sw). reflexivity.
    - assert (X : w_by (run_job v r body w j js) = w_by w /\ w_wire (run_job v r body w j js) = w_wire w /\ w_acts (run_job v r body w j js) = w_acts w).
      { destruct j; cbn [run_job]; [destruct (_ && _)| |]; repeat split. }
      destruct X as (X1 & X2 & X3). eapply (IHc _); [eapply run_jobs; eassumption|exact R'|rewrite X1; reflexivity|rewrite X2; reflexivity|rewrite X3; reflexivity|reflexivity].
    - cbn [with_call w_by] in Le. rewrite app_length in Le. cbn [length] in Le.
      eapply (IHp _); [|exact R'|reflexivity|reflexivity|reflexivity|reflexivity]. cbn [with_call w_by]. rewrite app_length. cbn [length]. lia.
    - eapply (IHc _); [|exact R'|reflexivity|reflexivity|reflexivity|reflexivity].
      unfold jobs. cbn [with_lock w_ready w_waiters w_inside]. rewrite Ei, begins_app, wokens_app. cbn [begins wokens map concat]. rewrite !app_length. cbn [length]. lia. }
  intros ls w R. eapply M; [exact R|reflexivity|reflexivity|reflexivity|reflexivity].
Qed.

Theorem endless gw v r body h ls w : gateway_ok gw -> house_ok h -> (v < 13)%N -> wruns gw v r body (quiet_house h) ls w ->
  (forall its p ts, point_ok p -> In (place p) (map place h) -> noticed its r (frame_state p) ts -> concat (map (answer body its) ts) <> []) ->
  (forall f k args, Forall (reaches gw h) (body f k args)) -> (forall f k args, Forall call_ok (body f k args)) ->
  Forall (reaches gw h) (pressed ls) -> pressed ls <> [] ->
  forall n, surely gw v r body (fun w' => n <= length (w_by w')) w.
Proof.
  intros G H Hv R A B Ok P N n. pose proof (calls_come gw v r body h n G H Hv ls w R) as Ac. revert ls R P N.
  induction Ac as [w _ IH]. intros ls R P N. destruct (Nat.le_gt_cases n (length (w_by w))) as [L|L]; [apply Now, L|].
  apply Later.
  - destruct (progress gw v r body h ls w G H Hv R Ok) as [X|X]; [|exact X].
    exfalso. revert X. eapply restless; eassumption.
  - intros w' St. pose proof (WR_snoc _ _ _ _ _ _ _ _ _ R St) as R'.
    assert (Ps : pressed (ls ++ [Act]) = pressed ls) by (rewrite pressed_app; cbn; apply app_nil_r).
    destruct (Nat.le_gt_cases (length (w_by w')) n) as [L'|L']; [|apply Now; lia].
    eapply IH; [split; eassumption|exact R'|rewrite Ps; exact P|rewrite Ps; exact N].
Qed.

Theorem comes_to_rest gw v r body h wt wc : gateway_ok gw -> house_ok h -> (v < 13)%N ->
  weighs_calls gw h wt wc -> weighs_events r body wt wc -> (forall f k args, Forall call_ok (body f k args)) ->
  forall ls w, wruns gw v r body (quiet_house h) ls w -> surely gw v r body (fun w' => at_rest v r w') w.
Proof.
  intros G H Hv C1 C2 Ok ls w R. pose proof (ends gw v r body h wt wc G H Hv C1 C2 ls w R) as Ac. revert ls R.
  induction Ac as [w _ IH]. intros ls R. destruct (progress gw v r body h ls w G H Hv R Ok) as [X|X]; [apply Now, X|].
  apply Later; [exact X|]. intros w' St. eapply IH; [exact St|]. eapply WR_snoc; eassumption.
Qed.
