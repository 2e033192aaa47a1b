(** * Several applications in one house: applications that never rest *)
From Coq Require Import String List NArith ZArith Bool Lia PeanoNat.
From Verif Require Import PyStr Tags Messages SpecMsg SpecTag SpecProto MessageThms3 Protocol IO Client SpecItem Items Lighting SpecLight ItemThms LightThms2
  SpecHouse HouseThms HouseThms2 Dispatch SpecDispatch DispatchThms DispatchThms2 DispatchThms3 SpecNotice NoticeThms SpecMirror MirrorThms
  Reflex SpecReflex ReflexThms ReflexThms2 ReflexThms3 ReflexThms4 Unlocked SpecUnlocked UnlockedThms Apps SpecApps AppsThms AppsThms2.
Import ListNotations.
Open Scope nat_scope.
Open Scope list_scope.

Lemma sum_one {A} (l : list A) : sum (fun _ => 1) l = length l.
Proof. induction l as [|x l IH]; [reflexivity|]. change (sum (fun _ => 1) (x :: l)) with (1 + sum (fun _ : A => 1) l). rewrite IH. reflexivity. Qed.

(** At rest the callbacks have made all of their calls. *)
Lemma u_all gw v r body h ls u : gateway_ok gw -> house_ok h -> (v < 13)%N -> uruns gw v r body (calm_house h) ls u -> all_done v r u ->
  let st := listener v r (u_acts u) in length (of_callbacks (u_by u)) = length (concat (map (answer body (st_items st)) (st_started st))).
Proof.
  intros G H Hv R (_ & _ & D). cbv zeta. pose proof (u_sound _ _ _ _ _ _ _ G H Hv R) as (_ & _ & _ & _ & A).
  destruct (each _ _ _ _ _ _ _ G H Hv R) as (log & pre & post & tss & S & O & E & Es & F & Z & _ & _). cbv zeta in *.
  rewrite <- (sum_one (of_callbacks (u_by u))), (sum_calls _ _ _ Z), <- answers_all, <- (sum_one (concat _)). generalize (seq 0 (length (st_started (listener v r (u_acts u))))). intros s.
  induction s as [|k s IH]; [reflexivity|]. cbn [map concat]. rewrite sum_app, <- IH. specialize (A k).
  assert (T : nth k (u_todo u) [] = []) by (rewrite Forall_forall in D; destruct (nth_in_or_default k (u_todo u) []) as [I| ->]; [apply D, I|reflexivity]).
  rewrite T, app_nil_r in A. rewrite A. reflexivity.
Qed.

Definition count (who_of : who * str -> nat) (i : nat) (ps : list point) : nat := sum (fun p => if Nat.eqb (who_of (place p)) i then 1 else 0) ps.

Lemma count_all who_of N ps : Forall (fun p => who_of (place p) < N) ps -> total (fun i => count who_of i ps) N = length ps.
Proof.
  induction 1 as [|p ps L F IH]; [apply total_0|].
  rewrite (total_ext _ (fun i => (if Nat.eqb (who_of (place p)) i then 1 else 0) + count who_of i ps)) by (intros; reflexivity). rewrite total_add, IH, total_one by exact L. reflexivity.
Qed.

Theorem apps_restless gw apps N h ls s who_of : gateway_ok gw -> house_ok h -> 0 < N -> (forall i, i < N -> (a_ver (apps i) < 13)%N) -> mruns gw apps N (still_house h) ls s ->
  (forall p, point_ok p -> In (place p) (map place h) -> who_of (place p) < N /\
    forall its ts, noticed its (a_reg (apps (who_of (place p)))) (frame_state p) ts -> concat (map (answer (a_body (apps (who_of (place p)))) its) ts) <> []) ->
  (forall i f k args, i < N -> Forall (reaches gw h) (a_body (apps i) f k args)) -> Forall (reaches gw h) (pressed ls) -> pressed ls <> [] ->
  ~ all_still apps N s.
Proof.
  intros G H Pos Hv R A B P Ne Re. destruct (apps_each gw apps N h ls s G H Hv R Pos) as (log & S & O & Each). destruct (m_others _ _ _ _ _ _ R) as (_ & Fi).
  assert (Fr : Forall (reaches gw h) (map snd (m_by s))).
  { apply Forall_map, Forall_forall. intros (o & c) I. cbn [snd]. destruct o as [(i & n)|].
    - rewrite Forall_forall in Fi. pose proof (Fi _ I) as Li. cbn in Li. destruct (Each i Li) as (pre & post & tss & X). cbv zeta in X. destruct X as (_ & _ & _ & Z1 & Z2 & _).
      assert (Ic : In c (app_calls i n (m_by s))).
      { unfold app_calls. apply in_concat. exists [c]. split; [|left; reflexivity]. apply in_map_iff. exists (Some (i, n), c). split; [|exact I]. rewrite !Nat.eqb_refl. reflexivity. }
      destruct (nth_error (st_started (hears_of apps s i)) n) as [t|] eqn:Et; [|apply nth_error_None in Et; rewrite (Z1 n Et) in Ic; destruct Ic].
      destruct (Z2 n t Et) as (rest & Ea & _). assert (Ia : In c (answer (a_body (apps i)) (st_items (hears_of apps s i)) t)) by (rewrite Ea; apply in_or_app; left; exact Ic).
      destruct t as (f & [|x args]); cbn in Ia; [destruct Ia|]. destruct x; try destruct Ia. match goal with Q : context[nth_error ?a ?b] |- _ => destruct (nth_error a b) end; [|destruct Ia].
      pose proof (B i f p args Li) as Bf. rewrite Forall_forall in Bf. apply Bf, Ia.
    - rewrite <- O in P. rewrite Forall_forall in P. apply P. unfold no_app. apply in_concat. exists [c]. split; [|left; reflexivity]. apply in_map_iff. exists (None, c). split; [reflexivity|exact I]. }
  destruct (reached_story gw h G _ _ _ _ _ S H eq_refl Fr) as (L & ps & Ep & Fp). rewrite map_length in L.
  pose proof (sum_apps (fun _ => 1) N _ Fi) as Q. rewrite !sum_one, map_length, O in Q.
  assert (K : total (fun i => count who_of i ps) N <= total (fun i => sum (fun _ => 1) (of_callbacks (view_by i (m_by s)))) N).
  { apply total_le. intros i Li. destruct (view_runs gw apps N h ls s i R) as (ls1 & R1). rewrite sum_one.
    pose proof (u_all _ _ _ _ _ _ _ G H (Hv i Li) R1 (Re i Li)) as U. cbv zeta in U. cbn [view u_by u_acts] in U. rewrite U. fold (hears_of apps s i).
    destruct (Each i Li) as (pre & post & tss & X). cbv zeta in X. destruct X as (E & Es & F & _ & _ & Z3). rewrite (Z3 Re), app_nil_r in E. subst pre. rewrite Es, Ep in *.
    clear - F Fp A. revert tss F. induction ps as [|p ps IH]; intros tss F; [cbn; lia|]. inversion F as [|x ts l t3 Nt F3]; subst. inversion Fp as [|? ? (Pk & Ip) Fp']; subst.
    specialize (IH Fp' _ F3). cbn [concat]. rewrite map_app, concat_app, app_length.
    change (count who_of i (p :: ps)) with ((if Nat.eqb (who_of (place p)) i then 1 else 0) + count who_of i ps).
    destruct (Nat.eqb (who_of (place p)) i) eqn:Ei; [|lia]. apply Nat.eqb_eq in Ei. destruct (A p Pk Ip) as (_ & Ap). rewrite Ei in Ap. specialize (Ap _ _ Nt).
    match goal with |- _ <= length ?a + _ => destruct a; [contradiction|cbn [length]; lia] end. }
  rewrite count_all in K.
  - assert (Z : total (fun i => sum (fun _ => 1) (of_callbacks (view_by i (m_by s)))) N = total (fun i => length (of_callbacks (view_by i (m_by s)))) N) by (apply total_ext; intros; apply sum_one).
    rewrite Ep, map_length in L. destruct (pressed ls); [contradiction|]. cbn [length] in Q. lia.
  - eapply Forall_impl; [|exact Fp]. intros p (Pk & Ip). apply (A p Pk Ip).
Qed.

(** The calls pass any number. *)
Theorem apps_endless gw apps N h n : gateway_ok gw -> house_ok h -> (forall i, i < N -> (a_ver (apps i) < 13)%N) ->
  (forall i f k args, i < N -> Forall call_ok (a_body (apps i) f k args)) -> forall pr,
  (forall ls s, mruns gw apps N (still_house h) ls s -> pressed ls = pr -> ~ all_still apps N s) ->
  forall ls s, mruns gw apps N (still_house h) ls s -> pressed ls = pr -> msurely gw apps N (fun s' => n <= length (m_by s')) s.
Proof.
  intros G H Hv Ok pr No.
  assert (M : forall p a b ls s, mruns gw apps N (still_house h) ls s -> pressed ls = pr -> n - length (m_by s) = p -> total (fun i => length (e_wire (m_ears s i))) N = a ->
    total (fun i => length (st_queue (hears_of apps s i))) N = b -> msurely gw apps N (fun s' => n <= length (m_by s')) s).
  { induction p as [p IHp] using (well_founded_induction Nat.lt_wf_0).
    induction a as [a IHa] using (well_founded_induction Nat.lt_wf_0).
    induction b as [b IHb] using (well_founded_induction Nat.lt_wf_0).
    intros ls s R Pr Ep Ea Eb. destruct (Nat.le_gt_cases n (length (m_by s))) as [Le|Gt]; [apply MNow, Le|].
    destruct (apps_progress gw apps N h ls s G H Hv R Ok) as [X|X]; [destruct (No ls s R Pr X)|]. apply MLater; [exact X|]. intros s' St.
    pose proof (MR_snoc _ _ _ _ _ _ _ _ R St) as R'.
    assert (P' : pressed (ls ++ [Act]) = pr) by (rewrite pressed_app, Pr; cbn; apply app_nil_r).
    inversion St as [|i f fs rest Li Ew| |i m q Li Eq| |i k x cs h' obs res evs Li Ei Do]; subst s'.
    - eapply (IHa _); [|exact R'|exact P'|exact Ep|reflexivity|reflexivity]. rewrite <- Ea. apply (total_less _ _ N i Li); cbn [m_told m_ears].
      + rewrite at_same, Ew, app_length. cbn. lia.
      + intros j Ne. rewrite at_other by (intros ->; apply Ne; reflexivity). reflexivity.
    - assert (Same : total (fun j => length (e_wire (m_ears s j))) N = total (fun j => length (e_wire (m_ears (m_told s i (e_wire (m_ears s i)) (e_acts (m_ears s i) ++ [Wake])
        (e_todo (m_ears s i) ++ made_todo (a_ver (apps i)) (a_reg (apps i)) (a_body (apps i)) (e_acts (m_ears s i)))) j))) N).
      { apply total_ext. intros j _. cbn [m_told m_ears]. unfold at_ear. destruct (Nat.eqb i j) eqn:E; [apply Nat.eqb_eq in E; subst j|]; reflexivity. }
      eapply (IHb _); [|exact R'|exact P'|exact Ep|rewrite <- Ea; symmetry; exact Same|reflexivity]. rewrite <- Eb. apply (total_less _ _ N i Li); unfold hears_of; cbn [m_told m_ears].
      + rewrite at_same. cbn [e_acts]. destruct (view_runs gw apps N h ls s i R) as (ls1 & R1).
        pose proof (u_woken _ _ _ _ _ _ _ G H (Hv i Li) (u_sound _ _ _ _ _ _ _ G H (Hv i Li) R1)) as Z. cbn [view u_acts] in Z. rewrite Z, Eq. cbn. lia.
      + intros j Ne. rewrite at_other by (intros ->; apply Ne; reflexivity). reflexivity.
    - eapply (IHp _); [|exact R'|exact P'|reflexivity|reflexivity|reflexivity]. cbn [m_call m_by]. rewrite app_length. cbn [length]. lia. }
  intros ls s R Pr. eapply M; [exact R|exact Pr|reflexivity|reflexivity|reflexivity].
Qed.

Lemma msurely_run gw apps N h (P Q : many -> Prop) : (forall ls s, mruns gw apps N (still_house h) ls s -> P s -> Q s) ->
  forall ls s, mruns gw apps N (still_house h) ls s -> msurely gw apps N P s -> msurely gw apps N Q s.
Proof.
  intros M ls s R S. revert ls R. induction S as [s Ps|s Ex All IH]; intros ls R; [apply MNow; exact (M _ _ R Ps)|].
  apply MLater; [exact Ex|]. intros s' St. eapply (IH s' St). eapply MR_snoc; eassumption.
Qed.
