(** * Several applications in one house: proofs *)
From Coq Require Import String List NArith ZArith Bool Lia PeanoNat.
From Verif Require Import PyStr Tags Messages SpecMsg SpecTag SpecProto MessageThms3 Protocol IO Client SpecItem Items Lighting SpecLight ItemThms LightThms2
  SpecHouse HouseThms HouseThms2 Dispatch SpecDispatch DispatchThms DispatchThms2 DispatchThms3 SpecNotice NoticeThms SpecMirror MirrorThms
  Reflex SpecReflex ReflexThms ReflexThms2 ReflexThms3 Unlocked SpecUnlocked UnlockedThms SpecPicture PictureThms Apps SpecApps.
Import ListNotations.
Open Scope nat_scope.
Open Scope list_scope.

(** ** The house as one application sees it: the others are other people *)

Definition mine (i : nat) (o : option (nat * nat)) : option nat := match o with Some (j, n) => if Nat.eqb j i then Some n else None | None => None end.
Definition view_by (i : nat) (l : list (option (nat * nat) * SpecHouse.call)) : list (option nat * SpecHouse.call) := map (fun x => (mine i (fst x), snd x)) l.
Definition view (i : nat) (s : many) : uworld :=
  {| u_house := m_house s; u_wire := e_wire (m_ears s i); u_acts := e_acts (m_ears s i); u_todo := e_todo (m_ears s i); u_by := view_by i (m_by s); u_evs := m_evs s |}.

Lemma at_same i e es : at_ear i e es i = e.
Proof. unfold at_ear. rewrite Nat.eqb_refl. reflexivity. Qed.
Lemma at_other i j e es : i <> j -> at_ear i e es j = es j.
Proof. intros H. unfold at_ear. apply Nat.eqb_neq in H. rewrite H. reflexivity. Qed.
Lemma view_by_app i a b : view_by i (a ++ b) = view_by i a ++ view_by i b.
Proof. apply map_app. Qed.
Lemma view_snd i l : map snd (view_by i l) = map snd l.
Proof. unfold view_by. rewrite map_map. reflexivity. Qed.

Lemma view_step gw apps N s l s' i : mstep gw apps N s l s' -> view i s' = view i s \/ exists l', ustep gw (a_ver (apps i)) (a_reg (apps i)) (a_body (apps i)) (view i s) l' (view i s').
Proof.
  intros St. destruct St as [c h' obs res evs Do|j f fs rest Lt Ew|j k whr Lt T|j m q Lt Eq|j Lt Eq|j n c cs h' obs res evs Lt Ei Do].
  - right. exists (Pressed c). unfold view, m_call. cbn [m_house m_ears m_by m_evs hear e_wire e_acts e_todo]. rewrite view_by_app. exact (U_press _ _ _ _ (view i s) c h' obs res evs Do).
  - destruct (Nat.eq_dec j i) as [->|Ne]; [right; exists Act|left]; unfold view, m_told; cbn [m_house m_ears m_by m_evs]; [rewrite at_same|rewrite at_other by exact Ne; reflexivity].
    exact (U_packet _ _ _ _ (view i s) f fs rest Ew).
  - destruct (Nat.eq_dec j i) as [->|Ne]; [right; exists Quiet|left]; unfold view, m_told; cbn [m_house m_ears m_by m_evs]; [rewrite at_same|rewrite at_other by exact Ne; reflexivity].
    exact (U_lookup _ _ _ _ (view i s) k whr T).
  - destruct (Nat.eq_dec j i) as [->|Ne]; [right; exists Act|left]; unfold view, m_told; cbn [m_house m_ears m_by m_evs]; [rewrite at_same|rewrite at_other by exact Ne; reflexivity].
    exact (U_wake _ _ _ _ (view i s) m q Eq).
  - destruct (Nat.eq_dec j i) as [->|Ne]; [right; exists Quiet|left]; unfold view, m_told; cbn [m_house m_ears m_by m_evs]; [rewrite at_same|rewrite at_other by exact Ne; reflexivity].
    exact (U_idle _ _ _ _ (view i s) Eq).
  - right. unfold view, m_call. cbn [m_house m_ears m_by m_evs]. rewrite view_by_app. destruct (Nat.eq_dec j i) as [->|Ne].
    + exists Act. rewrite at_same. cbn [hear e_wire e_acts e_todo view_by map fst snd mine]. rewrite Nat.eqb_refl. exact (U_serve _ _ _ _ (view i s) n c cs h' obs res evs Ei Do).
    + exists (Pressed c). rewrite at_other by exact Ne. cbn [hear e_wire e_acts e_todo view_by map fst snd mine]. pose proof Ne as Nb. apply Nat.eqb_neq in Nb. rewrite Nb.
      exact (U_press _ _ _ _ (view i s) c h' obs res evs Do).
Qed.

Lemma view_runs gw apps N h ls s i : mruns gw apps N (still_house h) ls s ->
  exists ls', uruns gw (a_ver (apps i)) (a_reg (apps i)) (a_body (apps i)) (calm_house h) ls' (view i s).
Proof.
  induction 1 as [|ls l s1 s2 R (ls' & IH) S]; [exists []; apply UR_nil|]. destruct (view_step _ _ _ _ _ _ i S) as [->|(l' & S')]; [exists ls'; exact IH|].
  exists (ls' ++ [l']). eapply UR_snoc; eassumption.
Qed.

Lemma view_calls i n l : calls_of n (view_by i l) = app_calls i n l.
Proof.
  unfold calls_of, app_calls, view_by. rewrite map_map. f_equal. apply map_ext. intros ([(j & k)|] & c); cbn; [|reflexivity]. destruct (Nat.eqb j i); reflexivity.
Qed.

Lemma no_app_app a b : no_app (a ++ b) = no_app a ++ no_app b.
Proof. unfold no_app. rewrite map_app. apply concat_app. Qed.

Lemma m_others gw apps N h ls s : mruns gw apps N (still_house h) ls s ->
  no_app (m_by s) = pressed ls /\ Forall (fun x => match fst x with Some (i, _) => i < N | None => True end) (m_by s).
Proof.
  induction 1 as [|ls l s1 s2 R (IH & IF) S]; [split; [reflexivity|constructor]|]. rewrite pressed_app.
  destruct S; cbn [m_call m_told m_by]; rewrite ?no_app_app, ?IH; (split; [cbn; rewrite ?app_nil_r; reflexivity|]); try exact IF; apply Forall_app; (split; [exact IF|]); repeat constructor; assumption.
Qed.

Theorem apps_each gw apps N h ls s : gateway_ok gw -> house_ok h -> (forall i, i < N -> (a_ver (apps i) < 13)%N) -> mruns gw apps N (still_house h) ls s -> 0 < N ->
  exists log, story gw h (map snd (m_by s)) log (m_evs s) (m_house s) /\ no_app (m_by s) = pressed ls /\
  forall i, i < N -> exists pre post tss, let st := hears_of apps s i in
    m_evs s = pre ++ post /\ st_started st = concat tss /\ Forall2 (noticed (st_items st) (a_reg (apps i))) pre tss /\
    (forall n, length (st_started st) <= n -> app_calls i n (m_by s) = []) /\
    (forall n t, nth_error (st_started st) n = Some t -> exists rest, answer (a_body (apps i)) (st_items st) t = app_calls i n (m_by s) ++ rest /\ (all_still apps N s -> rest = [])) /\
    (all_still apps N s -> post = []).
Proof.
  intros G H Hv R Pos. destruct (view_runs gw apps N h ls s 0 R) as (ls0 & R0).
  destruct (each _ _ _ _ _ _ _ G H (Hv 0 Pos) R0) as (log & _ & _ & _ & S & _). cbv zeta in S. cbn [view u_by u_evs u_house] in S. rewrite view_snd in S.
  exists log. split; [exact S|]. split; [apply (m_others _ _ _ _ _ _ R)|]. intros i Li.
  destruct (view_runs gw apps N h ls s i R) as (ls1 & R1).
  destruct (each _ _ _ _ _ _ _ G H (Hv i Li) R1) as (log1 & pre & post & tss & _ & _ & E & Es & F & Z1 & Z2 & Z3). cbv zeta in *.
  exists pre, post, tss. cbv zeta. unfold hears_of. cbn [view u_by u_evs u_house u_acts] in *.
  split; [exact E|]. split; [exact Es|]. split; [exact F|]. split; [intros n L; rewrite <- view_calls; apply Z1, L|].
  assert (K : all_still apps N s -> all_done (a_ver (apps i)) (a_reg (apps i)) (view i s)) by (intros A; exact (A i Li)).
  split; [|intros A; apply Z3, K, A]. intros n t Et. destruct (Z2 n t Et) as (rest & A & B). exists rest. rewrite <- view_calls. split; [exact A|]. intros X. apply B, K, X.
Qed.

Theorem apps_picture gw apps N h ls s i : gateway_ok gw -> house_ok h -> distinct h -> i < N -> (a_ver (apps i) < 13)%N -> mruns gw apps N (still_house h) ls s ->
  past_picture gw (hears_of apps s i) (a_reg (apps i)) h (map snd (m_by s)) /\ (all_still apps N s -> right_picture (hears_of apps s i) (a_reg (apps i)) h (m_house s)).
Proof.
  intros G H D Li Hv R. destruct (view_runs gw apps N h ls s i R) as (ls1 & R1). destruct (unlocked_picture _ _ _ _ _ _ _ G H D Hv R1) as (A & B).
  cbn [view u_by u_evs u_house u_acts] in *. rewrite view_snd in A. split; [exact A|]. intros X. apply B. exact (X i Li).
Qed.

(** ** Bounds *)

Definition total (g : nat -> nat) (N : nat) : nat := list_sum (map g (seq 0 N)).
Lemma total_S g N : total g (S N) = total g N + g N.
Proof. unfold total. rewrite seq_S, map_app, list_sum_app. cbn. lia. Qed.
Lemma total_le g g' N : (forall i, i < N -> g i <= g' i) -> total g N <= total g' N.
Proof. induction N as [|N IH]; intros H; [cbn; lia|]. rewrite !total_S. specialize (IH (fun i L => H i (Nat.lt_lt_succ_r _ _ L))). pose proof (H N (Nat.lt_succ_diag_r N)). lia. Qed.
Lemma total_add g g' N : total (fun i => g i + g' i) N = total g N + total g' N.
Proof. induction N as [|N IH]; [reflexivity|]. rewrite !total_S, IH. lia. Qed.
Lemma total_one k x N : k < N -> total (fun i => if Nat.eqb k i then x else 0) N = x.
Proof.
  induction N as [|N IH]; intros K; [lia|]. rewrite total_S. destruct (Nat.eq_dec k N) as [->|Ne].
  - rewrite Nat.eqb_refl. assert (Z : total (fun i => if Nat.eqb N i then x else 0) N = 0).
    { assert (A : forall M, M <= N -> total (fun i => if Nat.eqb N i then x else 0) M = 0).
      { induction M as [|M IHM]; intros L; [reflexivity|]. rewrite total_S, IHM by lia. destruct (Nat.eqb N M) eqn:E; [apply Nat.eqb_eq in E; lia|reflexivity]. }
      apply A. lia. }
    lia.
  - rewrite IH by lia. apply Nat.eqb_neq in Ne. rewrite Ne. lia.
Qed.
Lemma total_0 N : total (fun _ => 0) N = 0.
Proof. induction N as [|N IH]; [reflexivity|]. rewrite total_S, IH. reflexivity. Qed.
Lemma total_ext g g' N : (forall i, i < N -> g i = g' i) -> total g N = total g' N.
Proof. intros H. apply Nat.le_antisymm; apply total_le; intros i L; rewrite H by exact L; lia. Qed.

Lemma sum_apps (f : SpecHouse.call -> nat) N l : Forall (fun x : option (nat * nat) * SpecHouse.call => match fst x with Some (i, _) => i < N | None => True end) l ->
  sum f (map snd l) = sum f (no_app l) + total (fun i => sum f (of_callbacks (view_by i l))) N.
Proof.
  induction 1 as [|(o & c) l L F IH]; [cbn; rewrite total_0; reflexivity|]. cbn [map snd].
  change (sum f (c :: map snd l)) with (f c + sum f (map snd l)). rewrite IH. destruct o as [(j & n)|]; cbn [fst] in L.
  - change (no_app ((Some (j, n), c) :: l)) with (no_app l).
    rewrite (total_ext (fun i => sum f (of_callbacks (view_by i ((Some (j, n), c) :: l)))) (fun i => (if Nat.eqb j i then f c else 0) + sum f (of_callbacks (view_by i l)))).
    + rewrite total_add, total_one by exact L. lia.
    + intros i _. unfold view_by. cbn [map mine fst snd]. destruct (Nat.eqb j i); reflexivity.
  - change (no_app ((None, c) :: l)) with (c :: no_app l). change (sum f (c :: no_app l)) with (f c + sum f (no_app l)).
    change (total (fun i => sum f (of_callbacks (view_by i ((None, c) :: l)))) N) with (total (fun i => sum f (of_callbacks (view_by i l))) N). lia.
Qed.

Lemma u_answers_weight gw v r body h ls u wt wc ps : gateway_ok gw -> house_ok h -> (v < 13)%N -> uruns gw v r body (calm_house h) ls u ->
  weighs_events r body wt wc -> u_evs u = map frame_state ps -> Forall point_ok ps -> sum wc (of_callbacks (u_by u)) <= sum (fun p => wt (place p)) ps.
Proof.
  intros G H Hv R C2 Ep Fp. pose proof (u_sound _ _ _ _ _ _ _ G H Hv R) as (_ & _ & _ & _ & A).
  destruct (each _ _ _ _ _ _ _ G H Hv R) as (log & pre & post & tss & S & O & E & Es & F & Z & _ & _). cbv zeta in *.
  rewrite E in Ep. symmetry in Ep. apply map_eq_app in Ep as (p1 & p2 & -> & E1 & E2). subst pre. apply Forall_app in Fp as (F1 & F2).
  pose proof (noticed_weight r _ wt wc body C2 _ _ F1 F) as W. rewrite <- Es in W.
  assert (X : sum wc (of_callbacks (u_by u)) <= sum wc (concat (map (answer body (st_items (listener v r (u_acts u)))) (st_started (listener v r (u_acts u)))))).
  { rewrite (sum_calls wc _ _ Z), <- answers_all. generalize (seq 0 (length (st_started (listener v r (u_acts u))))). intros s.
    induction s as [|k s IH]; [cbn; lia|]. cbn [map concat]. rewrite sum_app. specialize (A k). rewrite <- A, sum_app.
    change (list_sum (?a :: ?b)) with (a + list_sum b). cbn [list_sum fold_right] in *. unfold list_sum in *. lia. }
  rewrite sum_app. lia.
Qed.

Lemma total_sum {A} (g : nat -> A -> nat) N l : total (fun i => sum (g i) l) N = sum (fun x => total (fun i => g i x) N) l.
Proof.
  induction l as [|x l IH]; [unfold sum; cbn; apply total_0|].
  rewrite (total_ext _ (fun i => g i x + sum (g i) l)) by (intros; reflexivity). rewrite total_add, IH. reflexivity.
Qed.

Theorem apps_bounded gw apps N h ls s wt wts wc : gateway_ok gw -> house_ok h -> 0 < N -> (forall i, i < N -> (a_ver (apps i) < 13)%N) -> mruns gw apps N (still_house h) ls s ->
  weighs_calls gw h wt wc -> (forall i, i < N -> weighs_events (a_reg (apps i)) (a_body (apps i)) (wts i) wc) -> (forall k, total (fun i => wts i k) N <= wt k) ->
  length (m_by s) <= sum wc (pressed ls).
Proof.
  intros G H Pos Hv R C1 C2 T. destruct (apps_each gw apps N h ls s G H Hv R Pos) as (log & S & O & _). destruct (m_others _ _ _ _ _ _ R) as (_ & Fi).
  destruct (story_events _ _ _ _ _ _ S G H) as (ps & Sp & Ep). assert (Fp : Forall point_ok ps) by (eapply Forall_impl; [|exact Sp]; intros p (X & _); exact X).
  pose proof (story_weight gw wt wc h G C1 _ _ _ _ _ S H eq_refl _ Ep Fp) as B. rewrite map_length, (sum_apps wc N _ Fi), O in B.
  assert (X : total (fun i => sum wc (of_callbacks (view_by i (m_by s)))) N <= total (fun i => sum (fun p => wts i (place p)) ps) N).
  { apply total_le. intros i Li. destruct (view_runs gw apps N h ls s i R) as (ls1 & R1). exact (u_answers_weight _ _ _ _ _ _ _ (wts i) wc ps G H (Hv i Li) R1 (C2 i Li) Ep Fp). }
  rewrite total_sum in X. assert (Y : sum (fun x => total (fun i => wts i (place x)) N) ps <= sum (fun p => wt (place p)) ps).
  { clear - T. induction ps as [|p ps IH]; [cbn; lia|]. unfold sum in *. cbn [map]. change (list_sum (?a :: ?b)) with (a + list_sum b). specialize (T (place p)). 
    match goal with |- ?a + ?b <= ?c + ?d => assert (a <= c) by exact T end. lia. }
  lia.
Qed.
