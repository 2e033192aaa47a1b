(** * Several applications in one house: rest *)
From Coq Require Import String List NArith ZArith Bool Lia PeanoNat.
From Verif Require Import PyStr Tags Messages SpecMsg SpecTag SpecProto MessageThms3 Protocol IO Client SpecItem Items Lighting SpecLight ItemThms LightThms2
  SpecHouse HouseThms HouseThms2 Dispatch SpecDispatch DispatchThms DispatchThms2 DispatchThms3 SpecNotice NoticeThms SpecMirror MirrorThms
  Reflex SpecReflex ReflexThms ReflexThms2 ReflexThms3 Unlocked SpecUnlocked UnlockedThms SpecPicture PictureThms Apps SpecApps AppsThms.
Import ListNotations.
Open Scope nat_scope.
Open Scope list_scope.

Lemma ustep_mstep gw apps N s i u' : i < N -> ustep gw (a_ver (apps i)) (a_reg (apps i)) (a_body (apps i)) (view i s) Act u' -> exists s', mstep gw apps N s Act s'.
Proof.
  intros Li St. inversion St; subst; cbn [view u_wire u_acts u_todo u_house] in *; eexists;
    [eapply (M_packet _ _ _ _ i); eassumption|eapply (M_wake _ _ _ _ i); eassumption|eapply (M_serve _ _ _ _ i); eassumption].
Qed.

Lemma apps_progress gw apps N h ls s : gateway_ok gw -> house_ok h -> (forall i, i < N -> (a_ver (apps i) < 13)%N) -> mruns gw apps N (still_house h) ls s ->
  (forall i f k args, i < N -> Forall call_ok (a_body (apps i) f k args)) -> all_still apps N s \/ exists s', mstep gw apps N s Act s'.
Proof.
  intros G H Hv R Ok.
  assert (X : forall M, M <= N -> (forall i, i < M -> all_done (a_ver (apps i)) (a_reg (apps i)) (view i s)) \/ exists s', mstep gw apps N s Act s').
  { induction M as [|M IH]; intros L; [left; intros i Z; lia|]. destruct (IH ltac:(lia)) as [A|A]; [|right; exact A].
    destruct (view_runs gw apps N h ls s M R) as (ls1 & R1).
    destruct (u_progress gw _ _ _ h ls1 (view M s) G H (Hv M ltac:(lia)) R1 (fun f k args => Ok M f k args ltac:(lia))) as [B|(u' & B)].
    - left. intros i Li. destruct (Nat.eq_dec i M) as [->|Ne]; [exact B|apply A; lia].
    - right. exact (ustep_mstep gw apps N s M u' ltac:(lia) B). }
  destruct (X N (le_n N)) as [A|A]; [left; exact A|right; exact A].
Qed.

Lemma total_less g g' N k : k < N -> g k < g' k -> (forall i, i <> k -> g i = g' i) -> total g N < total g' N.
Proof.
  intros K L E. induction N as [|N IH]; [lia|]. rewrite !total_S. destruct (Nat.eq_dec k N) as [->|Ne].
  - assert (total g N = total g' N) by (apply total_ext; intros i Li; apply E; lia). lia.
  - specialize (IH ltac:(lia)). rewrite (E N) by lia. lia.
Qed.

Theorem apps_rest gw apps N h wt wts wc : gateway_ok gw -> house_ok h -> 0 < N -> (forall i, i < N -> (a_ver (apps i) < 13)%N) ->
  weighs_calls gw h wt wc -> (forall i, i < N -> weighs_events (a_reg (apps i)) (a_body (apps i)) (wts i) wc) -> (forall k, total (fun i => wts i k) N <= wt k) ->
  (forall i f k args, i < N -> Forall call_ok (a_body (apps i) f k args)) ->
  forall ls s, mruns gw apps N (still_house h) ls s -> msurely gw apps N (fun s' => all_still apps N s') s.
Proof.
  intros G H Pos Hv C1 C2 T Ok.
  assert (M : forall p a b ls s, mruns gw apps N (still_house h) ls s -> sum wc (pressed ls) - length (m_by s) = p -> total (fun i => length (e_wire (m_ears s i))) N = a ->
    total (fun i => length (st_queue (hears_of apps s i))) N = b -> msurely gw apps N (fun s' => all_still apps N s') s).
  { induction p as [p IHp] using (well_founded_induction Nat.lt_wf_0).
    induction a as [a IHa] using (well_founded_induction Nat.lt_wf_0).
    induction b as [b IHb] using (well_founded_induction Nat.lt_wf_0).
    intros ls s R Ep Ea Eb. destruct (apps_progress gw apps N h ls s G H Hv R Ok) as [X|X]; [apply MNow, X|]. apply MLater; [exact X|]. intros s' St.
    pose proof (MR_snoc _ _ _ _ _ _ _ _ R St) as R'.
    assert (P' : sum wc (pressed (ls ++ [Act])) = sum wc (pressed ls)) by (rewrite pressed_app; cbn; rewrite app_nil_r; reflexivity).
    inversion St as [|i f fs rest Li Ew| |i m q Li Eq| |i n x cs h' obs res evs Li Ei Do]; subst.
    - eapply (IHa _); [|exact R'|rewrite P'; reflexivity|reflexivity|reflexivity]. apply (total_less _ _ N i Li); cbn [m_told m_ears].
      + rewrite at_same, Ew, app_length. cbn. lia.
      + intros j Ne. rewrite at_other by (intros ->; apply Ne; reflexivity). reflexivity.
    - assert (Same : total (fun j => length (e_wire (m_ears s j))) N = total (fun j => length (e_wire (m_ears (m_told s i (e_wire (m_ears s i)) (e_acts (m_ears s i) ++ [Wake])
        (e_todo (m_ears s i) ++ made_todo (a_ver (apps i)) (a_reg (apps i)) (a_body (apps i)) (e_acts (m_ears s i)))) j))) N).
      { apply total_ext. intros j _. cbn [m_told m_ears]. unfold at_ear. destruct (Nat.eqb i j) eqn:E; [apply Nat.eqb_eq in E; subst j|]; reflexivity. }
      eapply (IHb _); [|exact R'|rewrite P'; reflexivity|symmetry; exact Same|reflexivity]. apply (total_less _ _ N i Li); unfold hears_of; cbn [m_told m_ears].
      + rewrite at_same. cbn [e_acts]. destruct (view_runs gw apps N h ls s i R) as (ls1 & R1).
        pose proof (u_woken _ _ _ _ _ _ _ G H (Hv i Li) (u_sound _ _ _ _ _ _ _ G H (Hv i Li) R1)) as Z. cbn [view u_acts] in Z. rewrite Z, Eq. cbn. lia.
      + intros j Ne. rewrite at_other by (intros ->; apply Ne; reflexivity). reflexivity.
    - pose proof (apps_bounded gw apps N h _ _ wt wts wc G H Pos Hv R' C1 C2 T) as B. rewrite P' in B. cbn [m_call m_by] in B. rewrite app_length in B. cbn [length] in B.
      eapply (IHp _); [|exact R'|reflexivity|reflexivity|reflexivity]. rewrite P'. cbn [m_call m_by]. rewrite app_length. cbn [length]. lia. }
  intros ls s R. eapply M; [exact R|reflexivity|reflexivity|reflexivity].
Qed.

Lemma mruns_cons gw apps N s l s1 ls s2 : mstep gw apps N s l s1 -> mruns gw apps N s1 ls s2 -> mruns gw apps N s (l :: ls) s2.
Proof.
  intros S R. induction R as [|ls l' a b R IH S']; [exact (MR_snoc _ _ _ _ [] _ _ _ (MR_nil _ _ _ _) S)|].
  exact (MR_snoc _ _ _ _ (l :: ls) _ _ _ IH S').
Qed.
