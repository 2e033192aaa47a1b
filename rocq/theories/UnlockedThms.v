(** * Callbacks that send commands without a lock: proofs *)
From Coq Require Import String List NArith ZArith Bool Lia PeanoNat Sorted.
From Verif Require Import PyStr Tags Messages SpecMsg SpecTag SpecProto MessageThms3 Protocol IO Client SpecItem Items Lighting SpecLight ItemThms LightThms2
  SpecHouse HouseThms HouseThms2 Dispatch SpecDispatch DispatchThms DispatchThms2 DispatchThms3 SpecNotice NoticeThms SpecMirror MirrorThms
  Reflex SpecReflex ReflexThms ReflexThms2 ReflexThms3 Unlocked SpecUnlocked.
Import ListNotations.
Open Scope nat_scope.
Open Scope list_scope.

Lemma calls_of_app n a b : calls_of n (a ++ b) = calls_of n a ++ calls_of n b.
Proof. unfold calls_of. rewrite map_app. apply concat_app. Qed.
Lemma put_length n cs l : length (put_at n cs l) = length l.
Proof. revert n. induction l as [|x l IH]; intros [|n]; cbn; [reflexivity..|rewrite IH; reflexivity]. Qed.
Lemma put_nth n cs l k : n < length l -> nth k (put_at n cs l) [] = if Nat.eqb n k then cs else nth k l [].
Proof. revert n k. induction l as [|x l IH]; intros [|n] [|k] L; cbn in *; try lia; try reflexivity. apply IH. lia. Qed.

Definition sound_u (gw : gateway) (v : N) (r : registry) (body : reflex) (h : house) (ls : list label) (u : uworld) : Prop :=
  (exists log, story gw h (map snd (u_by u)) log (u_evs u) (u_house u)) /\
  (exists fs, u_evs u = fs ++ u_wire u /\ delivers (u_acts u) fs) /\
  of_others (u_by u) = pressed ls /\
  length (u_todo u) = length (st_started (listener v r (u_acts u))) /\
  forall n, calls_of n (u_by u) ++ nth n (u_todo u) [] = answers_of v r body (u_acts u) n.

Lemma u_listening gw v r body h ls u : gateway_ok gw -> house_ok h -> (v < 13)%N -> sound_u gw v r body h ls u ->
  exists ps1 ps2 ps3 tss, let st := listener v r (u_acts u) in
    u_evs u = map frame_state (ps1 ++ ps2) ++ u_wire u /\ u_wire u = map frame_state ps3 /\ Forall spoken (ps1 ++ ps2 ++ ps3) /\
    st_started st = concat tss /\ st_queue st = map state_msg ps2 /\ Forall2 (noticed (st_items st) r) (map frame_state ps1) tss.
Proof.
  intros G H Hv ((log & S) & (fs & E & D) & _). destruct (story_events _ _ _ _ _ _ S G H) as (ps & F & Ep).
  rewrite E in Ep. symmetry in Ep. apply map_eq_app in Ep as (pa & pb & -> & E1 & E2). subst fs.
  apply Forall_app in F as (Fa & Fb). destruct (listening v r _ pa Hv Fa D) as (ps1 & ps2 & tss & -> & A & B & C).
  exists ps1, ps2, pb, tss. cbv zeta. split; [exact E|]. split; [symmetry; exact E2|].
  split; [apply Forall_app in Fa as (F1 & F2); apply Forall_app; split; [exact F1|apply Forall_app; split; assumption]|]. auto.
Qed.

Lemma u_woken gw v r body h ls u : gateway_ok gw -> house_ok h -> (v < 13)%N -> sound_u gw v r body h ls u ->
  st_queue (listener v r (u_acts u ++ [Wake])) = [].
Proof.
  intros G H Hv ((log & S) & (fs & E & D) & _). destruct (story_events _ _ _ _ _ _ S G H) as (ps & F & Ep).
  rewrite E in Ep. symmetry in Ep. apply map_eq_app in Ep as (pa & pb & -> & <- & _). apply Forall_app in F as (Fa & _).
  destruct (events_noticed v r _ pa Hv Fa D) as (its & tss & _ & _ & _ & _ & X & _). exact X.
Qed.

Lemma answers_out v r body acts n : length (st_started (listener v r acts)) <= n -> answers_of v r body acts n = [].
Proof. intros L. unfold answers_of. apply nth_error_None in L. rewrite L. reflexivity. Qed.

(** What the listener does next leaves the tasks as they are and adds new ones. *)
Lemma u_act gw v r body h ls u a : gateway_ok gw -> house_ok h -> (v < 13)%N -> sound_u gw v r body h ls u ->
  let n := length (st_started (listener v r (u_acts u))) in
  let todo := u_todo u ++ map (answers_of v r body (u_acts u ++ [a])) (seq n (length (st_started (listener v r (u_acts u ++ [a]))) - n)) in
  length todo = length (st_started (listener v r (u_acts u ++ [a]))) /\
  forall k, calls_of k (u_by u) ++ nth k todo [] = answers_of v r body (u_acts u ++ [a]) k.
Proof.
  intros G H Hv S. destruct (u_listening _ _ _ _ _ _ _ G H Hv S) as (p1 & p2 & p3 & tss & _ & _ & _ & Es & _ & F). cbv zeta in *.
  assert (B : forall t i args f, In t (st_started (listener v r (u_acts u))) -> t = (f, VItem i :: args) -> i < length (st_items (listener v r (u_acts u)))).
  { rewrite Es. exact (noticed_bound _ _ _ _ F). }
  destruct S as (_ & _ & _ & L & A). destruct (listener_more v r (u_acts u) a) as (_ & (y & Ey)).
  assert (Le : length (st_started (listener v r (u_acts u))) <= length (st_started (listener v r (u_acts u ++ [a])))) by (rewrite Ey, app_length; lia).
  split; [rewrite app_length, map_length, seq_length, L; lia|]. intros k.
  destruct (Nat.lt_ge_cases k (length (u_todo u))) as [K|K].
  - rewrite app_nth1 by exact K. rewrite answers_stay; [apply A|exact B|lia].
  - assert (C : calls_of k (u_by u) = []). { specialize (A k). rewrite answers_out in A by lia. apply app_eq_nil in A as (A & _). exact A. }
    rewrite C, app_nth2 by exact K. cbn [app]. rewrite L in K |- *. destruct (Nat.lt_ge_cases k (length (st_started (listener v r (u_acts u ++ [a]))))) as [M|M].
    + rewrite nth_indep with (d' := answers_of v r body (u_acts u ++ [a]) 0) by (rewrite map_length, seq_length; lia).
      rewrite map_nth. rewrite seq_nth by lia. f_equal. lia.
    + rewrite nth_overflow by (rewrite map_length, seq_length; lia). symmetry. apply answers_out, M.
Qed.

Lemma u_step gw v r body h ls u l u' : gateway_ok gw -> house_ok h -> (v < 13)%N -> sound_u gw v r body h ls u ->
  ustep gw v r body u l u' -> sound_u gw v r body h (ls ++ [l]) u'.
Proof.
  intros G H Hv Su St. pose proof (fun a => u_act gw v r body h ls u a G H Hv Su) as Ua. cbv zeta in Ua.
  destruct Su as ((log & S) & (fs & E & D) & O & L & A).
  assert (P0 : forall x, match x with Pressed _ => False | _ => True end -> pressed (ls ++ [x]) = pressed ls).
  { intros x. rewrite pressed_app. destruct x; [intros []| |]; cbn; rewrite app_nil_r; reflexivity. }
  destruct St as [c h' obs res evs Do|f fs' rest Ew|k whr T|m q Eq|Eq|n c cs h' obs res evs Ei Do].
  - split; [|split; [|split; [|split]]].
    + eexists. cbn [u_call u_by u_evs u_house]. rewrite map_app. eapply story_snoc; eassumption.
    + exists fs. cbn [u_call u_evs u_wire u_acts]. rewrite E, app_assoc. auto.
    + cbn [u_call u_by]. rewrite others_app, pressed_app, O. reflexivity.
    + exact L.
    + intros n. cbn [u_call u_by u_todo u_acts]. rewrite calls_of_app. cbn. rewrite app_nil_r. apply A.
  - split; [eexists; exact S|]. split; [|split; [rewrite P0 by exact I; exact O|]].
    + exists (fs ++ (f :: fs')). cbn [u_told u_evs u_wire u_acts]. rewrite E, Ew, app_assoc. split; [reflexivity|apply Dl_packet, D].
    + specialize (Ua (Packet (concat (f :: fs')))). pose proof (made_packet v r (u_acts u) (concat (f :: fs'))) as M. unfold made_now in M. apply map_eq_nil in M. rewrite M in Ua. cbn [map] in Ua. rewrite app_nil_r in Ua. exact Ua.
  - split; [eexists; exact S|]. split; [|split; [rewrite P0 by exact I; exact O|]].
    + exists fs. cbn [u_told u_evs u_wire u_acts]. split; [exact E|apply Dl_lookup; assumption].
    + specialize (Ua (Lookup k whr)). pose proof (made_lookup v r (u_acts u) k whr) as M. unfold made_now in M. apply map_eq_nil in M. rewrite M in Ua. cbn [map] in Ua. rewrite app_nil_r in Ua. exact Ua.
  - split; [eexists; exact S|]. split; [|split; [rewrite P0 by exact I; exact O|]].
    + exists fs. cbn [u_told u_evs u_wire u_acts]. split; [exact E|apply Dl_wake; assumption].
    + exact (Ua Wake).
  - split; [eexists; exact S|]. split; [|split; [rewrite P0 by exact I; exact O|]].
    + exists fs. cbn [u_told u_evs u_wire u_acts]. split; [exact E|apply Dl_wake; assumption].
    + exact (Ua Wake).
  - split; [|split; [|split; [|split]]].
    + eexists. cbn [u_call u_by u_evs u_house]. rewrite map_app. eapply story_snoc; eassumption.
    + exists fs. cbn [u_call u_evs u_wire u_acts]. rewrite E, app_assoc. auto.
    + cbn [u_call u_by]. rewrite others_app, O, P0 by exact I. cbn. apply app_nil_r.
    + cbn [u_call u_todo u_acts]. rewrite put_length. exact L.
    + intros k. cbn [u_call u_by u_todo u_acts]. rewrite calls_of_app, put_nth by (apply nth_error_Some; congruence). cbn.
      destruct (Nat.eqb n k) eqn:Ek; [|rewrite !app_nil_r; apply A]. apply Nat.eqb_eq in Ek. subst k. rewrite app_nil_r, <- app_assoc.
      specialize (A n). rewrite (nth_error_nth _ _ [] Ei) in A. exact A.
Qed.

Theorem u_sound gw v r body h ls u : gateway_ok gw -> house_ok h -> (v < 13)%N -> uruns gw v r body (calm_house h) ls u -> sound_u gw v r body h ls u.
Proof.
  intros G H Hv. induction 1 as [|ls l u1 u2 R IH S]; [|eapply u_step; eassumption].
  split; [exists []; constructor|]. split; [exists []; split; [reflexivity|constructor]|]. split; [reflexivity|]. split; [reflexivity|].
  intros n. cbn. destruct n; reflexivity.
Qed.

Theorem each gw v r body h ls u : gateway_ok gw -> house_ok h -> (v < 13)%N -> uruns gw v r body (calm_house h) ls u ->
  exists log pre post tss, let st := listener v r (u_acts u) in
    story gw h (map snd (u_by u)) log (u_evs u) (u_house u) /\ of_others (u_by u) = pressed ls /\
    u_evs u = pre ++ post /\ st_started st = concat tss /\ Forall2 (noticed (st_items st) r) pre tss /\
    (forall n, length (st_started st) <= n -> calls_of n (u_by u) = []) /\
    (forall n t, nth_error (st_started st) n = Some t -> exists rest, answer body (st_items st) t = calls_of n (u_by u) ++ rest /\ (all_done v r u -> rest = [])) /\
    (all_done v r u -> post = []).
Proof.
  intros G H Hv R. pose proof (u_sound _ _ _ _ _ _ _ G H Hv R) as S.
  destruct (u_listening _ _ _ _ _ _ _ G H Hv S) as (p1 & p2 & p3 & tss & E & Ew & _ & Es & Eq & F). cbv zeta in *.
  destruct S as ((log & S) & _ & O & L & A).
  exists log, (map frame_state p1), (map frame_state p2 ++ u_wire u), tss. cbv zeta.
  split; [exact S|]. split; [exact O|]. split; [rewrite E, map_app, <- app_assoc; reflexivity|]. split; [exact Es|]. split; [exact F|].
  split; [intros n Ln; specialize (A n); rewrite answers_out in A by exact Ln; apply app_eq_nil in A as (A & _); exact A|].
  split.
  - intros n t Et. specialize (A n). unfold answers_of in A. rewrite Et in A. exists (nth n (u_todo u) []). split; [symmetry; exact A|].
    intros (_ & _ & D). rewrite Forall_forall in D. destruct (nth_in_or_default n (u_todo u) []) as [I| ->]; [apply D, I|reflexivity].
  - intros (A1 & A2 & _). rewrite A1. rewrite A2 in Eq. destruct p2; [reflexivity|discriminate].
Qed.

(** ** Bounds *)

Lemma sum_at (k x n : nat) (g : nat -> nat) : k < n -> list_sum (map (fun m => (if Nat.eqb k m then x else 0) + g m) (seq 0 n)) = x + list_sum (map g (seq 0 n)).
Proof.
  intros K. revert K. induction n as [|n IH]; intros K; [lia|]. rewrite seq_S, !map_app, !list_sum_app. cbn [map list_sum fold_right plus].
  destruct (Nat.eq_dec k n) as [->|Ne].
  - rewrite Nat.eqb_refl. assert (X : map (fun m => (if Nat.eqb n m then x else 0) + g m) (seq 0 n) = map g (seq 0 n)).
    { apply map_ext_in. intros m I. apply in_seq in I. destruct (Nat.eqb n m) eqn:Em; [apply Nat.eqb_eq in Em; lia|reflexivity]. }
    rewrite X. lia.
  - rewrite IH by lia. destruct (Nat.eqb k n) eqn:Em; [apply Nat.eqb_eq in Em; lia|]. lia.
Qed.

Lemma sum_calls (f : SpecHouse.call -> nat) n l : (forall k, n <= k -> calls_of k l = []) ->
  sum f (of_callbacks l) = list_sum (map (fun m => sum f (calls_of m l)) (seq 0 n)).
Proof.
  induction l as [|(o & c) l IH]; intros Z.
  - cbn. induction (seq 0 n) as [|x s IHs]; [reflexivity|exact IHs].
  - assert (Zl : forall k, n <= k -> calls_of k l = []).
    { intros k K. specialize (Z k K). change ((o, c) :: l) with ([(o, c)] ++ l) in Z. rewrite calls_of_app in Z. apply app_eq_nil in Z as (_ & Z). exact Z. }
    specialize (IH Zl). change ((o, c) :: l) with ([(o, c)] ++ l). rewrite callbacks_app, sum_app, IH. destruct o as [k|].
    + assert (K : k < n). { destruct (Nat.lt_ge_cases k n) as [K|K]; [exact K|]. specialize (Z k K). unfold calls_of in Z. cbn in Z. rewrite Nat.eqb_refl in Z. discriminate. }
      rewrite (map_ext (fun m => sum f (calls_of m ([(Some k, c)] ++ l))) (fun m => (if Nat.eqb k m then f c else 0) + sum f (calls_of m l))).
      * rewrite (sum_at k (f c) n _ K). unfold of_callbacks. cbn. unfold sum. cbn. lia.
      * intros m. rewrite calls_of_app, sum_app. f_equal. unfold calls_of. cbn. destruct (Nat.eqb k m); unfold sum; cbn; lia.
    + cbn. f_equal.
Qed.

Theorem u_bounded gw v r body h ls u wt wc : gateway_ok gw -> house_ok h -> (v < 13)%N -> uruns gw v r body (calm_house h) ls u ->
  weighs_calls gw h wt wc -> weighs_events r body wt wc -> length (u_by u) <= sum wc (pressed ls).
Proof.
  intros G H Hv R C1 C2. pose proof (u_sound _ _ _ _ _ _ _ G H Hv R) as (_ & _ & _ & _ & A).
  destruct (each _ _ _ _ _ _ _ G H Hv R) as (log & pre & post & tss & S & O & E & Es & F & Z & _ & _). cbv zeta in *.
  destruct (story_events _ _ _ _ _ _ S G H) as (ps & Sp & Ep). assert (Fp : Forall point_ok ps) by (eapply Forall_impl; [|exact Sp]; intros p (X & _); exact X).
  pose proof (story_weight gw wt wc h G C1 _ _ _ _ _ S H eq_refl _ Ep Fp) as B. rewrite map_length, sum_by, O in B.
  rewrite E in Ep. symmetry in Ep. apply map_eq_app in Ep as (p1 & p2 & -> & E1 & E2). subst pre. apply Forall_app in Fp as (F1 & F2).
  pose proof (noticed_weight r _ wt wc body C2 _ _ F1 F) as W. rewrite <- Es in W.
  assert (X : sum wc (of_callbacks (u_by u)) <= sum wc (concat (map (answer body (st_items (listener v r (u_acts u)))) (st_started (listener v r (u_acts u)))))).
  { rewrite (sum_calls wc _ _ Z), <- answers_all. generalize (seq 0 (length (st_started (listener v r (u_acts u))))). intros s.
    induction s as [|k s IH]; [cbn; lia|]. cbn [map concat]. rewrite sum_app. specialize (A k). rewrite <- A, sum_app.
    change (list_sum (?a :: ?b)) with (a + list_sum b). cbn [list_sum fold_right] in *. unfold list_sum in *. lia. }
  rewrite sum_app in B. lia.
Qed.

(** ** Rest *)

Theorem u_progress gw v r body h ls u : gateway_ok gw -> house_ok h -> (v < 13)%N -> uruns gw v r body (calm_house h) ls u ->
  (forall f k args, Forall call_ok (body f k args)) -> all_done v r u \/ exists u', ustep gw v r body u Act u'.
Proof.
  intros G H Hv R Ok. pose proof (u_sound _ _ _ _ _ _ _ G H Hv R) as ((log & S) & _ & _ & L & A).
  destruct (u_wire u) as [|f fs] eqn:Ewi; [|right; eexists; eapply (U_packet _ _ _ _ _ f fs []); rewrite app_nil_r; exact Ewi].
  destruct (st_queue (listener v r (u_acts u))) as [|m q] eqn:Eq; [|right; eexists; eapply U_wake, Eq].
  assert (D : Forall (fun cs => cs = []) (u_todo u) \/ exists n c cs, nth_error (u_todo u) n = Some (c :: cs)).
  { generalize (u_todo u). intros l. induction l as [|x l IH]; [left; apply Forall_nil|]. destruct x as [|c cs]; [|right; exists 0, c, cs; reflexivity].
    destruct IH as [IH|(n & c & cs & IH)]; [left; apply Forall_cons; [reflexivity|exact IH]|right; exists (Datatypes.S n), c, cs; exact IH]. }
  destruct D as [D|(n & c & cs & D)]; [left; split; [exact Ewi|split; [exact Eq|exact D]]|right].
  assert (Oc : call_ok c).
  { specialize (A n). rewrite (nth_error_nth _ _ [] D) in A. assert (B : Forall call_ok (answers_of v r body (u_acts u) n)).
    { unfold answers_of, answer. destruct (nth_error (st_started (listener v r (u_acts u))) n) as [(f0 & as_)|]; [|constructor]. destruct as_ as [|x as_]; [constructor|]. destruct x; try constructor. match goal with |- context[nth_error ?a ?b] => destruct (nth_error a b) end; [apply Ok|constructor]. }
    rewrite <- A in B. apply Forall_app in B as (_ & B). inversion B. assumption. }
  destruct (call_does gw (u_house u) c G (story_house _ _ _ _ _ _ S G H) Oc) as (h' & obs & res & evs & Do). eexists. eapply U_serve; eassumption.
Qed.

Theorem u_rests gw v r body h wt wc : gateway_ok gw -> house_ok h -> (v < 13)%N ->
  weighs_calls gw h wt wc -> weighs_events r body wt wc -> (forall f k args, Forall call_ok (body f k args)) ->
  forall ls u, uruns gw v r body (calm_house h) ls u -> usurely gw v r body (fun u' => all_done v r u') u.
Proof.
  intros G H Hv C1 C2 Ok.
  assert (M : forall p a b ls u, uruns gw v r body (calm_house h) ls u -> sum wc (pressed ls) - length (u_by u) = p -> length (u_wire u) = a ->
    length (st_queue (listener v r (u_acts u))) = b -> usurely gw v r body (fun u' => all_done v r u') u).
  { induction p as [p IHp] using (well_founded_induction Nat.lt_wf_0).
    induction a as [a IHa] using (well_founded_induction Nat.lt_wf_0).
    induction b as [b IHb] using (well_founded_induction Nat.lt_wf_0).
    intros ls u R Ep Ea Eb. destruct (u_progress gw v r body h ls u G H Hv R Ok) as [X|X]; [apply UNow, X|]. apply ULater; [exact X|]. intros u' St.
    pose proof (u_sound _ _ _ _ _ _ _ G H Hv R) as Su. pose proof (UR_snoc _ _ _ _ _ _ _ _ _ R St) as R'.
    assert (P' : sum wc (pressed (ls ++ [Act])) = sum wc (pressed ls)) by (rewrite pressed_app; cbn; rewrite app_nil_r; reflexivity).
    inversion St as [|f fs rest Ew| |m q Eq| |n x cs h' obs res evs Ei Do]; subst.
    - eapply (IHa (length rest)); [rewrite Ew, app_length; cbn; lia|exact R'|rewrite P'; reflexivity|reflexivity|reflexivity].
    - eapply (IHb 0); [rewrite Eq; cbn; lia|exact R'|rewrite P'; reflexivity|reflexivity|].
      cbn [u_told u_acts]. rewrite (u_woken _ _ _ _ _ _ _ G H Hv Su). reflexivity.
    - pose proof (u_bounded gw v r body h _ _ wt wc G H Hv R' C1 C2) as B. rewrite P' in B. cbn [u_call u_by] in B. rewrite app_length in B. cbn [length] in B.
      eapply (IHp _); [|exact R'|reflexivity|reflexivity|reflexivity]. rewrite P'. cbn [u_call u_by]. rewrite app_length. cbn [length]. lia. }
  intros ls u R. eapply M; [exact R|reflexivity|reflexivity|reflexivity].
Qed.

Lemma uruns_cons gw v r body u l u1 ls u2 : ustep gw v r body u l u1 -> uruns gw v r body u1 ls u2 -> uruns gw v r body u (l :: ls) u2.
Proof.
  intros S R. induction R as [|ls l' a b R IH S']; [exact (UR_snoc _ _ _ _ _ [] _ _ _ (UR_nil _ _ _ _ _) S)|].
  exact (UR_snoc _ _ _ _ _ (l :: ls) _ _ _ IH S').
Qed.

(** ** Calls in order *)

Definition tasks_of (l : list (option nat * SpecHouse.call)) : list nat := concat (map (fun x => match fst x with Some n => [n] | None => [] end) l).

Lemma calls_none m l : Forall (fun k => m < k) (tasks_of l) -> calls_of m l = [].
Proof.
  induction l as [|([k|] & c) l IH]; intros F; [reflexivity| |exact (IH F)]. unfold tasks_of in F. cbn in F. inversion F as [|x xs Lt F']; subst. unfold calls_of. cbn.
  destruct (Nat.eqb k m) eqn:E; [apply Nat.eqb_eq in E; lia|]. exact (IH F').
Qed.

Lemma in_order_concat n l : in_order l -> (forall k, n <= k -> calls_of k l = []) -> of_callbacks l = concat (map (fun m => calls_of m l) (seq 0 n)).
Proof.
  unfold in_order. fold (tasks_of l). induction l as [|(o & c) l IH]; intros So Z.
  - cbn. induction (seq 0 n) as [|x s IHs]; [reflexivity|exact IHs].
  - assert (Zl : forall k, n <= k -> calls_of k l = []).
    { intros k K. specialize (Z k K). change ((o, c) :: l) with ([(o, c)] ++ l) in Z. rewrite calls_of_app in Z. apply app_eq_nil in Z as (_ & Z). exact Z. }
    destruct o as [k|]; [|exact (IH So Zl)]. change (tasks_of ((Some k, c) :: l)) with (k :: tasks_of l) in So. inversion So as [|x xs So' Le]; subst.
    specialize (IH So' Zl). change ((Some k, c) :: l) with ([(Some k, c)] ++ l). rewrite callbacks_app, IH.
    assert (K : k < n). { destruct (Nat.lt_ge_cases k n) as [K|K]; [exact K|]. specialize (Z k K). unfold calls_of in Z. cbn in Z. rewrite Nat.eqb_refl in Z. discriminate. }
    replace n with (k + Datatypes.S (n - Datatypes.S k)) by lia. rewrite seq_app, !map_app, !concat_app. cbn [seq map concat]. rewrite Nat.add_0_l.
    assert (A : concat (map (fun m => calls_of m l) (seq 0 k)) = [] /\ concat (map (fun m => calls_of m ([(Some k, c)] ++ l)) (seq 0 k)) = []).
    { assert (B : forall m, In m (seq 0 k) -> calls_of m l = [] /\ calls_of m ([(Some k, c)] ++ l) = []).
      { intros m I. apply in_seq in I. split; apply calls_none; [eapply Forall_impl; [|exact Le]; cbn; intros; lia|].
        change (tasks_of ([(Some k, c)] ++ l)) with (k :: tasks_of l). constructor; [lia|]. eapply Forall_impl; [|exact Le]; cbn; intros; lia. }
      clear - B. induction (seq 0 k) as [|m s IHs]; [split; reflexivity|]. destruct (B m (or_introl eq_refl)) as (B1 & B2).
      destruct (IHs (fun x I => B x (or_intror I))) as (C1 & C2). cbn [map concat]. rewrite B1, B2, C1, C2. split; reflexivity. }
    destruct A as (-> & ->). cbn [app]. unfold of_callbacks. cbn [map concat fst snd app].
    rewrite (map_ext_in (fun m => calls_of m ((Some k, c) :: l)) (fun m => calls_of m l)).
    + unfold calls_of at 3. cbn. rewrite Nat.eqb_refl. reflexivity.
    + intros m I. apply in_seq in I. unfold calls_of. cbn. destruct (Nat.eqb k m) eqn:E; [apply Nat.eqb_eq in E; lia|reflexivity].
Qed.

Theorem u_follows gw v r h ls u a it f pa pb : gateway_ok gw -> house_ok h -> distinct h -> (v < 13)%N ->
  uruns gw v r (follow a it) (calm_house h) ls u -> all_done v r u -> in_order (u_by u) ->
  In f (r (K_light STATUS_CHANGE)) -> (forall g, In g (r (K_light STATUS_CHANGE)) -> cb_takes g 2 = true) ->
  (forall st, SpecHouse.react gw LIGHTING [49%N] st = [49%N]) -> (forall st, SpecHouse.react gw LIGHTING [48%N] st = [48%N]) ->
  In pa (u_house u) -> place pa = (LIGHTING, a) -> In pb (u_house u) -> aimed gw LIGHTING (it_where it) pb = true ->
  Forall (fun c => forall o, stands_for c o -> at_whom gw o pb = true -> sets o = false) (pressed ls) ->
  p_state pb = (if str_eqb (p_state pa) [49%N] then [49%N] else [48%N]) \/
  (exists pa0 pb0, In pa0 h /\ place pa0 = place pa /\ p_state pa0 = p_state pa /\ In pb0 h /\ place pb0 = place pb /\ p_state pb0 = p_state pb).
Proof.
  intros G H D Hv R Re Io If T R1 R0 Ia Pa Ib Ab Ot.
  destruct (each _ _ _ _ _ _ _ G H Hv R) as (log & pre & post & tss & S & O & E & Es & F & Zn & Zc & Zp). cbv zeta in *.
  rewrite (Zp Re), app_nil_r in E. subst pre.
  assert (Cb : of_callbacks (u_by u) = concat (map (answer (follow a it) (st_items (listener v r (u_acts u)))) (st_started (listener v r (u_acts u))))).
  { rewrite (in_order_concat _ _ Io Zn), <- answers_all. f_equal. apply map_ext_in. intros n I. apply in_seq in I.
    unfold answers_of. destruct (nth_error (st_started (listener v r (u_acts u))) n) as [t|] eqn:Et; [|apply nth_error_None in Et; lia].
    destruct (Zc n t Et) as (rest & A & X). rewrite (X Re), app_nil_r in A. symmetry. exact A. }
  rewrite Es in Cb.
  destruct (story_lives _ _ _ _ _ _ S) as (os & Fo & Eh). rewrite Eh in Ib. apply in_map_iff in Ib as (pb0 & <- & Ib0).
  assert (Pp : place (life gw os pb0) = place pb0).
  { clear. revert pb0. induction os as [|o os IH]; intros p; [reflexivity|]. cbn. fold (life gw os (SpecHouse.step gw p o)). rewrite IH. apply step_place. }
  assert (Ab0 : aimed gw LIGHTING (it_where it) pb0 = true) by (rewrite <- Ab; apply aimed_place; symmetry; exact Pp).
  assert (Ot0 : Forall (fun c => forall o, stands_for c o -> at_whom gw o pb0 = true -> sets o = false) (of_others (u_by u))).
  { rewrite O. eapply Forall_impl; [|exact Ot]. intros c Hc o St A. apply (Hc o St). rewrite at_life. exact A. }
  destruct (followed gw it pb0 Ab0 R1 R0 _ _ Fo Ot0) as (L0 & L1).
  destruct (story_last _ _ _ _ _ _ S G H D pa Ia) as [(e1 & e2 & Ee & Si)|(Si & pa0 & I0 & Pl0 & St0)].
  - left. rewrite Ee in F. apply Forall2_app_inv_l in F as (t1 & t2 & _ & F2 & ->). inversion F2 as [|x ts l t3 N F3]; subst.
    assert (Pok : point_ok pa).
    { pose proof (story_house _ _ _ _ _ _ S G H) as Hk. unfold house_ok in Hk. rewrite Forall_forall in Hk. apply Hk, Ia. }
    destruct (follow_answers a it _ _ _ _ f N Pok Pa If T) as (n & A).
    rewrite concat_app in Cb. cbn [concat] in Cb. rewrite !map_app, !concat_app in Cb. rewrite A in Cb. rewrite (silent_quiet _ _ _ _ _ _ _ F3 Si Pa) in Cb.
    rewrite app_nil_r, repeat_end, app_assoc in Cb. apply L1 in Cb. exact Cb.
  - right. exists pa0, pb0. rewrite (silent_quiet _ _ _ _ _ _ _ F Si Pa) in Cb. specialize (L0 Cb).
    repeat (split; [assumption || (symmetry; assumption)|]). symmetry. exact L0.
Qed.
