(** * Calls over the whole line, in front of a house: the story *)
From Coq Require Import String List NArith ZArith Bool Lia.
From Verif Require Import PyStr Tags Messages MessageFacts SpecMsg SpecTag SpecProto ProtoThms Protocol Queue QueueThms Sender SenderThms IO Client SpecItem Items
  Conc SpecConc ConcThms SpecSingle SingleThms SpecSerial SerialThms SpecHouse HouseThms HouseThms2 SpecCrash CrashThms SpecTogether SerialThms2 TogetherThms Line SpecLine LineThms LineThms2.
Import ListNotations.
Open Scope list_scope.

(** ** The gateway's side *)

(** Frames dealt with one after the other. *)
Inductive chain (gw : gateway) : house -> list (list N) -> house -> list (list N) -> list (list N) -> Prop :=
| Ch_nil h : chain gw h [] h [] []
| Ch_cons h b h1 a e1 bs h' ans evs : serves gw h b h1 a e1 -> chain gw h1 bs h' ans evs -> chain gw h (b :: bs) h' (a ++ ans) (e1 ++ evs).

Definition frames_done (x : list ((nat * msg) * outcome)) : list (list N) := map (fun y => msg_str (snd (fst y))) (filter (fun y => match snd y with OWritten => true | _ => false end) x).

Lemma frames_app x y : frames_done (x ++ y) = frames_done x ++ frames_done y.
Proof. unfold frames_done. rewrite filter_app, map_app. reflexivity. Qed.

Section water.
Variables high low : nat.
Notation lrun := (lrun high low).
Notation lstep := (lstep high low).

Lemma watched_chain gw n : forall l h inn out es l' h' inn' out' evs, watched gw high low l h inn out es l' h' inn' out' evs ->
  forall pre, lrun (linit n) pre = Some l ->
  lrun (linit n) (pre ++ es) = Some l' /\
  exists bs ans x fss, chain gw h bs h' ans evs /\ s_done (l_s l') = s_done (l_s l) ++ x /\ inn ++ frames_done x = bs ++ inn' /\
    packets es = map (@concat N) fss /\ out ++ ans = concat fss ++ out'.
Proof.
  intros l h inn out es l' h' inn' out' evs W. induction W as [l h inn out|l h b inn out h1 ans ev1 es l' h' inn' out' evs Sv W IH|l h inn out e l1 es l' h' inn' out' evs Np E W IH|l h inn fs out l1 es l' h' inn' out' evs E W IH]; intros pre R.
  - rewrite app_nil_r. split; [exact R|]. exists [], [], [], []. cbn. rewrite !app_nil_r. split; [constructor|auto].
  - destruct (IH pre R) as (R' & bs & ans' & x & fss & C & D & I & P & O). split; [exact R'|].
    exists (b :: bs), (ans ++ ans'), x, fss. split; [econstructor; eassumption|]. split; [exact D|]. split; [cbn [app]; f_equal; exact I|]. split; [exact P|].
    rewrite app_assoc. exact O.
  - assert (R1 : lrun (linit n) (pre ++ [e]) = Some l1) by (eapply lrun_join; [exact R|]; cbn [Line.lrun]; rewrite E; reflexivity).
    destruct (IH (pre ++ [e]) R1) as (R' & bs & ans' & x & fss & C & D & I & P & O). rewrite <- app_assoc in R'. split; [exact R'|].
    destruct (sides high low n pre l R) as (Sr & _). pose proof (b_sleep _ (bytes_reachable high low n _ _ Sr)) as As.
    destruct (step_sides high low l e l1 (lstep_shape high low l e l1 As E)) as (_ & y & _ & _ & _ & _ & Dy & _).
    exists bs, ans', (y ++ x), fss. split; [exact C|]. split; [rewrite D, Dy, app_assoc; reflexivity|].
    assert (T : taken l l1 = frames_done y) by (unfold taken; rewrite Dy, skipn_app, skipn_all, Nat.sub_diag; reflexivity).
    rewrite T, <- app_assoc, <- frames_app in I. split; [exact I|]. split; [|exact O].
    destruct e; try exact P. exfalso. eapply Np. reflexivity.
  - assert (R1 : lrun (linit n) (pre ++ [LPacket (concat fs)]) = Some l1) by (eapply lrun_join; [exact R|]; cbn [Line.lrun]; rewrite E; reflexivity).
    destruct (IH _ R1) as (R' & bs & ans' & x & fss & C & D & I & P & O). rewrite <- app_assoc in R'. split; [exact R'|].
    assert (Ds : s_done (l_s l1) = s_done (l_s l)).
    { cbn [Line.lstep] in E. unfold lift_c in E. destruct (cstep (l_c l) (KPacket (concat fs))); [|discriminate]. injection E as <-. reflexivity. }
    rewrite Ds in D. exists bs, ans', x, (fs :: fss). split; [exact C|]. split; [exact D|]. split; [exact I|]. split; [cbn [packets map]; rewrite P; reflexivity|].
    cbn [concat]. rewrite <- !app_assoc. f_equal. exact O.
Qed.
End water.

Lemma chain_story gw : gateway_ok gw -> forall h bs h' ans evs, chain gw h bs h' ans evs -> forall ks cs, house_ok h -> plain h ->
  made ks cs -> Forall call_ok cs -> bs = map (fun k => snd (snd k)) ks ->
  exists log heard, story gw h cs log evs h' /\ dialogue ks heard /\ map snd heard = map snd log /\
    Forall2 (fun c x => alone c (fst x) (snd x)) cs (combine (map fst heard) log) /\
    ans = map msg_str (concat (map fst heard)) /\ Forall streamable (concat (map fst heard)).
Proof.
  intros G h bs h' ans evs C. induction C as [h|h b h1 a e1 bs h' ans evs Sv C IH]; intros ks cs Hh P M F E.
  - destruct ks; [|discriminate]. inversion M; subst. exists [], []. repeat split; constructor.
  - destruct ks as [|k ks]; [discriminate|]. injection E as -> E. inversion M as [|? c ? cs0 (o & Ho & W & Eb) M0]; subst. inversion F as [|? ? Hc F0]; subst. rewrite Eb in Sv.
    pose proof Hc as (_ & Hw & _). pose proof (serves_order _ _ _ _ _ _ (stands_ok c o Hw Ho) Sv) as O.
    destruct (answer_whole gw h c o _ h1 a e1 Hh P Hc Ho W O) as (ms1 & es1 & r & -> & S1 & Wa & Pr & D).
    destruct (IH ks cs0 (does_ok _ _ _ _ _ _ _ G Hh D) (does_plain _ _ _ _ _ _ _ P D) M0 F0 eq_refl) as (log & heard & A1 & A2 & A3 & A4 & A5 & A6).
    exists ((yields es1, r) :: log), ((ms1, r) :: heard). split; [econstructor; eassumption|]. split; [constructor; assumption|].
    split; [cbn; congruence|]. split; [constructor; [exists es1; auto|exact A4]|]. cbn [map fst concat]. split; [rewrite map_app, A5; reflexivity|apply Forall_app; auto].
Qed.

Lemma split_groups fss : forall out' ms, concat fss ++ out' = map msg_str ms ->
  exists pks later, fss = map (map msg_str) pks /\ out' = map msg_str later /\ ms = concat pks ++ later.
Proof.
  induction fss as [|fs fss IH]; intros out' ms E; cbn [concat app] in E; [exists [], ms; auto|].
  rewrite <- app_assoc in E. symmetry in E. apply map_eq_app in E as (m1 & m2 & -> & E1 & E2).
  destruct (IH out' m2 (eq_sym E2)) as (pks & later & -> & -> & ->). exists (m1 :: pks), later. cbn [map concat]. rewrite E1, app_assoc. auto.
Qed.

(** Any call could have been answered somehow. *)
Lemma some_answers ks cs : made ks cs -> exists ans, dialogue ks ans /\ length ans = length ks /\ Forall (fun a => fst a = [MAck]) ans.
Proof.
  intros M. induction M as [|k c ks cs (o & _ & W & _) M (ans & D & L & A)]; [exists []; repeat split; constructor|].
  exists (([MAck], Ok tt) :: ans). split; [|split; [cbn; congruence|constructor; auto]]. constructor; [|exact D].
  cbn [fst snd]. inversion W; subst; [constructor| |]; apply (W_replies keep []); constructor.
Qed.

(** Which messages each call read, and whether one is being made. *)
Lemma serial_busy n es s ans later : crun (cinit n) es = Some s -> serial n es -> (forall i, ~ In (KTimeout i) es) -> dialogue (all_calls es) ans ->
  SpecConc.answers es ++ later = concat (map fst ans) ->
  exists (ds : list ended) pend read, all_calls es = map fst ds ++ pend /\ map snd ds = firstn (length ds) ans /\
    k_done s = map result_of ds /\ q_out (k_q s) = concat (map read_by ds) ++ so_far pend read /\ (length pend <= 1)%nat /\
    (Forall (eq PIdle) (k_pc s) -> pend = []) /\ exists u, concat (map (fun d => fst (snd d)) ds) ++ u = SpecConc.answers es.
Proof.
  intros R Se T D A. destruct (dinv_run n es s R Se) as (ds & pend & read & C & Dn & O & E & B).
  assert (V : SpecConc.answers es = map snd (q_out (k_q s)) ++ c_queue (q_conn (k_q s))) by (symmetry; apply (all_views n es s R)).
  assert (X : map snd (concat (map read_by ds)) = concat (map (fun d => fst (snd d)) ds)).
  { clear. induction ds as [|d ds IH]; [reflexivity|]. cbn [map concat]. rewrite map_app, IH. f_equal. unfold read_by. rewrite map_map. apply map_id. }
  rewrite O, map_app, X, <- app_assoc in V.
  exists ds, pend, read. split; [exact C|]. split.
  { rewrite V, <- app_assoc in A. rewrite C in D.
    eapply (ends_dialogue ds pend ans); [|exact D|exact A]. eapply Forall_impl; [|exact E].
    intros d ([Hd|(Hd & _)] & Ht); [exact Hd|]. destruct (Ht Hd) as (i & Hi). destruct (T i Hi). }
  split; [exact Dn|]. split; [exact O|]. split; [destruct B as [(-> & _)|(i & p & b & -> & _)]; cbn; lia|]. split; [|eauto].
  intros I. destruct B as [(-> & _)|(i & p & b & -> & B)]; [reflexivity|]. exfalso.
  destruct B as (Np & Hp & _). rewrite Forall_forall in I. pose proof (I _ (nth_error_In _ _ Hp)) as Y. congruence.
Qed.

Lemma combine_firstn {A B} (l : list A) : forall (m : list B), combine (firstn (length m) l) m = combine l m.
Proof. induction l as [|x l IH]; intros [|y m]; cbn; try reflexivity. f_equal. apply IH. Qed.
Lemma firstn_firstn_app {A} k (a b : list A) : (k <= length a)%nat -> firstn k (a ++ b) = firstn k a.
Proof. intros L. rewrite firstn_app. replace (k - length a)%nat with 0%nat by lia. cbn. apply app_nil_r. Qed.

(** ** One client's side *)

Definition frame_of (k : nat * (pc * list N)) : list N := snd (snd k).

Lemma frames_done_calls (x : list ((nat * msg) * outcome)) : forall cs, Forall (fun y => snd y = OWritten) x -> map who_wrote cs = map as_frame (map fst x) -> frames_done x = map frame_of cs.
Proof.
  intros cs Dn Wr. revert cs Wr. induction Dn as [|y ys Hy Dn IH]; intros cs E; destruct cs as [|k cs]; try discriminate; [reflexivity|].
  cbn [map] in E. injection E as E1 E2 E3. unfold frames_done. cbn [filter]. rewrite Hy. cbn [map]. f_equal; [symmetry; assumption|apply IH; assumption].
Qed.

(** The frames obeyed are those of the calls, in the order in which they started. *)
Lemma client_frames high low n es l bs inn : lrun high low (linit n) es = Some l -> locked high low n es -> calm es ->
  frames_done (s_done (l_s l)) = bs ++ inn -> (length bs <= length (started es))%nat /\ bs = map frame_of (firstn (length bs) (started es)).
Proof.
  intros R Lk U I. destruct (lock_calm high low n es l R Lk U) as (ks & w & Rk & Pr & T & S & A & Dz & L & Dn & Wr & N).
  rewrite (frames_done_calls _ _ Dn Wr) in I. assert (Lb : length (all_calls ks) = (length bs + length inn)%nat) by (rewrite <- app_length, <- I, map_length; reflexivity).
  rewrite <- A, app_length. split; [lia|]. rewrite firstn_firstn_app by lia. apply (f_equal (firstn (length bs))) in I.
  rewrite (firstn_firstn_app (length bs) bs inn), firstn_all in I by lia. rewrite firstn_map in I. symmetry. exact I.
Qed.

Lemma client_side high low n es l cs bs inn fss out hd : lrun high low (linit n) es = Some l -> locked high low n es -> undisturbed es ->
  made (started es) cs -> frames_done (s_done (l_s l)) = bs ++ inn -> packets es = map (@concat N) fss ->
  dialogue (firstn (length bs) (started es)) hd -> map msg_str (concat (map fst hd)) = concat fss ++ out -> Forall streamable (concat (map fst hd)) ->
  exists k pend read, (k <= length bs <= length cs)%nat /\ (length cs <= k + 1)%nat /\
    k_done (l_c l) = firstn k (combine (map fst (started es)) (map snd hd)) /\
    q_out (k_q (l_c l)) = concat (map tagged_with (firstn k (combine (map fst (started es)) (map fst hd)))) ++ map (pair pend) read /\
    (Forall (eq SIdle) (s_tasks (l_s l)) -> Forall (eq PIdle) (k_pc (l_c l)) -> k = length cs /\ inn = []) /\
    (inn = [] -> out = [] -> Forall (eq SIdle) (s_tasks (l_s l)) -> (forall i, cstep (l_c l) (KRun i) = None) ->
       length bs = length cs /\ k_done (l_c l) = combine (map fst (started es)) (map snd hd) /\
       q_out (k_q (l_c l)) = concat (map tagged_with (combine (map fst (started es)) (map fst hd))) /\ c_queue (q_conn (k_q (l_c l))) = []).
Proof.
  intros R Lk U M I Pk Di O Sm.
  destruct (lock_run high low n es l R Lk U) as (ks & w & Rk & Pr & T & S & A & Dz & L & Dn & Wr & N).
  pose proof (frames_done_calls _ _ Dn Wr) as Fr.
  rewrite Fr in I.
  assert (Lb : length (all_calls ks) = (length bs + length inn)%nat) by (rewrite <- app_length, <- I, map_length; reflexivity).
  set (j := length bs) in *. set (A1 := firstn j (all_calls ks)). set (A2 := skipn j (all_calls ks)).
  assert (EA : all_calls ks = A1 ++ A2) by (symmetry; apply firstn_skipn).
  assert (L1 : length A1 = j) by (unfold A1; rewrite firstn_length; lia).
  assert (Mc : length (started es) = length cs) by exact (SerialThms.forall2_length _ _ _ M).
  assert (Lw : (length (all_calls ks) + length w)%nat = length cs) by (rewrite <- Mc, <- A, app_length; reflexivity).
  assert (EA1 : firstn j (started es) = A1) by (rewrite <- A, firstn_firstn_app by lia; reflexivity). rewrite EA1 in Di.
  assert (Mw : exists c2, made A2 c2).
  { unfold made in *. rewrite <- A, EA, <- app_assoc in M. apply Forall2_app_inv_l in M as (c1 & c23 & M1 & M23 & ->). apply Forall2_app_inv_l in M23 as (c2 & c3 & M2 & M3 & ->). eauto. }
  destruct Mw as (c2 & M2). destruct (some_answers A2 c2 M2) as (dm & Dd & Ld & Da).
  assert (Lh : length hd = j) by (rewrite <- L1; symmetry; exact (SerialThms.forall2_length _ _ _ Di)).
  symmetry in O. destruct (split_groups fss out _ O) as (pks & later & Ef & Eo & Em).
  rewrite Em in Sm. apply Forall_app in Sm as (Sm & _).
  assert (Sp : Forall (Forall streamable) pks).
  { clear - Sm. induction pks as [|p pks IH]; cbn [concat] in Sm; constructor; apply Forall_app in Sm as (X & Y); auto. }
  assert (Q0 : SpecConc.answers ks = concat pks).
  { unfold SpecConc.answers, fresh. rewrite Pr, Pk, Ef, map_map. change (fun x => concat (map msg_str x)) with texts. rewrite feed_texts by assumption. reflexivity. }
  assert (Q : SpecConc.answers ks ++ (later ++ concat (map fst dm)) = concat (map fst (hd ++ dm))) by (rewrite Q0, map_app, concat_app, Em, app_assoc; reflexivity).
  assert (Dl : dialogue (all_calls ks) (hd ++ dm)) by (rewrite EA; apply Forall2_app; assumption).
  destruct (serial_busy n ks (l_c l) (hd ++ dm) _ Rk S T Dl Q) as (ds & pend & read & Cd & Ds & Kd & Ko & Lp & Ip & u & Hu).
  assert (Lds : (length ds + length pend)%nat = length (all_calls ks)) by (rewrite Cd, app_length, map_length; reflexivity).
  assert (Ldm : length (all_calls ks) = (j + length dm)%nat) by (rewrite Ld, EA, app_length, L1; reflexivity).
  assert (Kj : (length ds <= j)%nat).
  { destruct (Nat.le_gt_cases (length ds) j) as [X|X]; [exact X|]. exfalso.
    assert (Y : map (fun d : ended => fst (snd d)) ds = map fst (firstn (length ds) (hd ++ dm))) by (rewrite <- Ds, map_map; reflexivity).
    unfold ended in *. rewrite Y, firstn_app, Lh, firstn_all2, map_app, concat_app, Q0 in Hu by lia. rewrite Em in Hu. rewrite <- !app_assoc in Hu.
    apply (f_equal (@length msg)) in Hu. rewrite !app_length in Hu.
    destruct dm as [|d0 dm0]; [cbn in Ldm; unfold ended in *; lia|]. pose proof (Forall_inv Da) as Hd. cbn beta in Hd.
    replace (length ds - j)%nat with (Datatypes.S (length ds - j - 1)) in Hu by lia. cbn [firstn map concat] in Hu. rewrite Hd in Hu. rewrite app_length in Hu. cbn [length] in Hu. lia. }
  assert (Lw1 : (length pend + length w <= 1)%nat).
  { destruct Dz as [_|i p m _ _ _ Id]; [cbn; lia|]. rewrite (Ip Id). cbn. lia. }
  assert (Fs : map fst ds = firstn (length ds) (started es)).
  { rewrite <- A, Cd, <- app_assoc. rewrite firstn_firstn_app by (rewrite map_length; reflexivity). rewrite firstn_all2 by (rewrite map_length; reflexivity). reflexivity. }
  assert (Fh : map snd ds = firstn (length ds) hd) by (rewrite Ds; apply firstn_firstn_app; unfold ended in *; lia).
  assert (K1 : k_done (l_c l) = firstn (length ds) (combine (map fst (started es)) (map snd hd))).
  { rewrite Kd, firstn_combine, !firstn_map, <- Fs, <- Fh, !map_map, combine_maps. reflexivity. }
  assert (K2 : concat (map read_by ds) = concat (map tagged_with (firstn (length ds) (combine (map fst (started es)) (map fst hd))))).
  { rewrite firstn_combine, !firstn_map, <- Fs, <- Fh, !map_map, combine_maps, map_map. reflexivity. }
  assert (Kq : Forall (eq SIdle) (s_tasks (l_s l)) -> Forall (eq PIdle) (k_pc (l_c l)) -> length ds = length cs /\ inn = []).
  { intros Is Ip'. assert (w = []).
    { destruct Dz as [_|i p m Hs _ _ _]; [reflexivity|]. rewrite Forall_forall in Is. pose proof (Is _ (nth_error_In _ _ Hs)) as Y. discriminate Y. }
    subst w. rewrite (Ip Ip') in Lds. cbn in Lds, Lw. assert (length ds = length cs) by (unfold ended in *; lia). split; [assumption|].
    destruct inn; [reflexivity|]. cbn [length] in Lb. unfold ended in *. lia. }
  assert (Kf : inn = [] -> out = [] -> Forall (eq SIdle) (s_tasks (l_s l)) -> (forall i, cstep (l_c l) (KRun i) = None) ->
       j = length cs /\ k_done (l_c l) = combine (map fst (started es)) (map snd hd) /\
       q_out (k_q (l_c l)) = concat (map tagged_with (combine (map fst (started es)) (map fst hd))) /\ c_queue (q_conn (k_q (l_c l))) = []).
  { intros -> -> Id Hq. assert (w = []).
    { destruct Dz as [_|i p m Hs _ _ _]; [reflexivity|]. rewrite Forall_forall in Id. pose proof (Id _ (nth_error_In _ _ Hs)) as Y. discriminate Y. }
    subst w. cbn in Lw, Lb. assert (Jc : j = length cs) by lia. assert (dm = []) by (destruct dm; [reflexivity|cbn in Ldm; lia]). subst dm.
    destruct later; [|discriminate]. cbn in Q. rewrite !app_nil_r in *.
    destruct (serial_answers n ks (l_c l) hd [] Rk S T Dl) as (_ & B); [rewrite app_nil_r; exact Q|]. destruct (B eq_refl Hq) as (B1 & B2).
    rewrite A in B1. split; [exact Jc|]. split; [exact B1|]. split; [|exact B2].
    assert (Ldj : length ds = length cs).
    { assert (X : length (k_done (l_c l)) = length cs) by (rewrite B1, combine_length, !map_length; lia). rewrite Kd, map_length in X. exact X. }
    assert (Pn : pend = []) by (destruct pend; [reflexivity|cbn in Lds; unfold ended in *; lia]). subst pend.
    rewrite Ko, K2, Ldj. cbn [so_far]. rewrite app_nil_r, firstn_all2; [reflexivity|]. rewrite combine_length, !map_length. lia. }
  assert (Ln : (length ds <= j <= length cs)%nat /\ (length cs <= length ds + 1)%nat) by (unfold ended in *; lia). destruct Ln as (Ln1 & Ln2).
  destruct pend as [|[i y] pend]; [exists (length ds), 0%nat, []|exists (length ds), i, read];
    (split; [exact Ln1|]; split; [exact Ln2|]; split; [exact K1|]; split; [rewrite Ko, K2; reflexivity|]; split; [exact Kq|exact Kf]).
Qed.

Theorem line_story gw high low n es l h h' inn out evs cs : gateway_ok gw -> house_ok h -> plain h -> Forall call_ok cs ->
  locked high low n es -> undisturbed es -> watched gw high low (linit n) h [] [] es l h' inn out evs -> made (started es) cs ->
  exists j log heard, story gw h (firstn j cs) log evs h' /\ length log = j /\ length heard = j /\
    Forall2 (fun c x => alone c (fst x) (snd x)) (firstn j cs) (combine heard log) /\
    (exists k pend read, (k <= j <= length cs)%nat /\ (length cs <= k + 1)%nat /\
       k_done (l_c l) = firstn k (combine (map fst (started es)) (map snd log)) /\
       q_out (k_q (l_c l)) = concat (map tagged_with (firstn k (combine (map fst (started es)) heard))) ++ map (pair pend) read /\
       (Forall (eq SIdle) (s_tasks (l_s l)) -> Forall (eq PIdle) (k_pc (l_c l)) -> k = length cs /\ inn = [])) /\
    (inn = [] -> out = [] -> Forall (eq SIdle) (s_tasks (l_s l)) -> (forall i, cstep (l_c l) (KRun i) = None) ->
       j = length cs /\ k_done (l_c l) = combine (map fst (started es)) (map snd log) /\
       q_out (k_q (l_c l)) = concat (map tagged_with (combine (map fst (started es)) heard)) /\ c_queue (q_conn (k_q (l_c l))) = []).
Proof.
  intros G Hh P F Lk U Wt M.
  destruct (watched_chain high low gw n _ _ _ _ _ _ _ _ _ _ Wt [] eq_refl) as (R & bs & ans & x & fss & C & D & I & Pk & O). cbn [app] in R, I, O.
  change (s_done (l_s (linit n)) ++ x) with x in D. subst x.
  destruct (client_frames high low n es l bs inn R Lk (proj1 (undisturbed_calm es U)) I) as (Lb & Bs).
  assert (Mw : made (firstn (length bs) (started es)) (firstn (length bs) cs)).
  { unfold made in *. rewrite <- (firstn_skipn (length bs) (started es)) in M. apply Forall2_app_inv_l in M as (c1 & c2 & M1 & M2 & ->).
    pose proof (SerialThms.forall2_length _ _ _ M1) as Lf. rewrite firstn_length in Lf. rewrite firstn_firstn_app by lia. rewrite (firstn_all2 c1) by lia. exact M1. }
  assert (Fok : Forall call_ok (firstn (length bs) cs)) by (rewrite <- (firstn_skipn (length bs) cs) in F; apply Forall_app in F as (F & _); exact F).
  destruct (chain_story gw G _ _ _ _ _ C _ _ Hh P Mw Fok Bs) as (log & hd & St & Di & Sn & Al & Ea & Sm).
  rewrite Ea in O.
  destruct (client_side high low n es l cs bs inn fss out hd R Lk U M I Pk Di O Sm) as (k & pend & read & K1 & K2 & K3 & K4 & K5 & K6).
  assert (Lh : length hd = length bs) by (pose proof (SerialThms.forall2_length _ _ _ Di) as X; rewrite firstn_length in X; lia).
  exists (length bs), log, (map fst hd). split; [exact St|]. split; [rewrite <- Lh, <- (map_length snd hd), Sn, map_length; reflexivity|]. split; [rewrite map_length; exact Lh|]. split; [exact Al|].
  rewrite Sn in K3, K6. split; [exists k, pend, read; auto|exact K6].
Qed.
