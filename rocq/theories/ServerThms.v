(** * Any gateway at the end of the line: proofs *)
From Coq Require Import String List NArith ZArith Bool Lia.
From Verif Require Import PyStr Tags Messages MessageFacts SpecMsg SpecTag SpecProto ProtoThms Protocol Queue QueueThms Sender SenderThms IO Client SpecItem Items
  Conc SpecConc ConcThms SpecSingle SingleThms SpecSerial SerialThms SpecHouse HouseThms SpecTogether SerialThms2 TogetherThms Line SpecLine LineThms LineThms2 LineThms3 Energy SpecMeter SpecServer.
Import ListNotations.
Open Scope list_scope.

Section server.
Context {State : Type} (replies : State -> list N -> State -> list (list N) -> Prop).

(** Frames dealt with one after the other. *)
Inductive run_of : State -> list (list N) -> State -> list (list N) -> Prop :=
| Ro_nil s : run_of s [] s []
| Ro_cons s b s1 a bs s' ans : replies s b s1 a -> run_of s1 bs s' ans -> run_of s (b :: bs) s' (a ++ ans).

Section water.
Variables high low : nat.
Notation lrun := (lrun high low).
Notation lstep := (lstep high low).

Lemma attended_run n : forall l s inn out es l' s' inn' out', attended State replies high low l s inn out es l' s' inn' out' ->
  forall pre, lrun (linit n) pre = Some l ->
  lrun (linit n) (pre ++ es) = Some l' /\
  exists bs ans x fss, run_of s bs s' ans /\ s_done (l_s l') = s_done (l_s l) ++ x /\ inn ++ frames_done x = bs ++ inn' /\
    packets es = map (@concat N) fss /\ out ++ ans = concat fss ++ out'.
Proof.
  intros l s inn out es l' s' inn' out' W. induction W as [l s inn out|l s b inn out s1 ans es l' s' inn' out' Sv W IH|l s inn out e l1 es l' s' inn' out' Np E W IH|l s inn fs out l1 es l' s' inn' out' E W IH]; intros pre R.
  - rewrite app_nil_r. split; [exact R|]. exists [], [], [], []. cbn. rewrite !app_nil_r. split; [constructor|auto].
  - destruct (IH pre R) as (R' & bs & ans' & x & fss & C & D & I & P & O). split; [exact R'|].
    exists (b :: bs), (ans ++ ans'), x, fss. split; [econstructor; eassumption|]. split; [exact D|]. split; [cbn [app]; f_equal; exact I|]. split; [exact P|].
    rewrite app_assoc. exact O.
  - assert (R1 : lrun (linit n) (pre ++ [e]) = Some l1) by (eapply lrun_join; [exact R|]; cbn [Line.lrun]; rewrite E; reflexivity).
    destruct (IH (pre ++ [e]) R1) as (R' & bs & ans' & x & fss & C & D & I & P & O). rewrite <- app_assoc in R'. split; [exact R'|].
    destruct (sides high low n pre l R) as (Sr & _). pose proof (b_sleep _ (bytes_reachable high low n _ _ Sr)) as As.
    destruct (step_sides high low l e l1 (lstep_shape high low l e l1 As E)) as (_ & y & _ & _ & _ & _ & Dy & _).
    exists bs, ans', (y ++ x), fss. split; [exact C|]. split; [rewrite D, Dy, app_assoc; reflexivity|].
    assert (T : taken l l1 = frames_done y) by (unfold taken; rewrite Dy, skipn_app, skipn_all, Nat.sub_diag; reflexivity).
    rewrite T, <- app_assoc, <- frames_app in I. split; [exact I|]. split; [|exact O].
    destruct e; try exact P. exfalso. eapply Np. reflexivity.
  - assert (R1 : lrun (linit n) (pre ++ [LPacket (concat fs)]) = Some l1) by (eapply lrun_join; [exact R|]; cbn [Line.lrun]; rewrite E; reflexivity).
    destruct (IH _ R1) as (R' & bs & ans' & x & fss & C & D & I & P & O). rewrite <- app_assoc in R'. split; [exact R'|].
    assert (Ds : s_done (l_s l1) = s_done (l_s l)).
    { cbn [Line.lstep] in E. unfold lift_c in E. destruct (cstep (l_c l) (KPacket (concat fs))); [|discriminate]. injection E as <-. reflexivity. }
    rewrite Ds in D. exists bs, ans', x, (fs :: fss). split; [exact C|]. split; [exact D|]. split; [exact I|]. split; [cbn [packets map]; rewrite P; reflexivity|].
    cbn [concat]. rewrite <- !app_assoc. f_equal. exact O.
Qed.

(** A call that starts is one of the two kinds. *)
Lemma started_busy es : forall l l', lrun l es = Some l' -> Forall (fun k => fst (snd k) <> PIdle) (started es).
Proof.
  induction es as [|e es IH]; intros l l' R; [constructor|]. cbn [Line.lrun] in R. destruct (lstep l e) as [l1|] eqn:E; [|discriminate].
  destruct e; cbn [started]; try (eapply IH; exact R). constructor; [|eapply IH; exact R]. cbn [fst snd]. intros ->. cbn [Line.lstep] in E. destruct (nth_error (k_pc (l_c l)) i) as [[| |]|]; discriminate E.
Qed.
End water.

Lemma run_serially good kind : civil State replies good kind -> forall s bs s' ans, run_of s bs s' ans -> forall ks, good s ->
  Forall (fun k => kind (fst (snd k)) (snd (snd k))) ks -> bs = map frame_of ks ->
  exists log, serially State replies s ks log s' /\ dialogue ks log /\ ans = map msg_str (concat (map fst log)) /\ Forall streamable (concat (map fst log)) /\ good s'.
Proof.
  intros C s bs s' ans R. induction R as [s|s b s1 a bs s' ans Rp R IH]; intros ks G F E.
  - destruct ks; [|discriminate]. exists []. repeat split; try constructor. exact G.
  - destruct ks as [|[i [p b']] ks]; [discriminate|]. injection E as -> E. inversion F as [|? ? K F']; subst. cbn [fst snd frame_of] in *.
    destruct (C s p b' s1 a G K Rp) as (G1 & ms & r & -> & S & W). destruct (IH ks G1 F' eq_refl) as (log & A1 & A2 & A3 & A4 & A5).
    exists ((ms, r) :: log). split; [econstructor; eassumption|]. split; [constructor; assumption|]. cbn [map fst concat]. rewrite A3, map_app. split; [reflexivity|]. split; [apply Forall_app; auto|exact A5].
Qed.
End server.

Lemma any_answers ks : Forall (fun k => fst (snd k) <> PIdle) ks -> exists ans, dialogue ks ans /\ length ans = length ks /\ Forall (fun a : list msg * res unit => fst a = [MAck]) ans.
Proof.
  induction 1 as [|[i [p b]] ks N M (ans & D & L & A)]; [exists []; repeat split; constructor|].
  exists (([MAck], Ok tt) :: ans). split; [|split; [cbn; congruence|constructor; auto]]. constructor; [|exact D].
  cbn [fst snd] in *. destruct p as [| |keep]; [congruence|constructor|]; apply (W_replies keep []); constructor.
Qed.

Lemma any_side high low n es l bs inn fss out hd : lrun high low (linit n) es = Some l -> locked high low n es -> undisturbed es ->
  Forall (fun k => fst (snd k) <> PIdle) (started es) -> frames_done (s_done (l_s l)) = bs ++ inn -> packets es = map (@concat N) fss ->
  dialogue (firstn (length bs) (started es)) hd -> map msg_str (concat (map fst hd)) = concat fss ++ out -> Forall streamable (concat (map fst hd)) ->
  exists k pend read, (k <= length bs <= length (started es))%nat /\ (length (started es) <= k + 1)%nat /\
    k_done (l_c l) = firstn k (combine (map fst (started es)) (map snd hd)) /\
    q_out (k_q (l_c l)) = concat (map tagged_with (firstn k (combine (map fst (started es)) (map fst hd)))) ++ map (pair pend) read /\
    (Forall (eq SIdle) (s_tasks (l_s l)) -> Forall (eq PIdle) (k_pc (l_c l)) -> k = length (started es) /\ inn = []) /\
    (inn = [] -> out = [] -> Forall (eq SIdle) (s_tasks (l_s l)) -> (forall i, cstep (l_c l) (KRun i) = None) ->
       length bs = length (started es) /\ k_done (l_c l) = combine (map fst (started es)) (map snd hd) /\
       q_out (k_q (l_c l)) = concat (map tagged_with (combine (map fst (started es)) (map fst hd))) /\ c_queue (q_conn (k_q (l_c l))) = []).
Proof.
  intros R Lk U M I Pk Di O Sm.
  destruct (lock_run high low n es l R Lk U) as (ks & w & Rk & Pr & T & S & A & Dz & L & Dn & Wr & N).
  pose proof (frames_done_calls _ _ Dn Wr) as Fr.
  rewrite Fr in I.
  assert (Lb : length (all_calls ks) = (length bs + length inn)%nat) by (rewrite <- app_length, <- I, map_length; reflexivity).
  set (j := length bs) in *. set (A1 := firstn j (all_calls ks)). set (A2 := skipn j (all_calls ks)).
  assert (EA : all_calls ks = A1 ++ A2) by (symmetry; apply firstn_skipn).
  assert (L1 : length A1 = j) by (unfold A1; rewrite firstn_length; lia).
  assert (Lw : (length (all_calls ks) + length w)%nat = length (started es)) by (rewrite <- app_length, A; reflexivity).
  assert (EA1 : firstn j (started es) = A1) by (rewrite <- A, firstn_firstn_app by lia; reflexivity). rewrite EA1 in Di.
  assert (Mw : Forall (fun k => fst (snd k) <> PIdle) A2) by (rewrite <- A, EA, <- app_assoc in M; apply Forall_app in M as (_ & M); apply Forall_app in M as (M & _); exact M).
  destruct (any_answers A2 Mw) as (dm & Dd & Ld & Da).
  assert (Lh : length hd = j) by (rewrite <- L1; symmetry; exact (SerialThms.forall2_length _ _ _ Di)).
  symmetry in O. destruct (split_groups fss out _ O) as (pks & later & Ef & Eo & Em).
  rewrite Em in Sm. apply Forall_app in Sm as (Sm & _).
  assert (Sp : Forall (Forall streamable) pks).
  { clear - Sm. induction pks as [|p pks IH]; cbn [concat] in Sm; constructor; apply Forall_app in Sm as (X & Y); auto. }
  assert (Q0 : SpecConc.answers ks = concat pks).
  { unfold SpecConc.answers, fresh. rewrite Pr, Pk, Ef, map_map. change (fun x => concat (map msg_str x)) with texts. rewrite feed_texts by assumption. reflexivity. }
  assert (Q : SpecConc.answers ks ++ (later ++ concat (map fst dm)) = concat (map fst (hd ++ dm))) by (rewrite Q0, map_app, concat_app, Em, app_assoc; reflexivity).
  assert (Dl : dialogue (all_calls ks) (hd ++ dm)) by (rewrite EA; apply Forall2_app; assumption).
  destruct (serial_busy n ks (l_c l) (hd ++ dm) _ Rk S T Dl Q) as (ds & pend & read & Cd & Ds & Kd & Ko & Lp & Ip & u & Hu).
  assert (Lds : (length ds + length pend)%nat = length (all_calls ks)) by (rewrite Cd, app_length, map_length; reflexivity).
  assert (Ldm : length (all_calls ks) = (j + length dm)%nat) by (rewrite Ld, EA, app_length, L1; reflexivity).
  assert (Kj : (length ds <= j)%nat).
  { destruct (Nat.le_gt_cases (length ds) j) as [X|X]; [exact X|]. exfalso.
    assert (Y : map (fun d : ended => fst (snd d)) ds = map fst (firstn (length ds) (hd ++ dm))) by (rewrite <- Ds, map_map; reflexivity).
    unfold ended in *. rewrite Y, firstn_app, Lh, firstn_all2, map_app, concat_app, Q0 in Hu by lia. rewrite Em in Hu. rewrite <- !app_assoc in Hu.
    apply (f_equal (@length msg)) in Hu. rewrite !app_length in Hu.
    destruct dm as [|d0 dm0]; [cbn in Ldm; unfold ended in *; lia|]. pose proof (Forall_inv Da) as Hd. cbn beta in Hd.
    replace (length ds - j)%nat with (Datatypes.S (length ds - j - 1)) in Hu by lia. cbn [firstn map concat] in Hu. rewrite Hd in Hu. rewrite app_length in Hu. cbn [length] in Hu. lia. }
  assert (Lw1 : (length pend + length w <= 1)%nat).
  { destruct Dz as [_|i p m _ _ _ Id]; [cbn; lia|]. rewrite (Ip Id). cbn. lia. }
  assert (Fs : map fst ds = firstn (length ds) (started es)).
  { rewrite <- A, Cd, <- app_assoc. rewrite firstn_firstn_app by (rewrite map_length; reflexivity). rewrite firstn_all2 by (rewrite map_length; reflexivity). reflexivity. }
  assert (Fh : map snd ds = firstn (length ds) hd) by (rewrite Ds; apply firstn_firstn_app; unfold ended in *; lia).
  assert (K1 : k_done (l_c l) = firstn (length ds) (combine (map fst (started es)) (map snd hd))).
  { rewrite Kd, firstn_combine, !firstn_map, <- Fs, <- Fh, !map_map, combine_maps. reflexivity. }
  assert (K2 : concat (map read_by ds) = concat (map tagged_with (firstn (length ds) (combine (map fst (started es)) (map fst hd))))).
  { rewrite firstn_combine, !firstn_map, <- Fs, <- Fh, !map_map, combine_maps, map_map. reflexivity. }
  assert (Kq : Forall (eq SIdle) (s_tasks (l_s l)) -> Forall (eq PIdle) (k_pc (l_c l)) -> length ds = length (started es) /\ inn = []).
  { intros Is Ip'. assert (w = []).
    { destruct Dz as [_|i p m Hs _ _ _]; [reflexivity|]. rewrite Forall_forall in Is. pose proof (Is _ (nth_error_In _ _ Hs)) as Y. discriminate Y. }
    subst w. rewrite (Ip Ip') in Lds. cbn in Lds, Lw. assert (length ds = length (started es)) by (unfold ended in *; lia). split; [assumption|].
    destruct inn; [reflexivity|]. cbn [length] in Lb. unfold ended in *. lia. }
  assert (Kf : inn = [] -> out = [] -> Forall (eq SIdle) (s_tasks (l_s l)) -> (forall i, cstep (l_c l) (KRun i) = None) ->
       j = length (started es) /\ k_done (l_c l) = combine (map fst (started es)) (map snd hd) /\
       q_out (k_q (l_c l)) = concat (map tagged_with (combine (map fst (started es)) (map fst hd))) /\ c_queue (q_conn (k_q (l_c l))) = []).
  { intros -> -> Id Hq. assert (w = []).
    { destruct Dz as [_|i p m Hs _ _ _]; [reflexivity|]. rewrite Forall_forall in Id. pose proof (Id _ (nth_error_In _ _ Hs)) as Y. discriminate Y. }
    subst w. cbn in Lw, Lb. assert (Jc : j = length (started es)) by lia. assert (dm = []) by (destruct dm; [reflexivity|cbn in Ldm; lia]). subst dm.
    destruct later; [|discriminate]. cbn in Q. rewrite !app_nil_r in *.
    destruct (serial_answers n ks (l_c l) hd [] Rk S T Dl) as (_ & B); [rewrite app_nil_r; exact Q|]. destruct (B eq_refl Hq) as (B1 & B2).
    rewrite A in B1. split; [exact Jc|]. split; [exact B1|]. split; [|exact B2].
    assert (Ldj : length ds = length (started es)).
    { assert (X : length (k_done (l_c l)) = length (started es)) by (rewrite B1, combine_length, !map_length; lia). rewrite Kd, map_length in X. exact X. }
    assert (Pn : pend = []) by (destruct pend; [reflexivity|cbn in Lds; unfold ended in *; lia]). subst pend.
    rewrite Ko, K2, Ldj. cbn [so_far]. rewrite app_nil_r, firstn_all2; [reflexivity|]. rewrite combine_length, !map_length. lia. }
  assert (Ln : (length ds <= j <= length (started es))%nat /\ (length (started es) <= length ds + 1)%nat) by (unfold ended in *; lia). destruct Ln as (Ln1 & Ln2).
  destruct pend as [|[i y] pend]; [exists (length ds), 0%nat, []|exists (length ds), i, read];
    (split; [exact Ln1|]; split; [exact Ln2|]; split; [exact K1|]; split; [rewrite Ko, K2; reflexivity|]; split; [exact Kq|exact Kf]).
Qed.


Theorem any_line {State} (replies : State -> list N -> State -> list (list N) -> Prop) good kind high low n es l s s' inn out : civil State replies good kind -> good s ->
  Forall (fun k => kind (fst (snd k)) (snd (snd k))) (started es) -> locked high low n es -> undisturbed es ->
  attended State replies high low (linit n) s [] [] es l s' inn out ->
  exists j log, serially State replies s (firstn j (started es)) log s' /\ good s' /\ length log = j /\
    (exists k pend read, (k <= j <= length (started es))%nat /\ (length (started es) <= k + 1)%nat /\
       k_done (l_c l) = firstn k (combine (map fst (started es)) (map snd log)) /\
       q_out (k_q (l_c l)) = concat (map heard_by (firstn k (combine (map fst (started es)) (map fst log)))) ++ map (pair pend) read /\
       (Forall (eq SIdle) (s_tasks (l_s l)) -> Forall (eq PIdle) (k_pc (l_c l)) -> k = length (started es) /\ inn = [])) /\
    (inn = [] -> out = [] -> Forall (eq SIdle) (s_tasks (l_s l)) -> (forall i, cstep (l_c l) (KRun i) = None) ->
       j = length (started es) /\ k_done (l_c l) = combine (map fst (started es)) (map snd log) /\
       q_out (k_q (l_c l)) = concat (map heard_by (combine (map fst (started es)) (map fst log))) /\ c_queue (q_conn (k_q (l_c l))) = []).
Proof.
  intros Cv G F Lk U Wt. destruct (attended_run replies high low n _ _ _ _ _ _ _ _ _ Wt [] eq_refl) as (R & bs & ans & x & fss & C & D & I & Pk & O). cbn [app] in R, I, O.
  change (s_done (l_s (linit n)) ++ x) with x in D. subst x.
  destruct (client_frames high low n es l bs inn R Lk (proj1 (undisturbed_calm es U)) I) as (Lb & Bs).
  assert (Fk : Forall (fun k => kind (fst (snd k)) (snd (snd k))) (firstn (length bs) (started es))) by (rewrite <- (firstn_skipn (length bs)) in F; apply Forall_app in F as (F & _); exact F).
  destruct (run_serially replies good kind Cv _ _ _ _ C _ G Fk Bs) as (log & Se & Di & Ea & Sm & G'). rewrite Ea in O.
  destruct (any_side high low n es l bs inn fss out log R Lk U (started_busy high low es _ _ R) I Pk Di O Sm) as (k & pend & read & K1 & K2 & K3 & K4 & K5 & K6).
  exists (length bs), log. split; [exact Se|]. split; [exact G'|].
  split; [pose proof (SerialThms.forall2_length _ _ _ Di) as X; rewrite firstn_length in X; lia|].
  split; [exists k, pend, read; auto|exact K6].
Qed.
