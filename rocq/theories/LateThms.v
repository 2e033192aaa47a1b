(** * Calls that are not answered in time: proofs *)
From Coq Require Import String List NArith ZArith Bool Lia.
From Verif Require Import PyStr Tags Messages MessageFacts SpecMsg SpecTag SpecProto ProtoThms Protocol Queue QueueThms Sender SenderThms IO Client SpecItem Items
  Conc SpecConc ConcThms SpecSingle SingleThms SpecSerial SerialThms SpecHouse HouseThms HouseThms2 SpecCrash CrashThms SpecTogether SerialThms2 TogetherThms Line SpecLine LineThms LineThms2 LineThms3 SpecLate.
Import ListNotations.
Open Scope list_scope.

Lemma not_ack m : mtype_eqb (msg_type m) T_ACK = false -> m <> MAck.
Proof. intros E ->. discriminate E. Qed.
Lemma not_nack m : mtype_eqb (msg_type m) T_NACK = false -> m <> MNack.
Proof. intros E ->. discriminate E. Qed.
Lemma is_ack m : mtype_eqb (msg_type m) T_ACK = true -> m = MAck.
Proof. destruct m; try discriminate; reflexivity. Qed.
Lemma is_nack m : mtype_eqb (msg_type m) T_NACK = true -> m = MNack.
Proof. destruct m; try discriminate; reflexivity. Qed.

Lemma react_part p ms : p <> PIdle -> Forall (fun m => Conc.react p m = None) ms -> part_answer p ms.
Proof.
  intros Np F. destruct p as [| |keep]; [congruence| |].
  - destruct F; [constructor|discriminate].
  - constructor. eapply Forall_impl; [|exact F]. intros m H. cbn [Conc.react] in H.
    destruct (mtype_eqb (msg_type m) T_NACK) eqn:E1; [discriminate|]. destruct (mtype_eqb (msg_type m) T_ACK) eqn:E2; [discriminate|]. destruct (keep m); [|discriminate].
    split; [reflexivity|]. split; [apply not_ack, E2|apply not_nack, E1].
Qed.
Lemma react_whole p ms m r : p <> PIdle -> Forall (fun m => Conc.react p m = None) ms -> Conc.react p m = Some r -> whole_answer p (ms ++ [m]) r.
Proof.
  intros Np F E. pose proof (react_part p ms Np F) as Pa. destruct Pa as [|keep ms G].
  - cbn [Conc.react app] in *. destruct (mtype_eqb (msg_type m) T_ACK) eqn:X; injection E as <-; [rewrite (is_ack m X); constructor|constructor; apply not_ack, X].
  - cbn [Conc.react] in E. destruct (mtype_eqb (msg_type m) T_NACK) eqn:E1.
    + injection E as <-. rewrite (is_nack m E1). apply W_refused; [exact G|discriminate|left; reflexivity].
    + destruct (mtype_eqb (msg_type m) T_ACK) eqn:E2; [injection E as <-; rewrite (is_ack m E2); constructor; exact G|].
      destruct (keep m) eqn:Kk; [discriminate|]. injection E as <-. apply W_refused; [exact G|apply not_ack, E2|right; exact Kk].
Qed.

Lemma ends_takes (ds : list ended) : Forall (fun d => fst (snd (fst d)) <> PIdle) ds -> Forall (fun d => ends (fst (snd (fst d))) (fst (snd d)) (snd (snd d))) ds ->
  takes (map (fun d => fst (snd (fst d))) ds) (concat (map (fun d => fst (snd d)) ds)) (map (fun d => snd (snd d)) ds).
Proof.
  induction ds as [|d ds IH]; intros Np F; [constructor|]. inversion Np; subst. inversion F as [|? ? E F']; subst. cbn [map concat].
  destruct E as [(read & m & Em & Fr & Er)|(Er & Fr)].
  - rewrite Em. apply Tk_whole; [apply react_whole; assumption|auto].
  - rewrite Er. apply Tk_late; [apply react_part; assumption|auto].
Qed.

Lemma called_busy n ks : forall s, crun (cinit n) ks = Some s -> Forall (fun k => fst (snd k) <> PIdle) (all_calls ks).
Proof.
  induction ks as [|e ks IH] using rev_ind; intros s R; [constructor|]. destruct (crun_app ks [e] _ _ R) as (s0 & R0 & R1). cbn [crun] in R1. destruct (cstep s0 e) as [s1|] eqn:E; [|discriminate].
  rewrite all_calls_app. apply Forall_app. split; [eapply IH, R0|]. destruct e as [i p b|d|j|j]; try constructor; [|constructor]. cbn [fst snd].
  cbn [cstep] in E. intros ->. destruct (nth_error (k_pc s0) i) as [[]|]; discriminate.
Qed.

Lemma snd_reads (ds : list ended) : map snd (concat (map read_by ds)) = concat (map (fun d => fst (snd d)) ds).
Proof. induction ds as [|d ds IH]; [reflexivity|]. cbn [map concat]. rewrite map_app, IH. f_equal. unfold read_by. rewrite map_map. cbn [snd]. apply map_id. Qed.

(** One client's side: what its calls take from the answers to it. *)
Lemma client_late high low n es l cs bs inn fss out (hd : list (list msg * res unit)) : lrun high low (linit n) es = Some l -> locked high low n es -> calm es ->
  made (started es) cs -> frames_done (s_done (l_s l)) = bs ++ inn -> packets es = map (@concat N) fss ->
  map msg_str (concat (map fst hd)) = concat fss ++ out -> Forall streamable (concat (map fst hd)) ->
  (inn = [] -> Forall (eq SIdle) (s_tasks (l_s l)) -> length bs = length cs) /\
  exists k stream read later, (k <= length cs <= k + 1)%nat /\ (Forall (eq SIdle) (s_tasks (l_s l)) -> Forall (eq PIdle) (k_pc (l_c l)) -> k = length cs /\ read = []) /\
    map fst (k_done (l_c l)) = firstn k (map fst (started es)) /\
    takes (map (fun c => fst (snd c)) (firstn k (started es))) stream (map snd (k_done (l_c l))) /\
    map snd (q_out (k_q (l_c l))) = stream ++ read /\
    (forall c, nth_error (started es) k = Some c -> fst (snd c) = PCommand -> read = []) /\ (k = length cs -> read = []) /\
    concat (map fst hd) = stream ++ read ++ c_queue (q_conn (k_q (l_c l))) ++ later /\ (out = [] -> later = []).
Proof.
  intros R Lk U M I Pk O Sm. symmetry in O. destruct (split_groups fss out _ O) as (pks & later & Ef & Eo & Em).
  rewrite Em in Sm. apply Forall_app in Sm as (Sm & _).
  assert (Sp : Forall (Forall streamable) pks).
  { clear - Sm. induction pks as [|p pks IH]; cbn [concat] in Sm; constructor; apply Forall_app in Sm as (X & Y); auto. }
  destruct (lock_calm high low n es l R Lk U) as (ks & w & Rk & Pr & T & S & A & Dz & L & Dn & Wr & N).
  assert (Q0 : SpecConc.answers ks = concat pks).
  { unfold SpecConc.answers, fresh. rewrite Pr, Pk, Ef, map_map. change (fun x => concat (map msg_str x)) with texts. rewrite feed_texts by assumption. reflexivity. }
  destruct (dinv_run n ks (l_c l) Rk S) as (ds & pend & read & Cd & Kd & Ko & Fe & B).
  pose proof (all_views n ks (l_c l) Rk) as V. rewrite Q0 in V.
  pose proof (called_busy n ks _ Rk) as Nb. rewrite Cd in Nb. apply Forall_app in Nb as (Nb & Nb2).
  assert (Mc : length (started es) = length cs) by exact (SerialThms.forall2_length _ _ _ M).
  assert (Lc : (length ds + length pend + length w = length cs)%nat) by (rewrite <- Mc, <- A, Cd, !app_length, map_length; reflexivity).
  assert (Ip : Forall (eq PIdle) (k_pc (l_c l)) -> pend = []).
  { intros Id. destruct B as [(-> & _)|(i & p & b & _ & Np & Pi & _)]; [reflexivity|]. rewrite Forall_forall in Id. exfalso. apply Np. symmetry. apply Id. eapply nth_error_In, Pi. }
  assert (Iw : Forall (eq SIdle) (s_tasks (l_s l)) -> w = []).
  { intros Is. destruct Dz as [_|i p m Hs _ _ _]; [reflexivity|]. rewrite Forall_forall in Is. pose proof (Is _ (nth_error_In _ _ Hs)) as Y. discriminate Y. }
  assert (Lw1 : (length pend + length w <= 1)%nat).
  { destruct Dz as [_|i p m _ _ _ Id]; [|rewrite (Ip Id); cbn; lia]. destruct B as [(-> & _)|(i & p & b & -> & _)]; cbn; lia. }
  assert (Fs : map fst ds = firstn (length ds) (started es)).
  { rewrite <- A, Cd, <- app_assoc. rewrite firstn_firstn_app by (rewrite map_length; reflexivity). rewrite firstn_all2 by (rewrite map_length; reflexivity). reflexivity. }
  assert (Rd : pend = [] -> read = []) by (intros ->; destruct B as [(_ & -> & _)|(i & p & b & X & _)]; [reflexivity|discriminate X]).
  assert (So : map snd (so_far pend read) = read).
  { destruct pend as [|[i y] pend]; cbn [so_far]; [rewrite Rd by reflexivity; reflexivity|]. rewrite map_map. cbn [snd]. apply map_id. }
  split. { intros -> Is. rewrite app_nil_r in I. pose proof (frames_done_calls _ _ Dn Wr) as Fr. rewrite I in Fr. apply (f_equal (@length _)) in Fr. rewrite map_length in Fr. rewrite Fr, <- Mc, <- A, (Iw Is), app_nil_r. reflexivity. }
  exists (length ds), (concat (map (fun d : ended => fst (snd d)) ds)), read, later. unfold ended in *.
  split; [lia|]. split. { intros Is Id. rewrite (Ip Id), (Iw Is) in Lc. cbn in Lc. split; [lia|]. apply Rd, Ip, Id. }
  split. { rewrite Kd, map_map, firstn_map, <- Fs, map_map. reflexivity. }
  split. { rewrite <- Fs, map_map, Kd, map_map. apply ends_takes; [|eapply Forall_impl; [|exact Fe]; cbn; tauto].
    rewrite Forall_map in Nb. exact Nb. }
  split. { rewrite Ko, map_app, snd_reads, So. reflexivity. }
  split. { intros c Hc Pc. destruct B as [(_ & -> & _)|(i & p & b & -> & Np & Pi & Fr & _)]; [reflexivity|].
    assert (X : nth_error (started es) (length ds) = Some (i, (p, b))).
    { rewrite <- A, Cd, <- app_assoc. rewrite nth_error_app2 by (rewrite map_length; reflexivity). rewrite map_length, Nat.sub_diag. reflexivity. }
    rewrite X in Hc. injection Hc as <-. cbn [fst snd] in Pc. subst p. destruct Fr as [|y ys Hy _]; [reflexivity|discriminate Hy]. }
  split. { intros E. apply Rd. destruct pend; [reflexivity|]. cbn [length] in Lc. lia. }
  split. { rewrite Em, <- V, Ko, map_app, snd_reads, So, <- !app_assoc. reflexivity. }
  intros ->. destruct later; [reflexivity|discriminate Eo].
Qed.

Theorem late_story gw high low n es l h h' inn out evs cs : gateway_ok gw -> house_ok h -> plain h -> Forall call_ok cs ->
  locked high low n es -> calm es -> watched gw high low (linit n) h [] [] es l h' inn out evs -> made (started es) cs ->
  exists j log heard, story gw h (firstn j cs) log evs h' /\ (j <= length cs)%nat /\ length log = j /\ length heard = j /\
    Forall2 (fun c x => alone c (fst x) (snd x)) (firstn j cs) (combine heard log) /\
    dialogue (firstn j (started es)) (combine heard (map snd log)) /\
    (inn = [] -> Forall (eq SIdle) (s_tasks (l_s l)) -> j = length cs) /\
    exists k stream read later, (k <= length cs <= k + 1)%nat /\ (Forall (eq SIdle) (s_tasks (l_s l)) -> Forall (eq PIdle) (k_pc (l_c l)) -> k = length cs /\ read = []) /\
      map fst (k_done (l_c l)) = firstn k (map fst (started es)) /\
      takes (map (fun c => fst (snd c)) (firstn k (started es))) stream (map snd (k_done (l_c l))) /\
      map snd (q_out (k_q (l_c l))) = stream ++ read /\
      (forall c, nth_error (started es) k = Some c -> fst (snd c) = PCommand -> read = []) /\ (k = length cs -> read = []) /\
      concat heard = stream ++ read ++ c_queue (q_conn (k_q (l_c l))) ++ later /\ (out = [] -> later = []).
Proof.
  intros G Hh P F Lk U Wt M.
  destruct (watched_chain high low gw n _ _ _ _ _ _ _ _ _ _ Wt [] eq_refl) as (R & bs & ans & x & fss & C & D & I & Pk & O). cbn [app] in R, I, O.
  change (s_done (l_s (linit n)) ++ x) with x in D. subst x.
  destruct (client_frames high low n es l bs inn R Lk U I) as (Lb & Bs).
  assert (Mw : made (firstn (length bs) (started es)) (firstn (length bs) cs)).
  { unfold made in *. rewrite <- (firstn_skipn (length bs) (started es)) in M. apply Forall2_app_inv_l in M as (c1 & c2 & M1 & M2 & ->).
    pose proof (SerialThms.forall2_length _ _ _ M1) as Lf. rewrite firstn_length in Lf. rewrite firstn_firstn_app by lia. rewrite (firstn_all2 c1) by lia. exact M1. }
  assert (Fok : Forall call_ok (firstn (length bs) cs)) by (rewrite <- (firstn_skipn (length bs) cs) in F; apply Forall_app in F as (F & _); exact F).
  destruct (chain_story gw G _ _ _ _ _ C _ _ Hh P Mw Fok Bs) as (log & hd & St & Di & Sn & Al & Ea & Sm).
  rewrite Ea in O. destruct (client_late high low n es l cs bs inn fss out hd R Lk U M I Pk O Sm) as (Jc & K).
  assert (Mc : length (started es) = length cs) by exact (SerialThms.forall2_length _ _ _ M).
  assert (Lh : length hd = length bs) by (pose proof (SerialThms.forall2_length _ _ _ Di) as X; rewrite firstn_length in X; lia).
  exists (length bs), log, (map fst hd).
  split; [exact St|]. split; [lia|]. split; [rewrite <- Lh, <- (map_length snd hd), Sn, map_length; reflexivity|]. split; [rewrite map_length; exact Lh|]. split; [exact Al|].
  split. { rewrite <- Sn, combine_maps. replace (map (fun x => (fst x, snd x)) hd) with hd; [exact Di|]. clear. induction hd as [|[] hd IH]; cbn; congruence. }
  split; [exact Jc|exact K].
Qed.

(** ** Commands: the verdicts lag behind *)

Lemma command_takes ps ms rs : takes ps ms rs -> Forall (eq PCommand) ps -> answered rs = map verdict ms.
Proof.
  induction 1 as [|p a r ps ms rs W T IH|p a ps ms rs W T IH]; intros F; [reflexivity| |]; inversion F; subst.
  - unfold answered in *. cbn [filter]. inversion W as [|m Nm| |]; subst; cbn [timed_out negb app map]; rewrite IH by assumption; f_equal. destruct m; try reflexivity. congruence.
  - inversion W; subst. unfold answered in *. cbn [filter timed_out negb app map]. auto.
Qed.

Lemma command_heard ks : forall ans, dialogue ks ans -> Forall (fun k => fst (snd k) = PCommand) ks -> map verdict (concat (map fst ans)) = map snd ans /\ length (concat (map fst ans)) = length ans.
Proof.
  intros ans D. induction D as [|k a ks ans W D IH]; intros F; [split; reflexivity|]. inversion F as [|? ? E F']; subst. rewrite E in W. destruct (IH F') as (A & B).
  cbn [map concat]. rewrite map_app, app_length, A, B. destruct a as [a r]. cbn [fst snd] in *. inversion W; subst; (split; [|reflexivity]); cbn [map app]; f_equal. destruct m; try reflexivity. congruence.
Qed.

Lemma made_commands ks cs : made ks cs -> Forall (fun c => asks c = false) cs -> Forall (fun k => fst (snd k) = PCommand) ks.
Proof.
  intros M. induction M as [|k c ks cs (o & _ & W & _) M IH]; intros F; [constructor|]. inversion F; subst. constructor; [|auto].
  destruct W; try congruence. discriminate.
Qed.

Lemma answered_nth rs : forall i r, nth_error rs i = Some r -> timed_out r = false -> nth_error (answered rs) (i - timeouts (firstn i rs)) = Some r /\ (timeouts (firstn i rs) <= i)%nat.
Proof.
  induction rs as [|x rs IH]; intros [|i] r E T; try discriminate.
  - injection E as ->. unfold answered. cbn [filter firstn]. rewrite T. split; [reflexivity|cbn; lia].
  - cbn [nth_error] in E. destruct (IH i r E T) as (A & B). cbn [firstn]. unfold timeouts, answered in *. cbn [filter]. destruct (timed_out x); cbn [negb length].
    + split; [exact A|lia].
    + rewrite Nat.sub_succ_l by exact B. split; [exact A|lia].
Qed.

Theorem late_commands gw high low n es l h h' inn out evs cs : gateway_ok gw -> house_ok h -> plain h -> Forall call_ok cs -> Forall (fun c => asks c = false) cs ->
  locked high low n es -> calm es -> watched gw high low (linit n) h [] [] es l h' inn out evs -> made (started es) cs ->
  exists j log, story gw h (firstn j cs) log evs h' /\ (j <= length cs)%nat /\ length log = j /\
    (inn = [] -> Forall (eq SIdle) (s_tasks (l_s l)) -> j = length cs) /\
    let rs := map snd (k_done (l_c l)) in
    map fst (k_done (l_c l)) = firstn (length rs) (map fst (started es)) /\ (length rs <= length cs <= length rs + 1)%nat /\
    (length (answered rs) + length (c_queue (q_conn (k_q (l_c l)))) <= j)%nat /\ (out = [] -> (length (answered rs) + length (c_queue (q_conn (k_q (l_c l)))) = j)%nat) /\
    answered rs = firstn (length (answered rs)) (map snd log) /\
    forall i r, nth_error rs i = Some r -> timed_out r = false ->
      (timeouts (firstn i rs) <= i)%nat /\ nth_error (map snd log) (i - timeouts (firstn i rs)) = Some r.
Proof.
  intros G Hh P F Fc Lk U Wt M.
  destruct (late_story gw high low n es l h h' inn out evs cs G Hh P F Lk U Wt M) as (j & log & heard & St & Lj & Ll & Lh & _ & Di & Jc & k & stream & read & later & Lk1 & _ & K1 & K2 & _ & K4 & K5 & K6 & K7).
  pose proof (made_commands _ _ M Fc) as Pc.
  assert (Mc : length (started es) = length cs) by exact (SerialThms.forall2_length _ _ _ M).
  assert (Rn : read = []).
  { destruct (nth_error (started es) k) as [c|] eqn:E.
    - apply (K4 c eq_refl). rewrite Forall_forall in Pc. apply Pc. eapply nth_error_In, E.
    - apply K5. apply nth_error_None in E. lia. }
  subst read. cbn [app] in K6.
  assert (Ps : forall q, Forall (fun k => fst (snd k) = PCommand) (firstn q (started es))) by (intros q; rewrite <- (firstn_skipn q (started es)) in Pc; apply Forall_app in Pc; apply Pc).
  pose proof (command_takes _ _ _ K2) as An. rewrite Forall_map in An. specialize (An (Forall_impl _ (fun a H => eq_sym H) (Ps k))).
  destruct (command_heard _ _ Di (Ps j)) as (Hv & Hl).
  assert (Cf : map fst (combine heard (map snd log)) = heard).
  { clear - Ll Lh. assert (L : length heard = length (map snd log)) by (rewrite map_length; congruence). revert L. generalize (map snd log). clear. induction heard as [|x heard IH]; intros [|y l] E; try discriminate; [reflexivity|]. cbn. f_equal. apply IH. cbn in E. congruence. }
  assert (Cs : map snd (combine heard (map snd log)) = map snd log).
  { clear - Ll Lh. assert (L : length heard = length (map snd log)) by (rewrite map_length; congruence). revert L. generalize (map snd log). clear. induction heard as [|x heard IH]; intros [|y l] E; try discriminate; [reflexivity|]. cbn. f_equal. apply IH. cbn in E. congruence. }
  rewrite Cf, Cs in Hv. rewrite Cf, combine_length, map_length, Lh, Ll, Nat.min_id in Hl.
  assert (La : length (answered (map snd (k_done (l_c l)))) = length stream) by (rewrite An, map_length; reflexivity).
  assert (Lrs : length (map snd (k_done (l_c l))) = k).
  { rewrite map_length, <- (map_length fst), K1, firstn_length, map_length. lia. }
  exists j, log. split; [exact St|]. split; [exact Lj|]. split; [exact Ll|]. split; [exact Jc|]. cbv zeta. rewrite Lrs.
  split; [exact K1|]. split; [lia|].
  assert (Ls : (length stream + (length (c_queue (q_conn (k_q (l_c l)))) + length later) = j)%nat) by (rewrite <- Hl, K6, !app_length; reflexivity).
  split; [lia|]. split; [intros E; rewrite (K7 E) in Ls; cbn in Ls; lia|].
  assert (Ap : answered (map snd (k_done (l_c l))) = firstn (length (answered (map snd (k_done (l_c l))))) (map snd log)).
  { rewrite La, <- Hv, K6, map_app, An. rewrite <- (map_length verdict stream). rewrite firstn_firstn_app by reflexivity. rewrite firstn_all. reflexivity. }
  split; [exact Ap|]. intros i r E T. destruct (answered_nth _ i r E T) as (A1 & A2). split; [exact A2|]. rewrite Ap in A1.
  revert A1. generalize (length (answered (map snd (k_done (l_c l))))), (map snd log), (i - timeouts (firstn i (map snd (k_done (l_c l)))))%nat. clear.
  intros q ys. revert q. induction ys as [|y ys IH]; intros [|q] [|i] E; try discriminate; [exact E|]. cbn in *. eapply IH, E.
Qed.
