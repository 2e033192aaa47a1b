(** * Connections that are lost: proofs *)
From Coq Require Import String List NArith ZArith Bool Lia.
From Verif Require Import PyStr Tags Messages MessageFacts SpecMsg SpecTag SpecProto ProtoThms Protocol Queue QueueThms Sender SenderThms IO Client SpecItem Items
  Conc SpecConc ConcThms SpecSingle SingleThms SpecSerial SerialThms SpecHouse HouseThms HouseThms2 SpecCrash CrashThms SpecTogether SerialThms2 TogetherThms Line SpecLine LineThms LineThms2 LineThms3
  SpecCrowd CrowdThms SpecLate LateThms SpecAgain AgainThms SpecLoss.
Import ListNotations.
Open Scope list_scope.

(** ** Parts of a list *)

Lemma combine_same_app {A B} (a : list A) (b : list B) : length a = length b -> forall c d, combine (a ++ c) (b ++ d) = combine a b ++ combine c d.
Proof. revert b. induction a as [|x a IH]; intros [|y b] E c d; try discriminate; [reflexivity|]. cbn. f_equal. apply IH. cbn in E. congruence. Qed.
Lemma among_app {A} ok a b (x y : list A) : length x = length a -> among ok (a ++ b) (x ++ y) = among ok a x ++ among ok b y.
Proof. intros E. unfold among. rewrite combine_same_app by exact E. rewrite filter_app, map_app. reflexivity. Qed.
Lemma among_nil {A} ok os : among ok os (@nil A) = [].
Proof. reflexivity. Qed.
Lemma among_nil' {A} ok (xs : list A) : among ok [] xs = [].
Proof. destruct xs; reflexivity. Qed.
Lemma among_cons {A} ok o os (x : A) xs : among ok (o :: os) (x :: xs) = if ok o then x :: among ok os xs else among ok os xs.
Proof. unfold among. cbn [combine filter snd]. destruct (ok o); reflexivity. Qed.
Lemma among_map {A B} (f : A -> B) ok os : forall xs, among ok os (map f xs) = map f (among ok os xs).
Proof. induction os as [|o os IH]; intros [|x xs]; try reflexivity. cbn [map]. rewrite !among_cons, IH. destruct (ok o); reflexivity. Qed.
Lemma among_length {A} ok os : forall xs : list A, (length os <= length xs)%nat -> length (among ok os xs) = length (filter ok os).
Proof. induction os as [|o os IH]; intros [|x xs] L; cbn in L; try lia; try reflexivity. rewrite among_cons. cbn [filter]. destruct (ok o); cbn [length]; rewrite IH by lia; reflexivity. Qed.
Lemma among_forall2 {A B} (R : A -> B -> Prop) ok os : forall xs ys, Forall2 R xs ys -> Forall2 R (among ok os xs) (among ok os ys).
Proof. induction os as [|o os IH]; intros xs ys F; [rewrite !among_nil'; constructor|]. destruct F; [constructor|]. rewrite !among_cons. destruct (ok o); [constructor|]; auto. Qed.
Lemma among_forall {A} (P : A -> Prop) ok os : forall xs, Forall P xs -> Forall P (among ok os xs).
Proof. induction os as [|o os IH]; intros xs F; [rewrite among_nil'; constructor|]. destruct F; [constructor|]. rewrite among_cons. destruct (ok o); [constructor|]; auto. Qed.
Lemma among_none {A} ok os : Forall (fun o => ok o = false) os -> forall xs : list A, among ok os xs = [].
Proof. intros F. induction F as [|o os Ho F IH]; intros [|x xs]; try reflexivity. rewrite among_cons, Ho. apply IH. Qed.
Lemma among_same {A} os : Forall (fun o => o = OWritten \/ o = OCancelled) os -> forall xs : list A, among went_on os xs = among went_out os xs.
Proof. intros F. induction F as [|o os [-> | ->] F IH]; intros [|x xs]; try reflexivity; rewrite !among_cons; cbn [went_on went_out]; rewrite IH; reflexivity. Qed.
Lemma among_more {A} ok os : forall (xs ys : list A), (length os <= length xs)%nat -> among ok os (xs ++ ys) = among ok os xs.
Proof. induction os as [|o os IH]; intros [|x xs] ys L; cbn in L; try lia; try (rewrite !among_nil'; reflexivity). cbn [app]. rewrite !among_cons, IH by lia. reflexivity. Qed.

(** ** Locked runs, lost or not *)

(** Before the connection is lost messages are written or cancelled, afterwards
    dropped or cancelled. *)
Definition ordered (lost : bool) (os : list outcome) : Prop := exists a b, os = a ++ b /\
  Forall (fun o => o = OWritten \/ o = OCancelled) a /\ Forall (fun o => o = ODropped \/ o = OCancelled) b /\ (lost = false -> b = []).

Lemma ordered_snoc lost os o : ordered lost os -> (o = if lost then ODropped else OWritten) \/ o = OCancelled -> ordered lost (os ++ [o]).
Proof.
  intros (a & b & -> & A & B & L) O. destruct lost.
  - exists a, (b ++ [o]). rewrite app_assoc. split; [reflexivity|]. split; [exact A|]. split; [|discriminate]. apply Forall_app. auto.
  - rewrite (L eq_refl) in *. exists (a ++ [o]), []. rewrite !app_nil_r. split; [reflexivity|]. split; [apply Forall_app; auto|]. split; [constructor|reflexivity].
Qed.
Lemma ordered_lost lost os : ordered lost os -> ordered true os.
Proof. intros (a & b & E & A & B & L). exists a, b. repeat (split; [assumption|]). discriminate. Qed.

Lemma ordered_prefix {A} lost os (xs : list A) : ordered lost os -> length xs = length os -> exists more, among went_on os xs = among went_out os xs ++ more.
Proof.
  intros (a & b & -> & Fa & Fb & _) L. rewrite app_length in L. assert (E : xs = firstn (length a) xs ++ skipn (length a) xs) by (symmetry; apply firstn_skipn).
  rewrite E, !among_app by (rewrite firstn_length; lia). rewrite (among_same a Fa). rewrite (among_none went_out b); [|eapply Forall_impl; [|exact Fb]; intros o [-> | ->]; reflexivity].
  rewrite app_nil_r. eauto.
Qed.

Section water.
Variables high low : nat.
Notation lrun := (lrun high low).
Notation lstep := (lstep high low).

Definition under_any (n : nat) (es : list levent) (l : lstate) : Prop := exists ks ds w,
  crun (cinit n) ks = Some (l_c l) /\ received_packets ks = packets es /\ serial n ks /\
  ds ++ w = started es /\ dozing l w /\ map who_wrote ds = map as_frame (map fst (s_done (l_s l))) /\
  all_calls ks = among went_on (outcomes l) ds /\ ordered (s_lost (l_s l)) (outcomes l) /\ length (l_next l) = length (s_tasks (l_s l)).

Lemma tried_any n es e l l' i p m ks ds : crun (cinit n) ks = Some (l_c l) -> received_packets ks = packets (es ++ [e]) -> serial n ks ->
  ds ++ [(i, (p, msg_str m))] = started (es ++ [e]) -> map who_wrote ds = map as_frame (map fst (s_done (l_s l))) -> all_calls ks = among went_on (outcomes l) ds ->
  ordered (s_lost (l_s l)) (outcomes l) -> length (l_next l) = length (s_tasks (l_s l)) ->
  (i < length (s_tasks (l_s l)))%nat -> (forall j t, nth_error (s_tasks (l_s l)) j = Some t -> j <> i -> t = SIdle) -> Forall (eq PIdle) (k_pc (l_c l)) ->
  tried i p m l l' -> under_any n (es ++ [e]) l'.
Proof.
  intros C P S A W K Od N Li O I [A1 A2 A3 A4 A5|A1 A2 A3 A4 A5].
  - exists ks, ds, [(i, (p, msg_str m))]. unfold outcomes in *. rewrite A4, A2, A3. repeat (split; [assumption|]). split.
    { apply Dz_one; rewrite ?A1, ?A5, ?A4; [apply setnth_same, Li|apply setnth_same; congruence| |exact I].
      intros j t Hj Nj. rewrite setnth_other in Hj by congruence. eapply O; eassumption. }
    repeat (split; [assumption|]). rewrite A5, A1, !setnth_length. exact N.
  - exists (ks ++ [KCall i p (msg_str m)]), (ds ++ [(i, (p, msg_str m))]), []. rewrite app_nil_r.
    split; [eapply crun_join; [exact C|apply crun_one, A4]|]. split; [rewrite received_app; cbn [received_packets]; rewrite app_nil_r; exact P|].
    split; [eapply serial_snoc; [exact S|exact C|auto]|]. split; [exact A|].
    split; [apply Dz_none; rewrite A1; apply all_idle_set, O|].
    assert (Ld : length ds = length (outcomes l)) by (unfold outcomes; rewrite map_length, <- (map_length who_wrote), W, !map_length; reflexivity).
    unfold outcomes in *. rewrite A2, !map_app, A3. cbn [map fst snd].
    split; [f_equal; exact W|]. split; [|split; [apply ordered_snoc; auto|rewrite A5, A1, !setnth_length; exact N]].
    rewrite all_calls_app, K, among_app by exact Ld. f_equal. destruct (s_lost (l_s l)); reflexivity.
Qed.

Lemma lock_any n es : forall l, lrun (linit n) es = Some l -> locked high low n es -> encodable es -> under_any n es l.
Proof.
  induction es as [|e es IH] using rev_ind; intros l R Lk U.
  - cbn in R. injection R as <-. exists [], [], []. split; [reflexivity|]. split; [reflexivity|]. split; [intros pre i p b post s E; destruct pre; discriminate|].
    split; [reflexivity|]. split; [apply Dz_none; cbn; apply Forall_forall; intros x Hx; symmetry; exact (repeat_spec _ _ _ Hx)|].
    split; [reflexivity|]. split; [reflexivity|]. split; [exists [], []; repeat split; constructor|]. cbn. rewrite !repeat_length. reflexivity.
  - destruct (lrun_app high low es [e] _ _ R) as (l0 & R0 & R1). cbn [Line.lrun] in R1. destruct (lstep l0 e) as [l1|] eqn:E; [|discriminate]. injection R1 as ->.
    unfold encodable in U. apply Forall_app in U as (U0 & U1). inversion U1 as [|? ? Ue _]; subst.
    destruct (IH l0 R0 (locked_app _ _ _ _ _ Lk) U0) as (ks & ds & w & C & P & S & A & Dz & W & Kc & Od & N).
    destruct (sides high low n es l0 R0) as (Sr & _). pose proof (b_sleep _ (bytes_reachable high low n _ _ Sr)) as As.
    pose proof (lstep_shape high low l0 e l As E) as H.
    assert (K : forall i p m k, e = LCall i p m k -> Forall (eq SIdle) (s_tasks (l_s l0)) /\ Forall (eq PIdle) (k_pc (l_c l0)) /\ w = []).
    { intros i p m k ->. destruct (Lk es i p m k [] l0 eq_refl R0) as (K1 & K2). split; [exact K1|]. split; [exact K2|].
      destruct Dz as [|i' p' m' Hs _ _ _]; [reflexivity|]. rewrite Forall_forall in K1. pose proof (K1 _ (nth_error_In _ _ Hs)) as X. discriminate X. }
    destruct H as [i p m k l' Ti Pi Hp B Es Tr|i p m k x l' Ti B Es A1 A2 A3 A4|i k m p l' Ti Ni Es Tr|i m l' Es A1 A2|k l' Es A1 A2 A3 A4 A5|l' Es A1 A2 A3|e ke l' Ck Sk Nk Kk].
    + destruct (K _ _ _ _ eq_refl) as (K1 & K2 & ->). rewrite app_nil_r in A.
      eapply (tried_any n es _ l0 l' i p m ks ds); try eassumption.
      * rewrite packets_app, P. cbn. rewrite app_nil_r. reflexivity.
      * rewrite started_app, A. reflexivity.
      * apply nth_error_Some. congruence.
      * intros j t Hj _. rewrite Forall_forall in K1. symmetry. apply K1. eapply nth_error_In, Hj.
    + congruence.
    + destruct Dz as [I|i' p' m' Hs Hn O I].
      { rewrite Forall_forall in I. pose proof (I _ (nth_error_In _ _ Ti)) as X. discriminate X. }
      assert (i = i') by (destruct (Nat.eq_dec i i') as [X|X]; [exact X|]; pose proof (O _ _ Ti X) as Y; discriminate Y). subst i'.
      rewrite Hs in Ti. injection Ti as <-. rewrite Hn in Ni. injection Ni as <-.
      eapply (tried_any n es _ l0 l' i p' m' ks ds); try eassumption.
      * rewrite packets_app, P. cbn. rewrite app_nil_r. reflexivity.
      * rewrite started_app. cbn [started]. rewrite app_nil_r. exact A.
      * apply nth_error_Some. congruence.
    + (* a call is cancelled in its sleep *)
      cbn [Line.lstep] in E. unfold lift_s in E. destruct (sstep high low (l_s l0) (ECancelSend i)) as [s|] eqn:E0; [|discriminate]. injection E as <-. cbn [Sender.sstep] in E0.
      destruct (nth_error (s_tasks (l_s l0)) i) as [[|m0 data]|] eqn:Ti; try discriminate. injection E0 as <-. clear Es A1 A2.
      destruct Dz as [I|i' p' m' Hs Hn O I].
      { rewrite Forall_forall in I. pose proof (I _ (nth_error_In _ _ Ti)) as X. discriminate X. }
      assert (i = i') by (destruct (Nat.eq_dec i i') as [X|X]; [exact X|]; pose proof (O _ _ Ti X) as Y; discriminate Y). subst i'.
      rewrite Hs in Ti. injection Ti as <- <-.
      exists ks, (ds ++ [(i, (p', msg_str m'))]), []. rewrite packets_app, started_app. cbn [packets started only_s l_c l_s l_next finish s_done s_lost s_tasks]. rewrite !app_nil_r.
      split; [exact C|]. split; [exact P|]. split; [exact S|]. split; [exact A|].
      split; [apply Dz_none; cbn [only_s l_s finish s_tasks]; apply all_idle_set, O|].
      assert (Ld : length ds = length (outcomes l0)) by (unfold outcomes; rewrite map_length, <- (map_length who_wrote), W, !map_length; reflexivity).
      unfold outcomes in *. cbn [only_s l_s finish s_done]. rewrite !map_app. cbn [map fst snd]. split; [f_equal; exact W|].
      split; [rewrite among_app by exact Ld; rewrite Kc; cbn; rewrite app_nil_r; reflexivity|]. split; [apply ordered_snoc; auto|].
      rewrite setnth_length. exact N.
    + exists ks, ds, w. unfold outcomes in *. rewrite A4, A2, A3, packets_app, started_app. cbn [packets started]. rewrite !app_nil_r. repeat (split; [assumption|]).
      split; [|repeat (split; [assumption|]); congruence].
      destruct Dz as [I|i p m Hs Hn O I]; [apply Dz_none; congruence|apply Dz_one; rewrite ?A1, ?A5, ?A4; assumption].
    + cbn [Line.lstep] in E. unfold lift_s in E. destruct (sstep high low (l_s l0) ELost) as [s|] eqn:E0; [|discriminate]. injection E as <-. cbn [Sender.sstep] in E0.
      destruct (s_lost (l_s l0)) eqn:Lo; [discriminate|]. injection E0 as <-. clear Es A1 A2 A3.
      exists ks, ds, w. unfold outcomes in *. rewrite packets_app, started_app. cbn [packets started only_s l_c l_s l_next s_done s_lost s_tasks]. rewrite !app_nil_r.
      repeat (split; [assumption|]). split.
      { destruct Dz as [I|i p m Hs Hn O I]; [apply Dz_none; exact I|apply Dz_one; assumption]. }
      repeat (split; [assumption|]). split; [eapply ordered_lost, Od|exact N].
    + assert (Nc : forall i p b, ke <> KCall i p b) by (intros i p b ->; destruct Kk as [X|[(j & X)|[(j & X)|(d & X)]]]; discriminate X).
      exists (ks ++ [ke]), ds, w. unfold outcomes in *. rewrite Sk, Nk. split; [eapply crun_join; [exact C|apply crun_one, Ck]|].
      assert (X1 : received_packets [ke] = packets [e]) by (destruct Kk as [X|[(j & X)|[(j & X)|(d & X)]]]; injection X as -> ->; reflexivity).
      assert (X2 : all_calls [ke] = []) by (destruct Kk as [X|[(j & X)|[(j & X)|(d & X)]]]; injection X as -> ->; reflexivity).
      assert (X3 : started [e] = []) by (destruct Kk as [X|[(j & X)|[(j & X)|(d & X)]]]; injection X as -> ->; reflexivity).
      split; [rewrite received_app, packets_app, P, X1; reflexivity|].
      split; [eapply serial_snoc; [exact S|exact C|]; intros i p b X; destruct (Nc i p b X)|].
      rewrite all_calls_app, X2, app_nil_r, started_app, X3, app_nil_r. split; [exact A|].
      split; [|repeat (split; [assumption|]); assumption].
      destruct Dz as [I|i p m Hs Hn O I]; [apply Dz_none; rewrite Sk; exact I|apply Dz_one; rewrite ?Sk, ?Nk; try assumption]. eapply idle_step; eassumption.
Qed.
End water.

(** ** One client's side *)

Lemma frames_among (x : list ((nat * msg) * outcome)) : forall ds, map who_wrote ds = map as_frame (map fst x) -> frames_done x = map frame_of (among went_out (map snd x) ds).
Proof.
  induction x as [|[[i m] o] x IH]; intros [|k ds] E; try discriminate; [reflexivity|]. cbn [map fst snd] in *. injection E as E1 E2 E3. specialize (IH ds E3).
  rewrite among_cons. unfold frames_done in *. cbn [filter snd]. destruct o; cbn [went_out map fst snd]; rewrite IH; try reflexivity. f_equal. symmetry. exact E2.
Qed.

(** What the calls read, given what was read of. *)
Lemma reads_late n ks c fss out (hd : list (list msg * res unit)) : crun (cinit n) ks = Some c -> serial n ks -> received_packets ks = map (@concat N) fss ->
  map msg_str (concat (map fst hd)) = concat fss ++ out -> Forall streamable (concat (map fst hd)) ->
  exists k stream read later, (k <= length (all_calls ks) <= k + 1)%nat /\ (Forall (eq PIdle) (k_pc c) -> k = length (all_calls ks) /\ read = []) /\
    map fst (k_done c) = firstn k (map fst (all_calls ks)) /\
    takes (map (fun c => fst (snd c)) (firstn k (all_calls ks))) stream (map snd (k_done c)) /\
    map snd (q_out (k_q c)) = stream ++ read /\
    concat (map fst hd) = stream ++ read ++ c_queue (q_conn (k_q c)) ++ later /\ (out = [] -> later = []).
Proof.
  intros Rk S Pr O Sm. symmetry in O. destruct (split_groups fss out _ O) as (pks & later & Ef & Eo & Em).
  rewrite Em in Sm. apply Forall_app in Sm as (Sm & _).
  assert (Sp : Forall (Forall streamable) pks).
  { clear - Sm. induction pks as [|p pks IH]; cbn [concat] in Sm; constructor; apply Forall_app in Sm as (X & Y); auto. }
  assert (Q0 : SpecConc.answers ks = concat pks).
  { unfold SpecConc.answers, fresh. rewrite Pr, Ef, map_map. change (fun x => concat (map msg_str x)) with texts. rewrite feed_texts by assumption. reflexivity. }
  destruct (dinv_run n ks c Rk S) as (ds & pend & read & Cd & Kd & Ko & Fe & B).
  pose proof (all_views n ks c Rk) as V. rewrite Q0 in V.
  pose proof (called_busy n ks _ Rk) as Nb. rewrite Cd in Nb. apply Forall_app in Nb as (Nb & Nb2).
  assert (Lc : (length ds + length pend = length (all_calls ks))%nat) by (rewrite Cd, !app_length, map_length; reflexivity).
  assert (Ip : Forall (eq PIdle) (k_pc c) -> pend = []).
  { intros Id. destruct B as [(-> & _)|(i & p & b & _ & Np & Pi & _)]; [reflexivity|]. rewrite Forall_forall in Id. exfalso. apply Np. symmetry. apply Id. eapply nth_error_In, Pi. }
  assert (Lw1 : (length pend <= 1)%nat) by (destruct B as [(-> & _)|(i & p & b & -> & _)]; cbn; lia).
  assert (Fs : map fst ds = firstn (length ds) (all_calls ks)).
  { rewrite Cd. rewrite firstn_firstn_app by (rewrite map_length; reflexivity). rewrite firstn_all2 by (rewrite map_length; reflexivity). reflexivity. }
  assert (Rd : pend = [] -> read = []) by (intros ->; destruct B as [(_ & -> & _)|(i & p & b & X & _)]; [reflexivity|discriminate X]).
  assert (So : map snd (so_far pend read) = read).
  { destruct pend as [|[i y] pend]; cbn [so_far]; [rewrite Rd by reflexivity; reflexivity|]. rewrite map_map. cbn [snd]. apply map_id. }
  exists (length ds), (concat (map (fun d : ended => fst (snd d)) ds)), read, later. unfold ended in *.
  split; [lia|]. split. { intros Id. rewrite (Ip Id) in Lc. cbn in Lc. split; [lia|]. apply Rd, Ip, Id. }
  split. { rewrite Kd, map_map, firstn_map, <- Fs, map_map. reflexivity. }
  split. { rewrite <- Fs, map_map, Kd, map_map. apply ends_takes; [|eapply Forall_impl; [|exact Fe]; cbn; tauto].
    rewrite Forall_map in Nb. exact Nb. }
  split. { rewrite Ko, map_app, snd_reads, So. reflexivity. }
  split. { rewrite Em, <- V, Ko, map_app, snd_reads, So, <- !app_assoc. reflexivity. }
  intros ->. destruct later; [reflexivity|discriminate Eo].
Qed.

Lemma client_any high low n es l : lrun high low (linit n) es = Some l -> locked high low n es -> encodable es ->
  (length (outcomes l) <= length (started es) <= length (outcomes l) + 1)%nat /\ (Forall (eq SIdle) (s_tasks (l_s l)) -> length (outcomes l) = length (started es)) /\
  ordered (s_lost (l_s l)) (outcomes l) /\ frames_done (s_done (l_s l)) = map frame_of (among went_out (outcomes l) (started es)) /\
  (exists more, among went_on (outcomes l) (started es) = among went_out (outcomes l) (started es) ++ more) /\
  exists ks, crun (cinit n) ks = Some (l_c l) /\ received_packets ks = packets es /\ serial n ks /\ all_calls ks = among went_on (outcomes l) (started es).
Proof.
  intros R Lk U. destruct (lock_any high low n es l R Lk U) as (ks & ds & w & C & P & S & A & Dz & W & Kc & Od & N).
  assert (Ld : length ds = length (outcomes l)) by (unfold outcomes; rewrite map_length, <- (map_length who_wrote), W, !map_length; reflexivity).
  assert (Lw : (length w <= 1)%nat) by (destruct Dz; cbn; lia).
  rewrite <- A, app_length. split; [lia|]. split.
  { intros Is. destruct Dz as [_|i p m Hs _ _ _]; [cbn; lia|]. rewrite Forall_forall in Is. pose proof (Is _ (nth_error_In _ _ Hs)) as Y. discriminate Y. }
  split; [exact Od|]. rewrite !among_more by lia. split; [apply frames_among, W|]. split; [eapply ordered_prefix; eassumption|]. exists ks. auto.
Qed.

(** ** All clients *)

Theorem any_story gw high low ns es ord ls h h' inn out evs css : gateway_ok gw -> house_ok h -> plain h ->
  crowd gw high low (fun j => linit (ns j)) h (fun _ => []) (fun _ => []) es ord ls h' inn out evs ->
  (forall j, behaves_any high low ns es css j) ->
  exists cs log heard, story gw h cs log evs h' /\ length cs = length ord /\ length log = length ord /\ length heard = length ord /\
    Forall2 (fun c x => alone c (fst x) (snd x)) cs (combine heard log) /\
    forall j, let sent := among went_out (outcomes (ls j)) (css j) in
      (length (outcomes (ls j)) <= length (css j) <= length (outcomes (ls j)) + 1)%nat /\ (Forall (eq SIdle) (s_tasks (l_s (ls j))) -> length (outcomes (ls j)) = length (css j)) /\
      (count j ord <= length sent)%nat /\ mine j ord cs = firstn (count j ord) sent /\ (inn j = [] -> count j ord = length sent) /\
      told_any es j ord (ls j) (out j) log heard /\
      forall i r, in_time (map snd (k_done (l_c (ls j)))) i r -> nth_error (map snd (mine j ord log)) i = Some r /\
        exists more, map snd (q_out (k_q (l_c (ls j)))) = concat (firstn (Datatypes.S i) (mine j ord heard)) ++ more.
Proof.
  intros G Hh P C H.
  destruct (crowd_served high low gw ns _ _ _ _ _ _ _ _ _ _ _ C (fun _ => []) (fun _ => eq_refl)) as (bs & ans & Sd & Lb & La & J). cbn [app] in J.
  assert (Lm : forall j, length (mine j ord bs) = count j ord) by (intros j; apply mine_length, Lb).
  assert (Cl : forall j, length (started (of_client j es)) = length (css j)) by (intros j; destruct (H j) as (_ & _ & _ & M); exact (SerialThms.forall2_length _ _ _ M)).
  assert (Fr : forall j, (count j ord <= length (among went_out (outcomes (ls j)) (started (of_client j es))))%nat /\
    mine j ord bs = map frame_of (firstn (count j ord) (among went_out (outcomes (ls j)) (started (of_client j es)))) /\
    (inn j = [] -> count j ord = length (among went_out (outcomes (ls j)) (started (of_client j es))))).
  { intros j. destruct (J j) as (R & x & fss & D & I & _). cbn in D. subst x. destruct (H j) as (_ & Lk & U & _).
    destruct (client_any high low (ns j) _ _ R Lk U) as (_ & _ & _ & E & _). rewrite E in I. pose proof (f_equal (@length _) I) as L. rewrite map_length, app_length, (Lm j) in L.
    split; [lia|]. split; [|intros X; rewrite X in L; cbn in L; lia]. apply (f_equal (firstn (count j ord))) in I.
    rewrite firstn_firstn_app in I by (rewrite (Lm j); lia). rewrite <- (Lm j), firstn_all, (Lm j), firstn_map in I. symmetry. exact I. }
  assert (Cs : forall j, length (among went_out (outcomes (ls j)) (started (of_client j es))) = length (among went_out (outcomes (ls j)) (css j))).
  { intros j. destruct (J j) as (R & _). destruct (H j) as (_ & Lk & U & _). destruct (client_any high low (ns j) _ _ R Lk U) as ((L & _) & _).
    rewrite !among_length; [reflexivity|rewrite <- Cl; exact L|exact L]. }
  destruct (deal_mine ord (fun j => among went_out (outcomes (ls j)) (started (of_client j es))) (fun j => proj1 (Fr j))) as (Ld & Md).
  destruct (deal_mine ord (fun j => among went_out (outcomes (ls j)) (css j))) as (Lc & Mc); [intros j; rewrite <- Cs; apply Fr|].
  set (ks := deal ord (fun j => among went_out (outcomes (ls j)) (started (of_client j es)))) in *. set (cs := deal ord (fun j => among went_out (outcomes (ls j)) (css j))) in *.
  assert (Eb : bs = map frame_of ks).
  { apply (mine_ext ord); [exact Lb|rewrite map_length; exact Ld|]. intros j. rewrite mine_map, Md. apply Fr. }
  assert (Mk : made ks cs) by (apply deal_forall2; intros j; apply among_forall2; apply H).
  assert (Fk : Forall call_ok cs) by (apply deal_forall; intros j; apply among_forall; apply H).
  destruct (served_story gw G _ _ _ _ _ Sd ks cs Hh P Mk Fk Eb) as (log & hd & St & Di & Sn & Al & Ea & Sm).
  assert (Lh : length hd = length ord) by (rewrite <- La, Ea, map_length; reflexivity).
  assert (Ll : length log = length ord) by (rewrite <- Lh, <- (map_length snd hd), Sn, map_length; reflexivity).
  exists cs, log, (map fst hd). split; [exact St|]. split; [exact Lc|]. split; [exact Ll|]. split; [rewrite map_length; exact Lh|]. split; [exact Al|].
  intros j. cbv zeta. destruct (J j) as (R & x & fss & D & I & Pk & O). cbn in D. subst x. destruct (H j) as (_ & Lk & U & M).
  destruct (client_any high low (ns j) _ _ R Lk U) as (L1 & L2 & Od & _ & (more & Em) & ks' & Rk & Pr & Se & Ac). rewrite Cl in L1, L2.
  split; [exact L1|]. split; [exact L2|]. split; [rewrite <- Cs; apply Fr|]. split; [apply Mc|]. split; [rewrite <- Cs; apply Fr|].
  pose proof (mine_forall2 _ j ord _ _ Di) as Dj. rewrite Md in Dj.
  assert (Dk : dialogue (firstn (count j ord) (among went_on (outcomes (ls j)) (started (of_client j es)))) (mine j ord hd)).
  { rewrite Em, firstn_firstn_app by apply Fr. exact Dj. }
  assert (Ej : map snd (mine j ord hd) = map snd (mine j ord log)) by (rewrite <- !mine_map, Sn; reflexivity).
  assert (Eh : combine (map fst (mine j ord hd)) (map snd (mine j ord log)) = mine j ord hd).
  { rewrite <- Ej, combine_maps. generalize (mine j ord hd). intros l. induction l as [|[] l IH]; cbn; congruence. }
  rewrite <- Pr in Pk.
  destruct (reads_late (ns j) ks' (l_c (ls j)) fss (out j) (mine j ord hd) Rk Se Pk) as (k & stream & read & later & K1 & K2 & K3 & K4 & K5 & K8 & K9).
  - rewrite Ea, mine_map in O. cbn [app] in O. rewrite <- O, concat_map, map_map. reflexivity.
  - apply Forall_forall. intros m Hm. apply in_concat in Hm as (ms & Hms & Hm). apply in_map_iff in Hms as (y & <- & Hy). apply mine_in in Hy.
    rewrite Forall_forall in Sm. pose proof (Sm y Hy) as X. rewrite Forall_forall in X. apply X, Hm.
  - rewrite Ac in *. split.
    + unfold told_any. cbv zeta. rewrite (mine_map fst), Eh. split; [exact Dk|]. exists k, stream, read, later. auto 10.
    + intros i r Ti. rewrite <- Ej, mine_map.
      destruct (takes_in_time _ _ _ K4 (among went_on (outcomes (ls j)) (started (of_client j es))) (mine j ord hd) (read ++ c_queue (q_conn (k_q (l_c (ls j)))) ++ later)) with (i := i) (r := r) as (A & mr & B);
        [|rewrite (mine_length j ord hd Lh); exact Dk|symmetry; exact K8|exact Ti|].
      * rewrite map_length, firstn_length, Nat.min_l by lia. reflexivity.
      * split; [exact A|]. exists (mr ++ read). rewrite K5, B, <- app_assoc. reflexivity.
Qed.

(** ** Time *)

Lemma any_before high low ns es1 es2 css j : behaves_any high low ns (es1 ++ es2) css j -> behaves_any high low ns es1 (first_calls es1 css) j.
Proof.
  intros (F & Lk & U & M). unfold behaves_any, first_calls. rewrite of_client_app in *. split.
  - rewrite <- (firstn_skipn (length (started (of_client j es1))) (css j)) in F. apply Forall_app in F. apply F.
  - split; [|split].
    + intros pre i p m k post l E R. eapply (Lk pre i p m k (post ++ of_client j es2)); [rewrite E, <- app_assoc; reflexivity|exact R].
    + apply Forall_app in U. apply U.
    + unfold made in *. rewrite CrowdThms.started_app in M. apply Forall2_app_inv_l in M as (l1 & l2 & M1 & M2 & ->).
      rewrite firstn_app, (SerialThms.forall2_length _ _ _ M1), firstn_all, Nat.sub_diag, firstn_O, app_nil_r. exact M1.
Qed.

Lemma crowd_runs gw high low ns es ord ls h h' inn out evs :
  crowd gw high low (fun j => linit (ns j)) h (fun _ => []) (fun _ => []) es ord ls h' inn out evs -> forall j, lrun high low (linit (ns j)) (of_client j es) = Some (ls j).
Proof.
  intros C j. destruct (crowd_served high low gw ns _ _ _ _ _ _ _ _ _ _ _ C (fun _ => []) (fun _ => eq_refl)) as (bs & ans & _ & _ & _ & J). cbn [app] in J. apply J.
Qed.

Lemma any_obeyed gw high low ns es ord ls h h' inn out evs css : gateway_ok gw -> house_ok h -> plain h ->
  crowd gw high low (fun j => linit (ns j)) h (fun _ => []) (fun _ => []) es ord ls h' inn out evs -> (forall j, behaves_any high low ns es css j) ->
  forall j, (length (outcomes (ls j)) <= length (started (of_client j es)))%nat /\ (count j ord <= length (filter went_out (outcomes (ls j))))%nat /\
    forall i r, in_time (map snd (k_done (l_c (ls j)))) i r -> (i < count j ord)%nat.
Proof.
  intros G Hh P C B j. destruct (any_story gw high low ns es ord ls h h' inn out evs css G Hh P C B) as (cs & log & heard & _ & _ & Ll & _ & _ & T).
  specialize (T j). cbv zeta in T. destruct T as (L1 & _ & L2 & _ & _ & _ & Tr). destruct (B j) as (_ & _ & _ & M). rewrite (SerialThms.forall2_length _ _ _ M).
  split; [apply L1|]. split; [rewrite among_length in L2 by apply L1; exact L2|].
  intros i r Hi. destruct (Tr i r Hi) as (Tr' & _). assert (X : (i < length (map snd (mine j ord log)))%nat) by (apply nth_error_Some; rewrite Tr'; discriminate).
  rewrite map_length, (mine_length j ord log Ll) in X. exact X.
Qed.

Lemma crowd_later gw high low ns es1 ord1 ls1 h h1 inn1 out1 evs1 es2 ord2 ls2 h2 inn2 out2 evs2 :
  crowd gw high low (fun j => linit (ns j)) h (fun _ => []) (fun _ => []) es1 ord1 ls1 h1 inn1 out1 evs1 ->
  crowd gw high low ls1 h1 inn1 out1 es2 ord2 ls2 h2 inn2 out2 evs2 -> forall j, exists x, outcomes (ls2 j) = outcomes (ls1 j) ++ x.
Proof.
  intros C1 C2 j. pose proof (crowd_runs _ _ _ _ _ _ _ _ _ _ _ _ C1) as R.
  destruct (crowd_served high low gw ns _ _ _ _ _ _ _ _ _ _ _ C2 (fun j => of_client j es1) R) as (bs & ans & _ & _ & _ & J).
  destruct (J j) as (_ & x & fss & D & _). exists (map snd x). unfold outcomes. rewrite D, map_app. reflexivity.
Qed.

Theorem any_order gw high low ns css es1 ord1 ls1 h h1 inn1 out1 evs1 es2 ord2 ls2 h2 inn2 out2 evs2 : gateway_ok gw -> house_ok h -> plain h ->
  crowd gw high low (fun j => linit (ns j)) h (fun _ => []) (fun _ => []) es1 ord1 ls1 h1 inn1 out1 evs1 ->
  crowd gw high low ls1 h1 inn1 out1 es2 ord2 ls2 h2 inn2 out2 evs2 ->
  (forall j, behaves_any high low ns (es1 ++ es2) css j) ->
  forall i j a b r, in_time (map snd (k_done (l_c (ls1 i)))) a r -> (length (started (of_client j es1)) <= b)%nat -> nth_error (outcomes (ls2 j)) b = Some OWritten ->
  exists p, turn i a (ord1 ++ ord2) = Some p /\ forall q, turn j (length (filter went_out (firstn b (outcomes (ls2 j))))) (ord1 ++ ord2) = Some q -> (p < q)%nat.
Proof.
  intros G Hh P C1 C2 B i j a b r La Lb Ow.
  pose proof (any_obeyed gw high low ns es1 ord1 ls1 h h1 inn1 out1 evs1 (first_calls es1 css) G Hh P C1 (fun x => any_before _ _ _ _ _ _ _ (B x))) as O.
  destruct (O i) as (_ & _ & Oi). specialize (Oi a r La). destruct (O j) as (Oj1 & Oj2 & _).
  destruct (turn_some i (ord1 ++ ord2) a) as (p & Tp); [rewrite count_app; lia|]. exists p. split; [exact Tp|]. intros q Tq.
  destruct (crowd_later _ _ _ _ _ _ _ _ _ _ _ _ _ _ _ _ _ _ _ C1 C2 j) as (x & Ex).
  assert (Y : (count j ord1 <= length (filter went_out (firstn b (outcomes (ls2 j)))))%nat).
  { rewrite Ex, firstn_app, firstn_all2 by lia. rewrite filter_app, app_length. lia. }
  pose proof (turn_split _ _ _ _ _ Tp) as Sp. pose proof (turn_split _ _ _ _ _ Tq) as Sq. lia.
Qed.

(** After a connection is lost, nothing more is sent over it. *)
Lemma lost_stays high low l e l' : lstep high low l e = Some l' -> s_lost (l_s l) = true -> asleep_ok (l_s l) ->
  s_lost (l_s l') = true /\ exists x, outcomes l' = outcomes l ++ x /\ Forall (fun o => went_out o = false) x.
Proof.
  intros E L As. pose proof (lstep_shape high low l e l' As E) as H. unfold outcomes.
  assert (T : forall i p m, tried i p m l l' -> s_lost (l_s l') = true /\ exists x, map snd (s_done (l_s l')) = map snd (s_done (l_s l)) ++ x /\ Forall (fun o => went_out o = false) x).
  { intros i p m [A1 A2 A3 A4 A5|A1 A2 A3 A4 A5].
    - split; [congruence|]. exists []. rewrite A2, app_nil_r. split; [reflexivity|constructor].
    - split; [congruence|]. exists [ODropped]. rewrite A2, L, map_app. split; [reflexivity|repeat constructor]. }
  destruct H as [i p m k l' Ti Pi Hp B Es Tr|i p m k x l' Ti B Es A1 A2 A3 A4|i k m p l' Ti Ni Es Tr|i m l' Es A1 A2|k l' Es A1 A2 A3 A4 A5|l' Es A1 A2 A3|e ke l' Ck Sk Nk Kk].
  - eapply T, Tr.
  - split; [congruence|]. exists [ORaised x]. rewrite A2, map_app. split; [reflexivity|repeat constructor].
  - eapply T, Tr.
  - cbn [Sender.sstep] in Es. split.
    + destruct (nth_error (s_tasks (l_s l)) i) as [[|m0 data]|]; try discriminate. injection Es as <-. exact L.
    + exists [OCancelled]. rewrite A1, map_app. split; [reflexivity|repeat constructor].
  - split; [congruence|]. exists []. rewrite A2, app_nil_r. split; [reflexivity|constructor].
  - cbn [Sender.sstep] in Es. rewrite L in Es. discriminate.
  - rewrite Sk. split; [exact L|]. exists []. rewrite app_nil_r. split; [reflexivity|constructor].
Qed.

Lemma lost_run high low n es2 : forall es1 l l', lrun high low (linit n) es1 = Some l -> lrun high low l es2 = Some l' -> s_lost (l_s l) = true ->
  exists x, outcomes l' = outcomes l ++ x /\ Forall (fun o => went_out o = false) x.
Proof.
  induction es2 as [|e es2 IH]; intros es1 l l' R1 R2 L.
  - cbn in R2. injection R2 as <-. exists []. rewrite app_nil_r. split; [reflexivity|constructor].
  - cbn [Line.lrun] in R2. destruct (lstep high low l e) as [l1|] eqn:E; [|discriminate].
    destruct (sides high low n es1 l R1) as (Sr & _). pose proof (b_sleep _ (bytes_reachable high low n _ _ Sr)) as As.
    destruct (lost_stays high low l e l1 E L As) as (L1 & x & Ex & Fx).
    destruct (IH (es1 ++ [e]) l1 l') as (y & Ey & Fy); [eapply lrun_join; [exact R1|]; cbn [Line.lrun]; rewrite E; reflexivity|exact R2|exact L1|].
    exists (x ++ y). rewrite Ey, Ex, app_assoc. split; [reflexivity|]. apply Forall_app. auto.
Qed.

Theorem any_after_loss gw high low ns css es1 ord1 ls1 h h1 inn1 out1 evs1 es2 ord2 ls2 h2 inn2 out2 evs2 : gateway_ok gw -> house_ok h -> plain h ->
  crowd gw high low (fun j => linit (ns j)) h (fun _ => []) (fun _ => []) es1 ord1 ls1 h1 inn1 out1 evs1 ->
  crowd gw high low ls1 h1 inn1 out1 es2 ord2 ls2 h2 inn2 out2 evs2 ->
  (forall j, behaves_any high low ns (es1 ++ es2) css j) ->
  exists cs log heard, story gw h cs log (evs1 ++ evs2) h2 /\ length cs = length (ord1 ++ ord2) /\ length log = length (ord1 ++ ord2) /\ length heard = length (ord1 ++ ord2) /\
    forall j, told_any (es1 ++ es2) j (ord1 ++ ord2) (ls2 j) (out2 j) log heard /\ (In (j, LLost) es1 ->
      mine j (ord1 ++ ord2) cs = firstn (count j (ord1 ++ ord2)) (among went_out (outcomes (ls1 j)) (css j)) /\
      forall b, (length (started (of_client j es1)) <= b)%nat -> nth_error (outcomes (ls2 j)) b <> Some OWritten).
Proof.
  intros G Hh P C1 C2 B. pose proof (crowd_app _ _ _ _ _ _ _ _ _ _ _ _ _ _ C1 _ _ _ _ _ _ _ C2) as C.
  destruct (any_story gw high low ns _ _ _ h _ _ _ _ css G Hh P C B) as (cs & log & heard & St & Lc & Ll & Lh & _ & T).
  exists cs, log, heard. split; [exact St|]. split; [exact Lc|]. split; [exact Ll|]. split; [exact Lh|]. intros j. specialize (T j). cbv zeta in T. destruct T as (L1 & _ & L2 & Mj & _ & Td & _).
  split; [exact Td|]. intros Lost.
  pose proof (crowd_runs _ _ _ _ _ _ _ _ _ _ _ _ C1 j) as R1.
  pose proof (crowd_runs _ _ _ _ _ _ _ _ _ _ _ _ C j) as R2. rewrite of_client_app in R2. destruct (lrun_app _ _ _ _ _ _ R2) as (lm & R1' & R2'). rewrite R1 in R1'. injection R1' as <-.
  assert (Ls : s_lost (l_s (ls1 j)) = true).
  { assert (I : In LLost (of_client j es1)) by (unfold of_client; apply in_map_iff; exists (j, LLost); split; [reflexivity|]; apply filter_In; split; [exact Lost|apply Nat.eqb_refl]).
    apply in_split in I as (x & y & E). rewrite E in R1. destruct (lrun_app _ _ _ _ _ _ R1) as (la & Ra & Rb). cbn [Line.lrun] in Rb. destruct (lstep high low la LLost) as [lb|] eqn:El; [|discriminate].
    assert (Lb : s_lost (l_s lb) = true).
    { cbn [Line.lstep] in El. unfold lift_s in El. cbn [Sender.sstep] in El. destruct (s_lost (l_s la)); [discriminate|]. injection El as <-. reflexivity. }
    assert (Rp : lrun high low (linit (ns j)) (x ++ [LLost]) = Some lb) by (eapply lrun_join; [exact Ra|]; cbn [Line.lrun]; rewrite El; reflexivity).
    clear - Rp Rb Lb. revert Rb Rp Lb. generalize (x ++ [LLost]). revert lb. induction y as [|e y IH]; intros lb pre Rb Rp Lb; [cbn in Rb; injection Rb as <-; exact Lb|].
    cbn [Line.lrun] in Rb. destruct (lstep high low lb e) as [lc|] eqn:E; [|discriminate]. destruct (sides high low (ns j) pre lb Rp) as (Sr & _). pose proof (b_sleep _ (bytes_reachable high low (ns j) _ _ Sr)) as As.
    destruct (lost_stays high low lb e lc E Lb As) as (Lc & _). eapply (IH lc (pre ++ [e]) Rb); [|exact Lc]. eapply lrun_join; [exact Rp|]. cbn [Line.lrun]. rewrite E. reflexivity. }
  destruct (lost_run high low (ns j) _ _ _ _ R1 R2' Ls) as (x & Ex & Fx).
  destruct (B j) as (_ & Lk & U & M). rewrite of_client_app in Lk, U.
  destruct (client_any high low (ns j) _ _ R1 (locked_app _ _ _ _ _ Lk)) as ((Lo & _) & _); [apply Forall_app in U; apply U|].
  split.
  - rewrite Mj. f_equal. rewrite Ex in L1 |- *. rewrite app_length in L1. rewrite <- (firstn_skipn (length (outcomes (ls1 j))) (css j)) at 1. rewrite among_app by (rewrite firstn_length; lia).
    rewrite (among_none went_out x Fx), app_nil_r. rewrite <- (firstn_skipn (length (outcomes (ls1 j))) (css j)) at 2. rewrite among_more by (rewrite firstn_length; lia). reflexivity.
  - intros b Hb Nb. rewrite Ex, nth_error_app2 in Nb by lia. rewrite Forall_forall in Fx. specialize (Fx _ (nth_error_In _ _ Nb)). discriminate Fx.
Qed.
