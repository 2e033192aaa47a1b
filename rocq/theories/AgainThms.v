(** * Several connections with timeouts: proofs *)
From Coq Require Import String List NArith ZArith Bool Lia.
From Verif Require Import PyStr Tags Messages MessageFacts SpecMsg SpecTag SpecProto ProtoThms Protocol Queue QueueThms Sender SenderThms IO Client SpecItem Items
  Conc SpecConc ConcThms SpecSingle SingleThms SpecSerial SerialThms SpecHouse HouseThms HouseThms2 SpecCrash CrashThms SpecTogether SerialThms2 TogetherThms Line SpecLine LineThms LineThms2 LineThms3
  SpecCrowd CrowdThms SpecLate LateThms SpecAgain.
Import ListNotations.
Open Scope list_scope.

Lemma takes_length ps ms rs : takes ps ms rs -> length ps = length rs.
Proof. induction 1; cbn; congruence. Qed.

(** Before the first timeout every call gets its own answer. *)
Lemma takes_in_time ps ms rs : takes ps ms rs -> forall st ans rest, map (fun c => fst (snd c)) (firstn (length ps) st) = ps ->
  dialogue (firstn (length ans) st) ans -> ms ++ rest = concat (map fst ans) -> forall i r, in_time rs i r ->
  nth_error (map snd ans) i = Some r /\ exists more, ms = concat (firstn (Datatypes.S i) (map fst ans)) ++ more.
Proof.
  induction 1 as [|p a r ps ms rs W T IH|p a ps ms rs W T IH]; intros st ans rest Ep D E i r' (Hn & Ht & H0).
  - destruct i; discriminate.
  - destruct st as [|k st]; [discriminate|]. cbn [length firstn map] in Ep. injection Ep as Ek Ep.
    destruct (react_ends _ _ _ W) as (_ & read & m & W').
    destruct ans as [|[a' r0] ans].
    { destruct W' as (-> & _). cbn in E. destruct read; discriminate. }
    cbn [length firstn] in D. inversion D as [|? ? ? ? Wk D0]; subst. cbn [fst snd map concat] in *.
    destruct (react_ends _ _ _ Wk) as (_ & read' & m' & Wk'). rewrite <- app_assoc in E.
    destruct (reading_unique _ _ _ _ _ _ _ (ex_intro _ read (ex_intro _ m W')) (ex_intro _ read' (ex_intro _ m' Wk')) E) as (Ea & <- & E').
    destruct i as [|i].
    { injection Hn as ->. split; [reflexivity|]. exists ms. cbn [firstn concat]. rewrite app_nil_r, Ea. reflexivity. }
    cbn [nth_error] in *. destruct (IH st ans rest Ep D0 E' i r') as (A & more & B).
    { split; [exact Hn|]. split; [exact Ht|]. unfold timeouts in *. cbn [firstn filter] in H0. destruct (timed_out r); [discriminate|exact H0]. }
    split; [exact A|]. exists more. change (firstn (Datatypes.S (Datatypes.S i)) (a' :: map fst ans)) with (a' :: firstn (Datatypes.S i) (map fst ans)).
    cbn [concat]. rewrite <- app_assoc, <- B, Ea. reflexivity.
  - destruct i as [|i]; [injection Hn as <-; discriminate Ht|]. discriminate H0.
Qed.

Theorem again_story gw high low ns es ord ls h h' inn out evs css : gateway_ok gw -> house_ok h -> plain h ->
  crowd gw high low (fun j => linit (ns j)) h (fun _ => []) (fun _ => []) es ord ls h' inn out evs ->
  (forall j, behaves_late high low ns es css j) ->
  exists cs log heard, story gw h cs log evs h' /\ length cs = length ord /\ length log = length ord /\ length heard = length ord /\
    Forall2 (fun c x => alone c (fst x) (snd x)) cs (combine heard log) /\
    forall j, (count j ord <= length (css j))%nat /\ mine j ord cs = firstn (count j ord) (css j) /\ told_late es css j ord (ls j) (inn j) (out j) log heard /\
      forall i r, in_time (map snd (k_done (l_c (ls j)))) i r -> nth_error (map snd (mine j ord log)) i = Some r /\
        exists more, map snd (q_out (k_q (l_c (ls j)))) = concat (firstn (Datatypes.S i) (mine j ord heard)) ++ more.
Proof.
  intros G Hh P C H.
  destruct (crowd_served high low gw ns _ _ _ _ _ _ _ _ _ _ _ C (fun _ => []) (fun _ => eq_refl)) as (bs & ans & Sd & Lb & La & J). cbn [app] in J.
  assert (Fr : forall j, (count j ord <= length (started (of_client j es)))%nat /\ mine j ord bs = map frame_of (firstn (count j ord) (started (of_client j es)))).
  { intros j. destruct (J j) as (R & x & fss & D & I & _). cbn in D. subst x. destruct (H j) as (_ & Lk & U & _).
    destruct (client_frames high low (ns j) _ _ _ _ R Lk U I) as (L & E). rewrite (mine_length j ord bs Lb) in L, E. split; assumption. }
  assert (Cl : forall j, length (started (of_client j es)) = length (css j)) by (intros j; destruct (H j) as (_ & _ & _ & M); exact (SerialThms.forall2_length _ _ _ M)).
  destruct (deal_mine ord (fun j => started (of_client j es)) (fun j => proj1 (Fr j))) as (Ld & Md).
  destruct (deal_mine ord css) as (Lc & Mc); [intros j; rewrite <- Cl; apply Fr|].
  set (ks := deal ord (fun j => started (of_client j es))) in *. set (cs := deal ord css) in *.
  assert (Eb : bs = map frame_of ks).
  { apply (mine_ext ord); [exact Lb|rewrite map_length; exact Ld|]. intros j. rewrite mine_map, Md. apply Fr. }
  assert (Mk : made ks cs) by (apply deal_forall2; intros j; apply H).
  assert (Fk : Forall call_ok cs) by (apply deal_forall; intros j; apply H).
  destruct (served_story gw G _ _ _ _ _ Sd ks cs Hh P Mk Fk Eb) as (log & hd & St & Di & Sn & Al & Ea & Sm).
  assert (Lh : length hd = length ord) by (rewrite <- La, Ea, map_length; reflexivity).
  assert (Ll : length log = length ord) by (rewrite <- Lh, <- (map_length snd hd), Sn, map_length; reflexivity).
  exists cs, log, (map fst hd). split; [exact St|]. split; [exact Lc|]. split; [exact Ll|]. split; [rewrite map_length; exact Lh|]. split; [exact Al|].
  intros j. split; [rewrite <- Cl; apply Fr|]. split; [apply Mc|]. destruct (J j) as (R & x & fss & D & I & Pk & O). cbn in D. subst x. destruct (H j) as (_ & Lk & U & M).
  pose proof (mine_forall2 _ j ord _ _ Di) as Dj. rewrite Md in Dj.
  assert (Lm : length (mine j ord bs) = count j ord) by (apply mine_length, Lb).
  assert (Ej : map snd (mine j ord hd) = map snd (mine j ord log)) by (rewrite <- !mine_map, Sn; reflexivity).
  assert (Eh : combine (map fst (mine j ord hd)) (map snd (mine j ord log)) = mine j ord hd).
  { rewrite <- Ej, combine_maps. generalize (mine j ord hd). intros l. induction l as [|[] l IH]; cbn; congruence. }
  destruct (client_late high low (ns j) _ _ (css j) (mine j ord bs) (inn j) fss (out j) (mine j ord hd) R Lk U M I Pk) as (Jc & k & stream & read & later & K1 & K2 & K3 & K4 & K5 & K6 & K7 & K8 & K9).
  - rewrite Ea, mine_map in O. cbn [app] in O. rewrite <- O, concat_map, map_map. reflexivity.
  - apply Forall_forall. intros m Hm. apply in_concat in Hm as (ms & Hms & Hm). apply in_map_iff in Hms as (y & <- & Hy). apply mine_in in Hy.
    rewrite Forall_forall in Sm. pose proof (Sm y Hy) as X. rewrite Forall_forall in X. apply X, Hm.
  - split.
    + unfold told_late. rewrite (mine_map fst), Eh. split; [exact Dj|]. split; [rewrite <- Lm; exact Jc|]. exists k, stream, read, later. auto 10.
    + intros i r Ti. rewrite <- Ej, mine_map. destruct (takes_in_time _ _ _ K4 (started (of_client j es)) (mine j ord hd) (read ++ c_queue (q_conn (k_q (l_c (ls j)))) ++ later)) with (i := i) (r := r) as (A & more & B); [|rewrite (mine_length j ord hd Lh); exact Dj|symmetry; exact K8|exact Ti|].
      * rewrite map_length, firstn_length, Nat.min_l by (rewrite Cl; lia). reflexivity.
      * split; [exact A|]. exists (more ++ read). rewrite K5, B, <- app_assoc. reflexivity.
Qed.

(** ** Time *)

Lemma late_before high low ns es1 es2 css j : behaves_late high low ns (es1 ++ es2) css j -> behaves_late high low ns es1 (first_calls es1 css) j.
Proof.
  intros (F & Lk & U & M). unfold behaves_late, first_calls. rewrite of_client_app in *. split.
  - rewrite <- (firstn_skipn (length (started (of_client j es1))) (css j)) in F. apply Forall_app in F. apply F.
  - split; [|split].
    + intros pre i p m k post l E R. eapply (Lk pre i p m k (post ++ of_client j es2)); [rewrite E, <- app_assoc; reflexivity|exact R].
    + apply Forall_app in U. apply U.
    + unfold made in *. rewrite CrowdThms.started_app in M. apply Forall2_app_inv_l in M as (l1 & l2 & M1 & M2 & ->).
      rewrite firstn_app, (SerialThms.forall2_length _ _ _ M1), firstn_all, Nat.sub_diag, firstn_O, app_nil_r. exact M1.
Qed.

(** A call answered in time was obeyed; whatever was obeyed had started. *)
Lemma answered_obeyed gw high low ns es ord ls h h' inn out evs css : gateway_ok gw -> house_ok h -> plain h ->
  crowd gw high low (fun j => linit (ns j)) h (fun _ => []) (fun _ => []) es ord ls h' inn out evs -> (forall j, behaves_late high low ns es css j) ->
  forall j, (count j ord <= length (started (of_client j es)))%nat /\ forall i r, in_time (map snd (k_done (l_c (ls j)))) i r -> (i < count j ord)%nat.
Proof.
  intros G Hh P C B j. destruct (again_story gw high low ns es ord ls h h' inn out evs css G Hh P C B) as (cs & log & heard & _ & _ & Ll & _ & _ & T).
  destruct (T j) as (L & _ & _ & Tr). destruct (B j) as (_ & _ & _ & M). rewrite (SerialThms.forall2_length _ _ _ M). split; [exact L|].
  intros i r Hi. destruct (Tr i r Hi) as (Tr' & _). assert (X : (i < length (map snd (mine j ord log)))%nat) by (apply nth_error_Some; rewrite Tr'; discriminate).
  rewrite map_length, (mine_length j ord log Ll) in X. exact X.
Qed.

Theorem again_order gw high low ns css es1 ord1 ls1 h h1 inn1 out1 evs1 es2 ord2 ls2 h2 inn2 out2 evs2 : gateway_ok gw -> house_ok h -> plain h ->
  crowd gw high low (fun j => linit (ns j)) h (fun _ => []) (fun _ => []) es1 ord1 ls1 h1 inn1 out1 evs1 ->
  crowd gw high low ls1 h1 inn1 out1 es2 ord2 ls2 h2 inn2 out2 evs2 ->
  (forall j, behaves_late high low ns (es1 ++ es2) css j) ->
  forall i j a b r, in_time (map snd (k_done (l_c (ls1 i)))) a r -> (length (started (of_client j es1)) <= b)%nat ->
  exists p, turn i a (ord1 ++ ord2) = Some p /\ forall q, turn j b (ord1 ++ ord2) = Some q -> (p < q)%nat.
Proof.
  intros G Hh P C1 C2 B i j a b r La Lb.
  pose proof (answered_obeyed gw high low ns es1 ord1 ls1 h h1 inn1 out1 evs1 (first_calls es1 css) G Hh P C1 (fun x => late_before _ _ _ _ _ _ _ (B x))) as O.
  destruct (O i) as (_ & Oi). specialize (Oi a r La). destruct (O j) as (Oj & _).
  destruct (turn_some i (ord1 ++ ord2) a) as (p & Tp); [rewrite count_app; lia|]. exists p. split; [exact Tp|]. intros q Tq.
  pose proof (turn_split _ _ _ _ _ Tp) as Sp. pose proof (turn_split _ _ _ _ _ Tq) as Sq. lia.
Qed.
