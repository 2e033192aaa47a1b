(** * Several clients in front of any gateway: proofs *)
From Coq Require Import String List NArith ZArith Bool Lia.
From Verif Require Import PyStr Tags Messages MessageFacts SpecMsg SpecTag SpecProto ProtoThms Protocol Queue QueueThms Sender SenderThms IO Client SpecItem Items
  Conc SpecConc ConcThms SpecSerial SerialThms SpecHouse HouseThms HouseThms2 SpecTogether SerialThms2 TogetherThms Line SpecLine LineThms LineThms2 LineThms3 SpecCrowd CrowdThms Energy SpecMeter MeterThms MeterThms2
  SpecServer ServerThms ServerThms2 SpecThrong.
Import ListNotations.
Open Scope list_scope.

Section throng.
Context {State : Type} (replies : State -> list N -> State -> list (list N) -> Prop).

(** Frames dealt with one after the other, with the answer to each. *)
Inductive runs : State -> list (list N) -> list (list (list N)) -> State -> Prop :=
| Ru_nil s : runs s [] [] s
| Ru_cons s b s1 a bs ans s' : replies s b s1 a -> runs s1 bs ans s' -> runs s (b :: bs) (a :: ans) s'.

Lemma runs_serially good kind : civil State replies good kind -> forall s bs ans s', runs s bs ans s' -> forall ks, good s ->
  Forall (fun k => kind (fst (snd k)) (snd (snd k))) ks -> bs = map frame_of ks ->
  exists log, serially State replies s ks log s' /\ dialogue ks log /\ ans = map (fun x => map msg_str (fst x)) log /\ Forall (fun x => Forall streamable (fst x)) log /\ good s'.
Proof.
  intros C s bs ans s' R. induction R as [s|s b s1 a bs ans s' Rp R IH]; intros ks G F E.
  - destruct ks; [|discriminate]. exists []. repeat split; try constructor. exact G.
  - destruct ks as [|[i [p b']] ks]; [discriminate|]. injection E as -> E. inversion F as [|? ? K F']; subst. cbn [fst snd frame_of] in *.
    destruct (C s p b' s1 a G K Rp) as (G1 & ms & r & -> & S & W). destruct (IH ks G1 F' eq_refl) as (log & A1 & A2 & A3 & A4 & A5).
    exists ((ms, r) :: log). split; [econstructor; eassumption|]. split; [constructor; assumption|]. cbn [map fst]. rewrite A3. split; [reflexivity|]. split; [constructor; auto|exact A5].
Qed.

Section water.
Variables high low : nat.
Notation lrun := (lrun high low).
Notation lstep := (lstep high low).

Lemma throng_runs ns : forall ls s inn out es ord ls' s' inn' out', throng State replies high low ls s inn out es ord ls' s' inn' out' ->
  forall pre, (forall j, lrun (linit (ns j)) (pre j) = Some (ls j)) ->
  exists bs ans, runs s bs ans s' /\ length bs = length ord /\ length ans = length ord /\
  forall j, lrun (linit (ns j)) (pre j ++ of_client j es) = Some (ls' j) /\
    exists x fss, s_done (l_s (ls' j)) = s_done (l_s (ls j)) ++ x /\ inn j ++ frames_done x = mine j ord bs ++ inn' j /\
    packets (of_client j es) = map (@concat N) fss /\ out j ++ concat (mine j ord ans) = concat fss ++ out' j.
Proof.
  intros ls s inn out es ord ls' s' inn' out' C.
  induction C as [ls s inn out|ls s inn out i b rest s1 a es ord ls' s' inn' out' Ei Sv C IH|ls s inn out i e l1 es ord ls' s' inn' out' Np S C IH|ls s inn out i fs rest l1 es ord ls' s' inn' out' Eo S C IH]; intros pre R.
  - exists [], []. split; [constructor|]. split; [reflexivity|]. split; [reflexivity|]. intros j. rewrite app_nil_r. split; [apply R|]. exists [], []. cbn. rewrite !app_nil_r. auto.
  - destruct (IH pre R) as (bs & ans & Sd & Lb & La & J). exists (b :: bs), (a :: ans). split; [econstructor; eassumption|]. split; [cbn; congruence|]. split; [cbn; congruence|].
    intros j. destruct (J j) as (R' & x & fss & D & I & Pk & O). split; [exact R'|]. exists x, fss. split; [exact D|]. rewrite !mine_cons. destruct (Nat.eqb_spec i j) as [->|N].
    + rewrite put_same in I, O. rewrite Ei. cbn [app]. split; [f_equal; exact I|]. split; [exact Pk|]. cbn [concat]. rewrite app_assoc. exact O.
    + rewrite put_other in I, O by congruence. auto.
  - assert (R1 : forall j, lrun (linit (ns j)) (put pre i (pre i ++ [e]) j) = Some (put ls i l1 j)).
    { intros j. unfold put. destruct (Nat.eqb_spec j i) as [->|N]; [|apply R]. eapply lrun_join; [apply R|]. cbn [Line.lrun]. rewrite S. reflexivity. }
    destruct (IH _ R1) as (bs & ans & Sd & Lb & La & J). exists bs, ans. split; [exact Sd|]. split; [exact Lb|]. split; [exact La|].
    intros j. destruct (J j) as (R' & x & fss & D & I & Pk & O). rewrite of_client_cons. destruct (Nat.eqb_spec i j) as [->|N].
    + rewrite !put_same in *. rewrite <- app_assoc in R'. split; [exact R'|].
      destruct (sides high low (ns j) (pre j) (ls j) (R j)) as (Sr & _). pose proof (b_sleep _ (bytes_reachable high low (ns j) _ _ Sr)) as As.
      destruct (step_sides high low (ls j) e l1 (lstep_shape high low (ls j) e l1 As S)) as (_ & y & _ & _ & _ & _ & Dy & _).
      exists (y ++ x), fss. split; [rewrite D, Dy, app_assoc; reflexivity|].
      assert (T : taken (ls j) l1 = frames_done y) by (unfold taken; rewrite Dy, skipn_app, skipn_all, Nat.sub_diag; reflexivity).
      rewrite T, <- app_assoc, <- frames_app in I. split; [exact I|]. split; [|exact O]. destruct e; try exact Pk. exfalso. eapply Np. reflexivity.
    + rewrite !put_other in * by congruence. split; [exact R'|]. exists x, fss. auto.
  - assert (R1 : forall j, lrun (linit (ns j)) (put pre i (pre i ++ [LPacket (concat fs)]) j) = Some (put ls i l1 j)).
    { intros j. unfold put. destruct (Nat.eqb_spec j i) as [->|N]; [|apply R]. eapply lrun_join; [apply R|]. cbn [Line.lrun]. rewrite S. reflexivity. }
    destruct (IH _ R1) as (bs & ans & Sd & Lb & La & J). exists bs, ans. split; [exact Sd|]. split; [exact Lb|]. split; [exact La|].
    intros j. destruct (J j) as (R' & x & fss & D & I & Pk & O). rewrite of_client_cons. destruct (Nat.eqb_spec i j) as [->|N].
    + rewrite !put_same in *. rewrite <- app_assoc in R'. split; [exact R'|].
      assert (Ds : s_done (l_s l1) = s_done (l_s (ls j))).
      { cbn [Line.lstep] in S. unfold lift_c in S. destruct (cstep (l_c (ls j)) (KPacket (concat fs))); [|discriminate]. injection S as <-. reflexivity. }
      rewrite Ds in D. exists x, (fs :: fss). split; [exact D|]. split; [exact I|]. split; [cbn [packets map]; rewrite Pk; reflexivity|]. cbn [concat]. rewrite Eo, <- !app_assoc. f_equal. exact O.
    + rewrite !put_other in * by congruence. split; [exact R'|]. exists x, fss. auto.
Qed.
End water.

Lemma throng_app high low ls s inn out es1 ord1 ls1 s1 inn1 out1 : throng State replies high low ls s inn out es1 ord1 ls1 s1 inn1 out1 ->
  forall es2 ord2 ls2 s2 inn2 out2, throng State replies high low ls1 s1 inn1 out1 es2 ord2 ls2 s2 inn2 out2 ->
  throng State replies high low ls s inn out (es1 ++ es2) (ord1 ++ ord2) ls2 s2 inn2 out2.
Proof.
  induction 1; intros; cbn [app]; auto.
  - eapply Th_reply; eauto.
  - eapply Th_step; eauto.
  - eapply Th_packet; eauto.
Qed.
End throng.

(** ** One order of all calls *)

Theorem throng_serial {State} (replies : State -> list N -> State -> list (list N) -> Prop) good kind high low ns es ord ls s s' inn out : civil State replies good kind -> good s ->
  (forall j, orderly kind high low ns es j) ->
  throng State replies high low (fun j => linit (ns j)) s (fun _ => []) (fun _ => []) es ord ls s' inn out ->
  exists ks log, serially State replies s ks log s' /\ good s' /\ length ks = length ord /\ length log = length ord /\
    forall j, mine j ord ks = firstn (count j ord) (started (of_client j es)) /\ informed es j ord (ls j) (inn j) (out j) (map fst log) (map snd log).
Proof.
  intros Cv G H C.
  destruct (throng_runs replies high low ns _ _ _ _ _ _ _ _ _ _ C (fun _ => []) (fun _ => eq_refl)) as (bs & ans & Sd & Lb & La & J). cbn [app] in J.
  assert (Fr : forall j, (count j ord <= length (started (of_client j es)))%nat /\ mine j ord bs = map frame_of (firstn (count j ord) (started (of_client j es)))).
  { intros j. destruct (J j) as (R & x & fss & D & I & _). cbn in D. subst x. destruct (H j) as (_ & Lk & U).
    destruct (client_frames high low (ns j) _ _ _ _ R Lk (proj1 (undisturbed_calm _ U)) I) as (L & E). rewrite (mine_length j ord bs Lb) in L, E. split; assumption. }
  destruct (deal_mine ord (fun j => started (of_client j es)) (fun j => proj1 (Fr j))) as (Ld & Md).
  set (ks := deal ord (fun j => started (of_client j es))) in *.
  assert (Eb : bs = map frame_of ks).
  { apply (mine_ext ord); [exact Lb|rewrite map_length; exact Ld|]. intros j. rewrite mine_map, Md. apply Fr. }
  assert (Fk : Forall (fun k => kind (fst (snd k)) (snd (snd k))) ks) by (apply deal_forall; intros j; apply H).
  destruct (runs_serially replies good kind Cv _ _ _ _ Sd ks G Fk Eb) as (log & Se & Di & Ea & Sm & G').
  assert (Lh : length log = length ord) by (rewrite <- La, Ea, map_length; reflexivity).
  exists ks, log. split; [exact Se|]. split; [exact G'|]. split; [exact Ld|]. split; [exact Lh|].
  intros j. split; [apply Md|]. destruct (J j) as (R & x & fss & D & I & Pk & O). cbn in D. subst x. destruct (H j) as (_ & Lk & U).
  pose proof (mine_forall2 _ j ord _ _ Di) as Dj. rewrite Md in Dj.
  assert (Lm : length (mine j ord bs) = count j ord) by (apply mine_length, Lb).
  destruct (any_side high low (ns j) _ _ (mine j ord bs) (inn j) fss (out j) (mine j ord log) R Lk U (started_busy high low _ _ _ R) I Pk) as (k & pend & read & K1 & K2 & K3 & K4 & K5 & K6).
  - rewrite Lm. exact Dj.
  - rewrite Ea, mine_map in O. cbn [app] in O. rewrite <- O, concat_map, map_map. reflexivity.
  - apply Forall_forall. intros m Hm. apply in_concat in Hm as (ms & Hms & Hm). apply in_map_iff in Hms as (y & <- & Hy). apply mine_in in Hy.
    rewrite Forall_forall in Sm. pose proof (Sm y Hy) as X. rewrite Forall_forall in X. apply X, Hm.
  - rewrite Lm in *. unfold informed. rewrite !mine_map. exists k, pend, read. auto 10.
Qed.

(** ** The order respects time *)

Lemma orderly_before kind high low ns es1 es2 j : orderly kind high low ns (es1 ++ es2) j -> orderly kind high low ns es1 j.
Proof.
  intros (F & Lk & U). unfold orderly. rewrite of_client_app in *. rewrite started_app in F. split; [apply Forall_app in F; apply F|]. split.
  - intros pre i p m k post l E R. eapply (Lk pre i p m k (post ++ of_client j es2)); [rewrite E, <- app_assoc; reflexivity|exact R].
  - apply Forall_app in U. apply U.
Qed.

Lemma ended_heeded {State} (replies : State -> list N -> State -> list (list N) -> Prop) good kind high low ns es ord ls s s' inn out : civil State replies good kind -> good s ->
  (forall j, orderly kind high low ns es j) ->
  throng State replies high low (fun j => linit (ns j)) s (fun _ => []) (fun _ => []) es ord ls s' inn out ->
  forall j, (length (k_done (l_c (ls j))) <= count j ord <= length (started (of_client j es)))%nat.
Proof.
  intros Cv G H C j. destruct (throng_serial replies good kind high low ns es ord ls s s' inn out Cv G H C) as (ks & log & _ & _ & _ & _ & T).
  destruct (T j) as (_ & k & pend & read & K1 & _ & K3 & _). rewrite K3, firstn_length. lia.
Qed.

Theorem throng_order {State} (replies : State -> list N -> State -> list (list N) -> Prop) good kind high low ns es1 ord1 ls1 s s1 inn1 out1 es2 ord2 ls2 s2 inn2 out2 :
  civil State replies good kind -> good s -> (forall j, orderly kind high low ns (es1 ++ es2) j) ->
  throng State replies high low (fun j => linit (ns j)) s (fun _ => []) (fun _ => []) es1 ord1 ls1 s1 inn1 out1 ->
  throng State replies high low ls1 s1 inn1 out1 es2 ord2 ls2 s2 inn2 out2 ->
  forall i j a b, (a < length (k_done (l_c (ls1 i))))%nat -> (length (started (of_client j es1)) <= b)%nat ->
  exists p, turn i a (ord1 ++ ord2) = Some p /\ forall q, turn j b (ord1 ++ ord2) = Some q -> (p < q)%nat.
Proof.
  intros Cv G H C1 C2 i j a b La Lb.
  pose proof (ended_heeded replies good kind high low ns es1 ord1 ls1 s s1 inn1 out1 Cv G (fun x => orderly_before _ _ _ _ _ _ _ (H x)) C1) as O.
  destruct (turn_some i (ord1 ++ ord2) a) as (p & Tp); [rewrite count_app; specialize (O i); lia|]. exists p. split; [exact Tp|]. intros q Tq.
  pose proof (turn_split _ _ _ _ _ Tp) as Sp. pose proof (turn_split _ _ _ _ _ Tq) as Sq. pose proof (O i). pose proof (O j). lia.
Qed.

(** ** Clock and meters *)

Lemma crowd_throng gw high low : forall ls h inn out es ord ls' h' inn' out' evs, crowd gw high low ls h inn out es ord ls' h' inn' out' evs ->
  forall e0, throng (house * list (list N)) (housed gw) high low ls (h, e0) inn out es ord ls' (h', e0 ++ evs) inn' out'.
Proof.
  intros ls h inn out es ord ls' h' inn' out' evs C. induction C as [ls h inn out|ls h inn out j b rest h1 ans ev1 es ord ls' h' inn' out' evs Ei Sv C IH|ls h inn out j e l1 es ord ls' h' inn' out' evs Np S C IH|ls h inn out j fs rest l1 es ord ls' h' inn' out' evs Eo S C IH]; intros e0.
  - rewrite app_nil_r. apply Th_nil.
  - rewrite app_assoc. eapply (Th_reply _ _ _ _ _ _ _ _ _ _ _ (h1, e0 ++ ev1)); [exact Ei|exists ev1; split; [exact Sv|reflexivity]|apply IH].
  - eapply Th_step; eauto.
  - eapply Th_packet; eauto.
Qed.

Lemma gbehaves_orderly high low ns es css j : gbehaves high low ns es css j -> orderly gkind high low ns es j.
Proof.
  intros (F & Lk & U & M). split; [|auto]. clear - M F. revert F. induction M as [|k g ks gs (o & Ho & W & E) M IH]; intros F; [constructor|]. inversion F; subst. constructor; [exists g, o; auto|apply IH; assumption].
Qed.

Theorem meter_crowd gw high low ns es ord ls h h' inn out evs css : ggateway_ok gw -> ghouse_ok h -> plain h ->
  crowd gw high low (fun j => linit (ns j)) h (fun _ => []) (fun _ => []) es ord ls h' inn out evs ->
  (forall j, gbehaves high low ns es css j) ->
  exists gs log heard, gstory gw h gs log evs h' /\ length gs = length ord /\ length log = length ord /\ length heard = length ord /\
    Forall2 (fun g x => galone g (fst x) (snd x)) gs (combine heard log) /\
    forall j, mine j ord gs = firstn (count j ord) (css j) /\ informed es j ord (ls j) (inn j) (out j) heard (map verdict heard).
Proof.
  intros G Hh P C H. pose proof (crowd_throng gw high low _ _ _ _ _ _ _ _ _ _ _ C []) as Th. cbn [app] in Th.
  destruct (throng_serial (housed gw) ghouse_good gkind high low ns es ord ls (h, []) (h', evs) inn out (house_civil gw G) (conj Hh P) (fun j => gbehaves_orderly _ _ _ _ _ _ (H j)) Th) as (ks & log & Se & _ & Lk & Ll & T).
  assert (Cl : forall j, length (started (of_client j es)) = length (css j)) by (intros j; destruct (H j) as (_ & _ & _ & M); exact (SerialThms.forall2_length _ _ _ M)).
  assert (Cn : forall j, (count j ord <= length (started (of_client j es)))%nat) by (intros j; destruct (T j) as (_ & k & pend & read & K1 & _); lia).
  destruct (deal_mine ord (fun j => started (of_client j es)) Cn) as (Ld & Md).
  destruct (deal_mine ord css) as (Lc & Mc); [intros j; rewrite <- Cl; apply Cn|].
  assert (Ek : ks = deal ord (fun j => started (of_client j es))).
  { apply (mine_ext ord); [exact Lk|exact Ld|]. intros j. rewrite Md. apply T. }
  set (gs := deal ord css) in *.
  assert (Mk : gmade ks gs) by (rewrite Ek; apply deal_forall2; intros j; apply H).
  assert (Fk : Forall gcall_ok gs) by (apply deal_forall; intros j; apply H).
  destruct (serially_story gw G (h, []) ks log (h', evs) Se gs (conj Hh P) Mk Fk) as (glog & evs' & A1 & A2 & A3 & A4 & A5). cbn [fst snd app] in A1, A2. subst evs'.
  exists gs, glog, (map fst log). split; [exact A1|]. split; [exact Lc|]. split; [congruence|]. split; [rewrite map_length; exact Ll|]. split; [exact A4|].
  intros j. split; [apply Mc|]. rewrite <- A5. apply T.
Qed.

Lemma gstory_app gw gs1 : forall h gs2 log evs h', gstory gw h (gs1 ++ gs2) log evs h' ->
  exists hx log1 log2 ev1 ev2, gstory gw h gs1 log1 ev1 hx /\ gstory gw hx gs2 log2 ev2 h' /\ log = log1 ++ log2 /\ evs = ev1 ++ ev2.
Proof.
  induction gs1 as [|g gs1 IH]; intros h gs2 log evs h' S.
  - exists h, [], log, [], evs. repeat split; [constructor|exact S].
  - cbn [app] in S. inversion S as [|? ? ? h1 obs r ev log0 ev0 ? D S0]; subst. destruct (IH _ _ _ _ _ S0) as (hx & l1 & l2 & e1 & e2 & A & B & -> & ->).
    exists hx, ((obs, r) :: l1), l2, (ev ++ e1), e2. repeat split; [econstructor; eassumption|exact B|apply app_assoc].
Qed.
Lemma gstory_length gw h gs log evs h' : gstory gw h gs log evs h' -> length gs = length log.
Proof. induction 1; cbn; congruence. Qed.

Lemma last_at {A} (l : list A) y d x : length l = Datatypes.S y -> last l d = x -> nth_error l y = Some x.
Proof.
  revert y. induction l as [|u [|w l] IH]; intros [|y] E L; try discriminate; [cbn in *; congruence|]. injection E as E. cbn [nth_error]. apply IH; [cbn; congruence|exact L].
Qed.

Theorem crowd_date gw high low ns css es0 ord0 ls0 h h0 inn0 out0 evs0 es1 ord1 ls1 h1 inn1 out1 evs1 es2 ord2 ls2 h2 inn2 out2 evs2 i j a b it d it' :
  ggateway_ok gw -> ghouse_ok h -> plain h ->
  crowd gw high low (fun j => linit (ns j)) h (fun _ => []) (fun _ => []) es0 ord0 ls0 h0 inn0 out0 evs0 ->
  crowd gw high low ls0 h0 inn0 out0 es1 ord1 ls1 h1 inn1 out1 evs1 ->
  crowd gw high low ls1 h1 inn1 out1 es2 ord2 ls2 h2 inn2 out2 evs2 ->
  (forall j, gbehaves high low ns (es0 ++ es1 ++ es2) css j) ->
  nth_error (css i) a = Some (GSetDate it d) -> (length (started (of_client i es0)) <= a < length (k_done (l_c (ls1 i))))%nat ->
  nth_error (css j) b = Some (GAsk it' QDate) -> (length (started (of_client j (es0 ++ es1))) <= b < length (k_done (l_c (ls2 j))))%nat ->
  existsb (aimed gw GATEWAY (it_where it')) h = true ->
  (forall p, In p h -> aimed gw GATEWAY (it_where it') p = true -> aimed gw GATEWAY (it_where it) p = true) ->
  (forall i' a' g, nth_error (css i') a' = Some g -> (length (k_done (l_c (ls0 i'))) <= a')%nat -> (i', a') <> (i, a) -> no_set_date g) ->
  exists heard ms trace, informed (es0 ++ es1 ++ es2) j (ord0 ++ ord1 ++ ord2) (ls2 j) (inn2 j) (out2 j) heard (map verdict heard) /\
    nth_error (mine j (ord0 ++ ord1 ++ ord2) heard) b = Some ms /\ gprogram (GAsk it' QDate) (map Some ms) = (trace, [], Ok (ADate d)).
Proof.
  intros G Hh P C0 C1 C2 B Ei (La1 & La2) Ej (Lb1 & Lb2) X Cv Oth.
  pose proof (crowd_app _ _ _ _ _ _ _ _ _ _ _ _ _ _ C0 _ _ _ _ _ _ _ C1) as C01.
  pose proof (crowd_app _ _ _ _ _ _ _ _ _ _ _ _ _ _ C0 _ _ _ _ _ _ _ (crowd_app _ _ _ _ _ _ _ _ _ _ _ _ _ _ C1 _ _ _ _ _ _ _ C2)) as C.
  assert (Od : forall x, orderly gkind high low ns (es0 ++ es1 ++ es2) x) by (intros x; eapply gbehaves_orderly, B).
  assert (En : forall es post ord ls hx inn out evs, es0 ++ es1 ++ es2 = es ++ post -> crowd gw high low (fun j => linit (ns j)) h (fun _ => []) (fun _ => []) es ord ls hx inn out evs ->
    forall j, (length (k_done (l_c (ls j))) <= count j ord <= length (started (of_client j es)))%nat).
  { intros es post ord ls hx inn out evs E Cx. apply (ended_heeded (housed gw) ghouse_good gkind high low ns es ord ls (h, []) (hx, [] ++ evs) inn out (house_civil gw G) (conj Hh P)).
    - intros x. eapply (orderly_before _ _ _ _ es post). rewrite <- E. apply Od.
    - apply crowd_throng, Cx. }
  pose proof (En _ _ _ _ _ _ _ _ eq_refl C0) as O0. pose proof (En _ es2 _ _ _ _ _ _ (app_assoc _ _ _) C01) as O1. pose proof (En _ [] _ _ _ _ _ _ (eq_sym (app_nil_r _)) C) as O2.
  destruct (meter_crowd gw high low ns _ _ _ h _ _ _ _ css G Hh P C B) as (cs & log & heard & St & Lc & Ll & Lh & Al & Td).
  set (ord := ord0 ++ ord1 ++ ord2) in *.
  destruct (turn_some i ord a) as (x & Tx). { unfold ord. rewrite app_assoc, count_app. specialize (O1 i). lia. }
  destruct (turn_some j ord b) as (y & Ty). { specialize (O2 j). lia. }
  assert (X0 : (length ord0 <= x)%nat) by (pose proof (turn_split _ _ _ _ _ Tx); specialize (O0 i); lia).
  assert (Lxy : (x < y)%nat).
  { unfold ord in Tx, Ty. rewrite app_assoc in Tx, Ty. pose proof (turn_split _ _ _ _ _ Tx). pose proof (turn_split _ _ _ _ _ Ty). pose proof (O1 i). pose proof (O1 j). lia. }
  assert (At : forall i' a' z, turn i' a' ord = Some z -> nth_error cs z = nth_error (css i') a').
  { intros i' a' z Tz. rewrite <- (turn_mine i' ord a' z cs Tz). destruct (Td i') as (-> & _).
    pose proof (turn_lt _ _ _ _ Tz) as L.
    clear - L. revert a' L. generalize (count i' ord), (css i'). intros n l. revert n. induction l as [|u l IH]; intros [|n] a' L; try lia; [destruct a'; reflexivity|].
    destruct a' as [|a']; [reflexivity|]. cbn. apply IH. lia. }
  pose proof (At _ _ _ Tx) as Nx. rewrite Ei in Nx. pose proof (At _ _ _ Ty) as Ny. rewrite Ej in Ny.
  destruct (nth_split2 cs x y _ _ Lxy Nx Ny) as (before & between & after & Ec & Lbf & Lbt).
  replace cs with ((before ++ GSetDate it d :: between ++ [GAsk it' QDate]) ++ after) in St by (rewrite Ec, <- app_assoc; cbn [app]; rewrite <- app_assoc; reflexivity).
  destruct (gstory_app gw _ _ _ _ _ _ St) as (hx & log1 & log2 & ev1 & ev2 & S1 & S2 & El & _).
  assert (Lo : last log1 ([], Ok ANothing) = ([], Ok (ADate d))).
  { apply (date_back gw h before it d between it' log1 ev1 hx S1); [|exact X|exact Cv|].
    - destruct (B i) as (Fi & _). rewrite Forall_forall in Fi. destruct (Fi _ (nth_error_In _ _ Ei)) as (_ & _ & _ & o & Ho). eauto.
    - apply Forall_forall. intros c' Ic'. apply In_nth_error in Ic' as (z & Hz).
      assert (Lz : (z < length between)%nat) by (apply nth_error_Some; rewrite Hz; discriminate).
      assert (Nz : nth_error cs (x + Datatypes.S z) = Some c').
      { rewrite Ec, <- Lbf, nth_error_app2 by lia. replace (length before + Datatypes.S z - length before)%nat with (Datatypes.S z) by lia. cbn [nth_error]. rewrite nth_error_app1 by exact Lz. exact Hz. }
      destruct (nth_error ord (x + Datatypes.S z)) as [i'|] eqn:Oz; [|apply nth_error_None in Oz; assert ((x + Datatypes.S z < length cs)%nat) by (apply nth_error_Some; rewrite Nz; discriminate); lia].
      pose proof (turn_of i' ord _ Oz) as Tz. set (a' := count i' (firstn (x + Datatypes.S z) ord)) in *. rewrite (At _ _ _ Tz) in Nz.
      apply (Oth i' a' c' Nz); [|intros E; injection E as -> ->; rewrite Tz in Tx; injection Tx; lia].
      destruct (Nat.le_gt_cases (length (k_done (l_c (ls0 i')))) a') as [Y|Y]; [exact Y|]. exfalso. pose proof (turn_split _ _ _ _ _ Tz) as Sz. specialize (O0 i'). lia. }
  assert (Ll1 : length log1 = Datatypes.S y).
  { rewrite <- (gstory_length _ _ _ _ _ _ S1). rewrite app_length. cbn [length]. rewrite app_length. cbn [length]. lia. }
  assert (Nl : nth_error log y = Some ([], Ok (ADate d))) by (rewrite El, nth_error_app1 by lia; eapply last_at; eassumption).
  destruct (nth_error heard y) as [ms|] eqn:Hm; [|apply nth_error_None in Hm; assert ((y < length cs)%nat) by (apply nth_error_Some; rewrite Ny; discriminate); lia].
  assert (Nc : nth_error (combine heard log) y = Some (ms, ([], Ok (ADate d)))).
  { clear - Hm Nl. revert heard log Hm Nl. induction y as [|y IH]; intros [|u heard] [|w log] Hm Nl; try discriminate; cbn in *; [congruence|apply IH; assumption]. }
  assert (Ga : galone (GAsk it' QDate) ms ([], Ok (ADate d))).
  { clear - Al Ny Nc. revert y Ny Nc. induction Al as [|u w us ws Hu Al IH]; intros [|y] Ny Nc; try discriminate; cbn in Ny, Nc; [injection Ny as ->; injection Nc as ->; exact Hu|eapply IH; eassumption]. }
  destruct Ga as (tr & Ga & _). cbn [snd] in Ga. exists heard, ms, tr. split; [apply Td|]. split; [rewrite (turn_mine j ord b y heard Ty); exact Hm|exact Ga].
Qed.
