(** * Several clients, each with its own connection: proofs *)
From Coq Require Import String List NArith ZArith Bool Lia.
From Verif Require Import PyStr Tags Messages MessageFacts SpecMsg SpecTag SpecProto ProtoThms Protocol Queue QueueThms Sender SenderThms IO Client SpecItem Items
  Conc SpecConc ConcThms SpecSerial SerialThms SpecHouse HouseThms HouseThms2 SpecCrash CrashThms SpecTogether SerialThms2 TogetherThms Line SpecLine LineThms LineThms2 LineThms3 SpecCrowd.
Import ListNotations.
Open Scope list_scope.

Lemma put_same {A} (f : nat -> A) j x : put f j x j = x.
Proof. unfold put. rewrite Nat.eqb_refl. reflexivity. Qed.
Lemma put_other {A} (f : nat -> A) j x i : i <> j -> put f j x i = f i.
Proof. intros H. unfold put. destruct (Nat.eqb_spec i j); [congruence|reflexivity]. Qed.

(** ** Lists that belong to several clients *)

Lemma mine_cons {A} j i ord (x : A) xs : mine j (i :: ord) (x :: xs) = if Nat.eqb i j then x :: mine j ord xs else mine j ord xs.
Proof. unfold mine. cbn [combine filter fst]. destruct (Nat.eqb i j); reflexivity. Qed.
Lemma mine_nil {A} j ord : mine j ord (@nil A) = [].
Proof. destruct ord; reflexivity. Qed.
Lemma mine_map {A B} (f : A -> B) j ord : forall xs, mine j ord (map f xs) = map f (mine j ord xs).
Proof. induction ord as [|i ord IH]; intros [|x xs]; cbn [map]; rewrite ?mine_nil, ?mine_cons; try reflexivity. rewrite IH. destruct (Nat.eqb i j); reflexivity. Qed.
Lemma mine_length {A} j ord : forall xs : list A, length xs = length ord -> length (mine j ord xs) = length (filter (fun i => Nat.eqb i j) ord).
Proof.
  induction ord as [|i ord IH]; intros [|x xs] E; try discriminate; [reflexivity|]. rewrite mine_cons. cbn [filter]. injection E as E.
  destruct (Nat.eqb i j); cbn [length]; rewrite (IH xs E); reflexivity.
Qed.
Lemma mine_in {A} j ord : forall (xs : list A) x, In x (mine j ord xs) -> In x xs.
Proof.
  intros xs x H. unfold mine in H. apply in_map_iff in H as ([i y] & <- & H). apply filter_In in H as (H & _). apply in_combine_r in H. exact H.
Qed.
Lemma mine_forall2 {A B} (R : A -> B -> Prop) j ord : forall xs ys, Forall2 R xs ys -> Forall2 R (mine j ord xs) (mine j ord ys).
Proof.
  induction ord as [|i ord IH]; intros xs ys F; [constructor|]. destruct F as [|x y xs ys H F]; [rewrite !mine_nil; constructor|].
  rewrite !mine_cons. destruct (Nat.eqb i j); [constructor; auto|auto].
Qed.
Lemma mine_combine {A B} j ord : forall (xs : list A) (ys : list B), mine j ord (combine xs ys) = combine (mine j ord xs) (mine j ord ys).
Proof.
  induction ord as [|i ord IH]; intros xs ys; [reflexivity|]. destruct xs as [|x xs]; [rewrite !mine_nil; reflexivity|].
  destruct ys as [|y ys]; cbn [combine]; rewrite ?mine_nil; [destruct (mine j (i :: ord) (x :: xs)); reflexivity|]. rewrite !mine_cons, IH. destruct (Nat.eqb i j); reflexivity.
Qed.

(** A list is determined by its parts. *)
Lemma mine_ext {A} ord : forall xs ys : list A, length xs = length ord -> length ys = length ord -> (forall j, mine j ord xs = mine j ord ys) -> xs = ys.
Proof.
  induction ord as [|i ord IH]; intros [|x xs] [|y ys] Lx Ly E; try discriminate; [reflexivity|].
  assert (H : x = y) by (specialize (E i); rewrite !mine_cons, Nat.eqb_refl in E; injection E as E1 _; exact E1). subst y. f_equal. apply IH; [cbn in Lx; lia|cbn in Ly; lia|].
  intros j. specialize (E j). rewrite !mine_cons in E. destruct (Nat.eqb i j); [injection E as E; exact E|exact E].
Qed.

(** The list with given parts. *)
Fixpoint deal {A} (ord : list nat) (f : nat -> list A) : list A :=
  match ord with [] => [] | j :: r => match f j with x :: t => x :: deal r (put f j t) | [] => [] end end.

Lemma deal_mine {A} ord : forall f : nat -> list A, (forall j, (count j ord <= length (f j))%nat) ->
  length (deal ord f) = length ord /\ forall j, mine j ord (deal ord f) = firstn (count j ord) (f j).
Proof.
  induction ord as [|i ord IH]; intros f C; [split; reflexivity|]. cbn [deal].
  pose proof (C i) as Ci. unfold count in Ci. cbn [filter] in Ci. rewrite Nat.eqb_refl in Ci. cbn [length] in Ci.
  destruct (f i) as [|x t] eqn:Fi; [cbn in Ci; lia|].
  destruct (IH (put f i t)) as (L & M).
  { intros j. specialize (C j). unfold count in C |- *. cbn [filter] in C. destruct (Nat.eqb_spec i j) as [->|N].
    - rewrite put_same. rewrite Fi in C. cbn [length] in C. lia.
    - rewrite put_other by congruence. exact C. }
  split; [cbn [length]; rewrite L; reflexivity|]. intros j. rewrite mine_cons, M. unfold count. cbn [filter]. destruct (Nat.eqb_spec i j) as [->|N].
  - rewrite put_same, Fi. reflexivity.
  - rewrite put_other by congruence. reflexivity.
Qed.

Lemma deal_forall2 {A B} (R : A -> B -> Prop) ord : forall f g, (forall j, Forall2 R (f j) (g j)) -> Forall2 R (deal ord f) (deal ord g).
Proof.
  induction ord as [|i ord IH]; intros f g H; cbn [deal]; [constructor|]. pose proof (H i) as Hi. destruct Hi as [|x y t u Hx Ht]; [constructor|].
  constructor; [exact Hx|]. apply IH. intros j. unfold put. destruct (Nat.eqb j i); auto.
Qed.
Lemma deal_forall {A} (P : A -> Prop) ord : forall f, (forall j, Forall P (f j)) -> Forall P (deal ord f).
Proof.
  induction ord as [|i ord IH]; intros f H; cbn [deal]; [constructor|]. pose proof (H i) as Hi. destruct (f i) as [|x t]; [constructor|].
  inversion Hi; subst. constructor; [assumption|]. apply IH. intros j. unfold put. destruct (Nat.eqb j i); auto.
Qed.

(** ** The gateway's side *)

(** Frames dealt with one after the other, with the answer to each. *)
Inductive served (gw : gateway) : house -> list (list N) -> list (list (list N)) -> house -> list (list N) -> Prop :=
| Se_nil h : served gw h [] [] h []
| Se_cons h b h1 a e1 bs ans h' evs : serves gw h b h1 a e1 -> served gw h1 bs ans h' evs -> served gw h (b :: bs) (a :: ans) h' (e1 ++ evs).

Lemma served_story gw : gateway_ok gw -> forall h bs ans h' evs, served gw h bs ans h' evs -> forall ks cs, house_ok h -> plain h ->
  made ks cs -> Forall call_ok cs -> bs = map frame_of ks ->
  exists log heard, story gw h cs log evs h' /\ dialogue ks heard /\ map snd heard = map snd log /\
    Forall2 (fun c x => alone c (fst x) (snd x)) cs (combine (map fst heard) log) /\
    ans = map (fun x => map msg_str (fst x)) heard /\ Forall (fun x => Forall streamable (fst x)) heard.
Proof.
  intros G h bs ans h' evs C. induction C as [h|h b h1 a e1 bs ans h' evs Sv C IH]; intros ks cs Hh P M F E.
  - destruct ks; [|discriminate]. inversion M; subst. exists [], []. repeat split; constructor.
  - destruct ks as [|k ks]; [discriminate|]. injection E as -> E. inversion M as [|? c ? cs0 (o & Ho & W & Eb) M0]; subst. inversion F as [|? ? Hc F0]; subst. unfold frame_of in Sv. rewrite Eb in Sv.
    pose proof Hc as (_ & Hw & _). pose proof (serves_order _ _ _ _ _ _ (stands_ok c o Hw Ho) Sv) as O.
    destruct (answer_whole gw h c o _ h1 a e1 Hh P Hc Ho W O) as (ms1 & es1 & r & -> & S1 & Wa & Pr & D).
    destruct (IH ks cs0 (does_ok _ _ _ _ _ _ _ G Hh D) (does_plain _ _ _ _ _ _ _ P D) M0 F0 eq_refl) as (log & heard & A1 & A2 & A3 & A4 & A5 & A6).
    exists ((yields es1, r) :: log), ((ms1, r) :: heard). split; [econstructor; eassumption|]. split; [constructor; assumption|].
    split; [cbn; congruence|]. split; [constructor; [exists es1; auto|exact A4]|]. split; [cbn [map fst]; rewrite A5; reflexivity|constructor; auto].
Qed.

Lemma of_client_cons j i e es : of_client j ((i, e) :: es) = if Nat.eqb i j then e :: of_client j es else of_client j es.
Proof. unfold of_client. cbn [filter fst]. destruct (Nat.eqb i j); reflexivity. Qed.

Section water.
Variables high low : nat.
Notation lrun := (lrun high low).
Notation lstep := (lstep high low).

Lemma crowd_served gw ns : forall ls h inn out es ord ls' h' inn' out' evs, crowd gw high low ls h inn out es ord ls' h' inn' out' evs ->
  forall pre, (forall j, lrun (linit (ns j)) (pre j) = Some (ls j)) ->
  exists bs ans, served gw h bs ans h' evs /\ length bs = length ord /\ length ans = length ord /\
  forall j, lrun (linit (ns j)) (pre j ++ of_client j es) = Some (ls' j) /\
    exists x fss, s_done (l_s (ls' j)) = s_done (l_s (ls j)) ++ x /\ inn j ++ frames_done x = mine j ord bs ++ inn' j /\
    packets (of_client j es) = map (@concat N) fss /\ out j ++ concat (mine j ord ans) = concat fss ++ out' j.
Proof.
  intros ls h inn out es ord ls' h' inn' out' evs C.
  induction C as [ls h inn out|ls h inn out i b rest h1 a ev1 es ord ls' h' inn' out' evs Ei Sv C IH|ls h inn out i e l1 es ord ls' h' inn' out' evs Np S C IH|ls h inn out i fs rest l1 es ord ls' h' inn' out' evs Eo S C IH]; intros pre R.
  - exists [], []. split; [constructor|]. split; [reflexivity|]. split; [reflexivity|]. intros j. rewrite app_nil_r. split; [apply R|]. exists [], []. cbn. rewrite !app_nil_r. auto.
  - destruct (IH pre R) as (bs & ans & Sd & Lb & La & J). exists (b :: bs), (a :: ans). split; [econstructor; eassumption|]. split; [cbn; congruence|]. split; [cbn; congruence|].
    intros j. destruct (J j) as (R' & x & fss & D & I & Pk & O). split; [exact R'|]. exists x, fss. split; [exact D|]. rewrite !mine_cons. destruct (Nat.eqb_spec i j) as [->|N].
    + rewrite put_same in I, O. rewrite Ei. cbn [app]. split; [f_equal; exact I|]. split; [exact Pk|]. cbn [concat]. rewrite app_assoc. exact O.
    + rewrite put_other in I, O by congruence. auto.
  - assert (R1 : forall j, lrun (linit (ns j)) (put pre i (pre i ++ [e]) j) = Some (put ls i l1 j)).
    { intros j. unfold put. destruct (Nat.eqb_spec j i) as [->|N]; [|apply R]. eapply lrun_join; [apply R|]. cbn [Line.lrun]. rewrite S. reflexivity. }
    destruct (IH _ R1) as (bs & ans & Sd & Lb & La & J). exists bs, ans. split; [exact Sd|]. split; [exact Lb|]. split; [exact La|].
    intros j. destruct (J j) as (R' & x & fss & D & I & Pk & O). rewrite of_client_cons. destruct (Nat.eqb_spec i j) as [->|N].
    + rewrite !put_same in *. rewrite <- app_assoc in R'. split; [exact R'|].
      destruct (sides high low (ns j) (pre j) (ls j) (R j)) as (Sr & _). pose proof (b_sleep _ (bytes_reachable high low (ns j) _ _ Sr)) as As.
      destruct (step_sides high low (ls j) e l1 (lstep_shape high low (ls j) e l1 As S)) as (_ & y & _ & _ & _ & _ & Dy & _).
      exists (y ++ x), fss. split; [rewrite D, Dy, app_assoc; reflexivity|].
      assert (T : taken (ls j) l1 = frames_done y) by (unfold taken; rewrite Dy, skipn_app, skipn_all, Nat.sub_diag; reflexivity).
      rewrite T, <- app_assoc, <- frames_app in I. split; [exact I|]. split; [|exact O]. destruct e; try exact Pk. exfalso. eapply Np. reflexivity.
    + rewrite !put_other in * by congruence. split; [exact R'|]. exists x, fss. auto.
  - assert (R1 : forall j, lrun (linit (ns j)) (put pre i (pre i ++ [LPacket (concat fs)]) j) = Some (put ls i l1 j)).
    { intros j. unfold put. destruct (Nat.eqb_spec j i) as [->|N]; [|apply R]. eapply lrun_join; [apply R|]. cbn [Line.lrun]. rewrite S. reflexivity. }
    destruct (IH _ R1) as (bs & ans & Sd & Lb & La & J). exists bs, ans. split; [exact Sd|]. split; [exact Lb|]. split; [exact La|].
    intros j. destruct (J j) as (R' & x & fss & D & I & Pk & O). rewrite of_client_cons. destruct (Nat.eqb_spec i j) as [->|N].
    + rewrite !put_same in *. rewrite <- app_assoc in R'. split; [exact R'|].
      assert (Ds : s_done (l_s l1) = s_done (l_s (ls j))).
      { cbn [Line.lstep] in S. unfold lift_c in S. destruct (cstep (l_c (ls j)) (KPacket (concat fs))); [|discriminate]. injection S as <-. reflexivity. }
      rewrite Ds in D. exists x, (fs :: fss). split; [exact D|]. split; [exact I|]. split; [cbn [packets map]; rewrite Pk; reflexivity|]. cbn [concat]. rewrite Eo, <- !app_assoc. f_equal. exact O.
    + rewrite !put_other in * by congruence. split; [exact R'|]. exists x, fss. auto.
Qed.
End water.

(** ** The story *)

Theorem crowd_story gw high low ns es ord ls h h' inn out evs css : gateway_ok gw -> house_ok h -> plain h ->
  crowd gw high low (fun j => linit (ns j)) h (fun _ => []) (fun _ => []) es ord ls h' inn out evs ->
  (forall j, behaves high low ns es css j) ->
  exists cs log heard, story gw h cs log evs h' /\ length cs = length ord /\ length log = length ord /\ length heard = length ord /\
    Forall2 (fun c x => alone c (fst x) (snd x)) cs (combine heard log) /\
    forall j, mine j ord cs = firstn (count j ord) (css j) /\ told es css j ord (ls j) (inn j) (out j) log heard.
Proof.
  intros G Hh P C H.
  destruct (crowd_served high low gw ns _ _ _ _ _ _ _ _ _ _ _ C (fun _ => []) (fun _ => eq_refl)) as (bs & ans & Sd & Lb & La & J). cbn [app] in J.
  assert (Fr : forall j, (count j ord <= length (started (of_client j es)))%nat /\ mine j ord bs = map frame_of (firstn (count j ord) (started (of_client j es)))).
  { intros j. destruct (J j) as (R & x & fss & D & I & _). cbn in D. subst x. destruct (H j) as (_ & Lk & U & _).
    destruct (client_frames high low (ns j) _ _ _ _ R Lk (proj1 (undisturbed_calm _ U)) I) as (L & E). rewrite (mine_length j ord bs Lb) in L, E. split; assumption. }
  assert (Cl : forall j, length (started (of_client j es)) = length (css j)) by (intros j; destruct (H j) as (_ & _ & _ & M); exact (SerialThms.forall2_length _ _ _ M)).
  destruct (deal_mine ord (fun j => started (of_client j es)) (fun j => proj1 (Fr j))) as (Ld & Md).
  destruct (deal_mine ord css) as (Lc & Mc); [intros j; rewrite <- Cl; apply Fr|].
  set (ks := deal ord (fun j => started (of_client j es))) in *. set (cs := deal ord css) in *.
  assert (Eb : bs = map frame_of ks).
  { apply (mine_ext ord); [exact Lb|rewrite map_length; exact Ld|]. intros j. rewrite mine_map, Md. apply Fr. }
  assert (Mk : made ks cs) by (apply deal_forall2; intros j; apply H).
  assert (Fk : Forall call_ok cs) by (apply deal_forall; intros j; apply H).
  destruct (served_story gw G _ _ _ _ _ Sd ks cs Hh P Mk Fk Eb) as (log & hd & St & Di & Sn & Al & Ea & Sm).
  assert (Lh : length hd = length ord) by (rewrite <- La, Ea, map_length; reflexivity).
  exists cs, log, (map fst hd). split; [exact St|]. split; [exact Lc|]. split; [rewrite <- Lh, <- (map_length snd hd), Sn, map_length; reflexivity|]. split; [rewrite map_length; exact Lh|]. split; [exact Al|].
  intros j. split; [apply Mc|]. destruct (J j) as (R & x & fss & D & I & Pk & O). cbn in D. subst x. destruct (H j) as (_ & Lk & U & M).
  pose proof (mine_forall2 _ j ord _ _ Di) as Dj. rewrite Md in Dj.
  assert (Lm : length (mine j ord bs) = count j ord) by (apply mine_length, Lb).
  destruct (client_side high low (ns j) _ _ (css j) (mine j ord bs) (inn j) fss (out j) (mine j ord hd) R Lk U M I Pk) as (k & pend & read & K1 & K2 & K3 & K4 & K5 & K6).
  - rewrite Lm. exact Dj.
  - rewrite Ea, mine_map in O. cbn [app] in O. rewrite <- O, concat_map, map_map. reflexivity.
  - apply Forall_forall. intros m Hm. apply in_concat in Hm as (ms & Hms & Hm). apply in_map_iff in Hms as (y & <- & Hy). apply mine_in in Hy.
    rewrite Forall_forall in Sm. pose proof (Sm y Hy) as X. rewrite Forall_forall in X. apply X, Hm.
  - rewrite Lm in *. assert (Ej : map snd (mine j ord hd) = map snd (mine j ord log)) by (rewrite <- !mine_map, Sn; reflexivity).
    rewrite Ej in K3, K6. unfold told. rewrite (mine_map fst). exists k, pend, read. auto 10.
Qed.

(** ** Whose turn it is *)

Lemma count_app j o1 o2 : count j (o1 ++ o2) = (count j o1 + count j o2)%nat.
Proof. unfold count. rewrite filter_app, app_length. reflexivity. Qed.
Lemma count_cons j i o : count j (i :: o) = ((if Nat.eqb i j then 1 else 0) + count j o)%nat.
Proof. unfold count. cbn [filter]. destruct (Nat.eqb i j); reflexivity. Qed.

Lemma turn_at j ord : forall n p, turn j n ord = Some p -> nth_error ord p = Some j /\ count j (firstn p ord) = n.
Proof.
  induction ord as [|i ord IH]; intros n p E; [discriminate|]. cbn [turn] in E. destruct (Nat.eqb_spec i j) as [->|N].
  - destruct n as [|n]; [injection E as <-; split; reflexivity|]. destruct (turn j n ord) as [q|] eqn:T; [|discriminate]. injection E as <-.
    destruct (IH _ _ T) as (A & B). split; [exact A|]. cbn [firstn]. rewrite count_cons, Nat.eqb_refl, B. reflexivity.
  - destruct (turn j n ord) as [q|] eqn:T; [|discriminate]. injection E as <-. destruct (IH _ _ T) as (A & B). split; [exact A|]. cbn [firstn]. rewrite count_cons, B.
    destruct (Nat.eqb_spec i j); [congruence|reflexivity].
Qed.
Lemma turn_some j ord : forall n, (n < count j ord)%nat -> exists p, turn j n ord = Some p.
Proof.
  induction ord as [|i ord IH]; intros n L; [cbn in L; lia|]. rewrite count_cons in L. cbn [turn]. destruct (Nat.eqb i j).
  - destruct n as [|n]; [eauto|]. destruct (IH n) as (p & ->); [lia|]. cbn. eauto.
  - destruct (IH n) as (p & ->); [lia|]. cbn. eauto.
Qed.
Lemma turn_of j ord : forall p, nth_error ord p = Some j -> turn j (count j (firstn p ord)) ord = Some p.
Proof.
  induction ord as [|i ord IH]; intros [|p] E; try discriminate.
  - injection E as ->. cbn. rewrite Nat.eqb_refl. reflexivity.
  - cbn [nth_error] in E. cbn [firstn turn]. rewrite count_cons. destruct (Nat.eqb i j); cbn [Nat.add]; rewrite (IH p E); reflexivity.
Qed.
Lemma turn_mine {A} j ord : forall n p (xs : list A), turn j n ord = Some p -> nth_error (mine j ord xs) n = nth_error xs p.
Proof.
  induction ord as [|i ord IH]; intros n p xs E; [discriminate|]. destruct xs as [|x xs]; [rewrite mine_nil; destruct n, p; reflexivity|]. rewrite mine_cons. cbn [turn] in E. destruct (Nat.eqb i j).
  - destruct n as [|n]; [injection E as <-; reflexivity|]. destruct (turn j n ord) as [q|] eqn:T; [|discriminate]. injection E as <-. cbn [nth_error]. apply IH, T.
  - destruct (turn j n ord) as [q|] eqn:T; [|discriminate]. injection E as <-. cbn [nth_error]. apply IH, T.
Qed.
Lemma turn_split j n o1 o2 p : turn j n (o1 ++ o2) = Some p -> ((n < count j o1)%nat <-> (p < length o1)%nat).
Proof.
  intros T. destruct (turn_at j _ _ _ T) as (E & C). split; intros L.
  - destruct (Nat.lt_ge_cases p (length o1)) as [X|X]; [exact X|]. rewrite firstn_app, firstn_all2, count_app in C by lia. lia.
  - rewrite nth_error_app1 in E by exact L. apply nth_error_split in E as (l1 & l2 & -> & <-). rewrite <- app_assoc in C. rewrite firstn_app, firstn_all, Nat.sub_diag in C. cbn [firstn] in C.
    rewrite app_nil_r in C. rewrite count_app, count_cons, Nat.eqb_refl. lia.
Qed.

Lemma turn_lt j n ord p : turn j n ord = Some p -> (n < count j ord)%nat.
Proof.
  intros T. destruct (turn_at j _ _ _ T) as (E & _). rewrite <- (app_nil_r ord) in T. apply (turn_split j n ord [] p T). apply nth_error_Some. rewrite E. discriminate.
Qed.

(** ** One thing after the other *)

Lemma crowd_app gw high low ls h inn out es1 ord1 ls1 h1 inn1 out1 evs1 : crowd gw high low ls h inn out es1 ord1 ls1 h1 inn1 out1 evs1 ->
  forall es2 ord2 ls2 h2 inn2 out2 evs2, crowd gw high low ls1 h1 inn1 out1 es2 ord2 ls2 h2 inn2 out2 evs2 ->
  crowd gw high low ls h inn out (es1 ++ es2) (ord1 ++ ord2) ls2 h2 inn2 out2 (evs1 ++ evs2).
Proof.
  induction 1; intros; cbn [app]; auto.
  - rewrite <- app_assoc. eapply Cr_obey; eauto.
  - eapply Cr_step; eauto.
  - eapply Cr_packet; eauto.
Qed.

Lemma of_client_app j es1 es2 : of_client j (es1 ++ es2) = of_client j es1 ++ of_client j es2.
Proof. unfold of_client. rewrite filter_app, map_app. reflexivity. Qed.
Lemma started_app es1 : forall es2, started (es1 ++ es2) = started es1 ++ started es2.
Proof. induction es1 as [|[] es1 IH]; intros; cbn [app started]; rewrite ?IH; reflexivity. Qed.

Definition first_calls (es : list (nat * levent)) (css : nat -> list call) (j : nat) : list call := firstn (length (started (of_client j es))) (css j).
Lemma behaves_before high low ns es1 es2 css j : behaves high low ns (es1 ++ es2) css j -> behaves high low ns es1 (first_calls es1 css) j.
Proof.
  intros (F & Lk & U & M). unfold behaves, first_calls. rewrite of_client_app in *. split.
  - rewrite <- (firstn_skipn (length (started (of_client j es1))) (css j)) in F. apply Forall_app in F. apply F.
  - split; [|split].
    + intros pre i p m k post l E R. eapply (Lk pre i p m k (post ++ of_client j es2)); [rewrite E, <- app_assoc; reflexivity|exact R].
    + apply Forall_app in U. apply U.
    + unfold made in *. rewrite started_app in M. apply Forall2_app_inv_l in M as (l1 & l2 & M1 & M2 & ->).
      rewrite firstn_app, (SerialThms.forall2_length _ _ _ M1), firstn_all, Nat.sub_diag, firstn_O, app_nil_r. exact M1.
Qed.

(** What has ended was obeyed, and what was obeyed had started. *)
Lemma ended_obeyed gw high low ns es ord ls h h' inn out evs css : gateway_ok gw -> house_ok h -> plain h ->
  crowd gw high low (fun j => linit (ns j)) h (fun _ => []) (fun _ => []) es ord ls h' inn out evs -> (forall j, behaves high low ns es css j) ->
  forall j, (length (k_done (l_c (ls j))) <= count j ord <= length (started (of_client j es)))%nat.
Proof.
  intros G Hh P C B j. destruct (crowd_story gw high low ns es ord ls h h' inn out evs css G Hh P C B) as (cs & log & heard & _ & _ & _ & _ & _ & T).
  destruct (T j) as (_ & k & pend & read & K1 & _ & K3 & _). destruct (B j) as (_ & _ & _ & M). rewrite (SerialThms.forall2_length _ _ _ M). rewrite K3.
  rewrite firstn_length. lia.
Qed.

Theorem crowd_order gw high low ns css es1 ord1 ls1 h h1 inn1 out1 evs1 es2 ord2 ls2 h2 inn2 out2 evs2 : gateway_ok gw -> house_ok h -> plain h ->
  crowd gw high low (fun j => linit (ns j)) h (fun _ => []) (fun _ => []) es1 ord1 ls1 h1 inn1 out1 evs1 ->
  crowd gw high low ls1 h1 inn1 out1 es2 ord2 ls2 h2 inn2 out2 evs2 ->
  (forall j, behaves high low ns (es1 ++ es2) css j) ->
  forall i j a b, (a < length (k_done (l_c (ls1 i))))%nat -> (length (started (of_client j es1)) <= b)%nat ->
  exists p, turn i a (ord1 ++ ord2) = Some p /\ forall q, turn j b (ord1 ++ ord2) = Some q -> (p < q)%nat.
Proof.
  intros G Hh P C1 C2 B i j a b La Lb.
  pose proof (ended_obeyed gw high low ns es1 ord1 ls1 h h1 inn1 out1 evs1 (first_calls es1 css) G Hh P C1 (fun x => behaves_before _ _ _ _ _ _ _ (B x))) as O.
  destruct (turn_some i (ord1 ++ ord2) a) as (p & Tp); [rewrite count_app; specialize (O i); lia|]. exists p. split; [exact Tp|]. intros q Tq.
  pose proof (turn_split _ _ _ _ _ Tp) as Sp. pose proof (turn_split _ _ _ _ _ Tq) as Sq. pose proof (O i). pose proof (O j). lia.
Qed.

(** ** What one client set is what another reads *)

Lemma story_length gw h cs log evs h' : story gw h cs log evs h' -> length cs = length log.
Proof. induction 1; cbn; congruence. Qed.

Lemma nth_split2 {A} (xs : list A) p q x y : (p < q)%nat -> nth_error xs p = Some x -> nth_error xs q = Some y ->
  exists before between after, xs = before ++ x :: between ++ y :: after /\ length before = p /\ (length before + Datatypes.S (length between) = q)%nat.
Proof.
  intros L X Y. apply nth_error_split in X as (l1 & l2 & -> & <-). rewrite nth_error_app2 in Y by lia. replace (q - length l1)%nat with (Datatypes.S (q - length l1 - 1)) in Y by lia.
  cbn [nth_error] in Y. apply nth_error_split in Y as (l3 & l4 & -> & E). exists l1, l3, l4. split; [reflexivity|]. split; [reflexivity|lia].
Qed.

Theorem crowd_seen gw high low ns css es0 ord0 ls0 h h0 inn0 out0 evs0 es1 ord1 ls1 h1 inn1 out1 evs1 es2 ord2 ls2 h2 inn2 out2 evs2 i j a b c ask p o oa v :
  gateway_ok gw -> house_ok h -> plain h ->
  crowd gw high low (fun j => linit (ns j)) h (fun _ => []) (fun _ => []) es0 ord0 ls0 h0 inn0 out0 evs0 ->
  crowd gw high low ls0 h0 inn0 out0 es1 ord1 ls1 h1 inn1 out1 evs1 ->
  crowd gw high low ls1 h1 inn1 out1 es2 ord2 ls2 h2 inn2 out2 evs2 ->
  (forall j, behaves high low ns (es0 ++ es1 ++ es2) css j) ->
  nth_error (css i) a = Some c -> (length (started (of_client i es0)) <= a < length (k_done (l_c (ls1 i))))%nat ->
  nth_error (css j) b = Some ask -> (length (started (of_client j (es0 ++ es1))) <= b < length (k_done (l_c (ls2 j))))%nat ->
  In p h -> stands_for c o -> stands_for ask oa -> at_whom gw o p = true -> at_whom gw oa p = true -> tells gw c ask v ->
  (forall i' a' c', nth_error (css i') a' = Some c' -> (length (k_done (l_c (ls0 i'))) <= a')%nat -> (i', a') <> (i, a) ->
     forall o', stands_for c' o' -> at_whom gw o' p = true -> sets o' = false) ->
  exists log heard obs, told (es0 ++ es1 ++ es2) css j (ord0 ++ ord1 ++ ord2) (ls2 j) (inn2 j) (out2 j) log heard /\
    (exists ms, nth_error (mine j (ord0 ++ ord1 ++ ord2) heard) b = Some ms /\ alone ask ms (obs, Ok tt)) /\
    nth_error (mine j (ord0 ++ ord1 ++ ord2) log) b = Some (obs, Ok tt) /\ In (p_where p, v) obs /\ (NoDup (map p_where h) -> forall v', In (p_where p, v') obs -> v' = v).
Proof.
  intros G Hh P C0 C1 C2 B Ei (La1 & La2) Ej (Lb1 & Lb2) Ip Ho Hoa Ap Aa T Oth.
  pose proof (crowd_app _ _ _ _ _ _ _ _ _ _ _ _ _ _ C0 _ _ _ _ _ _ _ C1) as C01.
  pose proof (crowd_app _ _ _ _ _ _ _ _ _ _ _ _ _ _ C0 _ _ _ _ _ _ _ (crowd_app _ _ _ _ _ _ _ _ _ _ _ _ _ _ C1 _ _ _ _ _ _ _ C2)) as C.
  pose proof (ended_obeyed gw high low ns _ _ _ h _ _ _ _ (first_calls es0 css) G Hh P C0 (fun x => behaves_before _ _ _ _ _ _ _ (B x))) as O0.
  pose proof B as B'. rewrite app_assoc in B'.
  pose proof (ended_obeyed gw high low ns _ _ _ h _ _ _ _ (first_calls (es0 ++ es1) css) G Hh P C01 (fun x => behaves_before _ _ _ _ _ _ _ (B' x))) as O1.
  pose proof (ended_obeyed gw high low ns _ _ _ h _ _ _ _ css G Hh P C B) as O2.
  destruct (crowd_story gw high low ns _ _ _ h _ _ _ _ css G Hh P C B) as (cs & log & heard & St & Lc & Ll & Lh & Al & Td).
  set (ord := ord0 ++ ord1 ++ ord2) in *.
  destruct (turn_some i ord a) as (x & Tx). { unfold ord. rewrite app_assoc, count_app. specialize (O1 i). lia. }
  destruct (turn_some j ord b) as (y & Ty). { specialize (O2 j). lia. }
  assert (X0 : (length ord0 <= x)%nat) by (pose proof (turn_split _ _ _ _ _ Tx); specialize (O0 i); lia).
  assert (Lxy : (x < y)%nat).
  { unfold ord in Tx, Ty. rewrite app_assoc in Tx, Ty. pose proof (turn_split _ _ _ _ _ Tx). pose proof (turn_split _ _ _ _ _ Ty). pose proof (O1 i). pose proof (O1 j). lia. }
  assert (At : forall i' a' z, turn i' a' ord = Some z -> nth_error cs z = nth_error (css i') a').
  { intros i' a' z Tz. rewrite <- (turn_mine i' ord a' z cs Tz). destruct (Td i') as (-> & _).
    pose proof (turn_lt _ _ _ _ Tz) as L.
    clear - L. revert a' L. generalize (count i' ord), (css i'). intros n l. revert n. induction l as [|u l IH]; intros [|n] a' L; try lia; [destruct a'; reflexivity|].
    destruct a' as [|a']; [reflexivity|]. cbn. apply IH. lia. }
  pose proof (At _ _ _ Tx) as Nx. rewrite Ei in Nx. pose proof (At _ _ _ Ty) as Ny. rewrite Ej in Ny.
  destruct (nth_split2 cs x y c ask Lxy Nx Ny) as (before & between & after & Ec & Lbf & Lbt).
  replace cs with ((before ++ c :: between ++ [ask]) ++ after) in St by (rewrite Ec, <- app_assoc; cbn [app]; rewrite <- app_assoc; reflexivity).
  destruct (story_app gw _ _ _ _ _ _ St) as (hx & log1 & log2 & ev1 & ev2 & S1 & S2 & El & _).
  destruct (read_back gw h before c between ask log1 ev1 hx p o oa v S1 Ip Ho Hoa Ap Aa) as (obs & Lo & I & U); [|exact T|].
  { apply Forall_forall. intros c' Ic' o' Ho' Ao'. apply In_nth_error in Ic' as (z & Hz).
    assert (Lz : (z < length between)%nat) by (apply nth_error_Some; rewrite Hz; discriminate).
    assert (Nz : nth_error cs (x + Datatypes.S z) = Some c').
    { rewrite Ec, <- Lbf, nth_error_app2 by lia. replace (length before + Datatypes.S z - length before)%nat with (Datatypes.S z) by lia. cbn [nth_error]. rewrite nth_error_app1 by exact Lz. exact Hz. }
    destruct (nth_error ord (x + Datatypes.S z)) as [i'|] eqn:Oz; [|apply nth_error_None in Oz; assert ((x + Datatypes.S z < length cs)%nat) by (apply nth_error_Some; rewrite Nz; discriminate); lia].
    pose proof (turn_of i' ord _ Oz) as Tz. set (a' := count i' (firstn (x + Datatypes.S z) ord)) in *. rewrite (At _ _ _ Tz) in Nz.
    apply (Oth i' a' c' Nz); [|intros E; injection E as -> ->; rewrite Tz in Tx; injection Tx; lia|exact Ho'|exact Ao'].
    destruct (Nat.le_gt_cases (length (k_done (l_c (ls0 i')))) a') as [X|X]; [exact X|]. exfalso. pose proof (turn_split _ _ _ _ _ Tz) as Sz. specialize (O0 i'). lia. }
  assert (Ll1 : length log1 = Datatypes.S y).
  { rewrite <- (story_length _ _ _ _ _ _ S1). rewrite app_length. cbn [length]. rewrite app_length. cbn [length]. lia. }
  assert (Nl : nth_error log y = Some (obs, Ok tt)).
  { rewrite El, nth_error_app1 by lia. rewrite <- Lo. clear - Ll1. revert y Ll1. induction log1 as [|u [|w l] IH]; intros [|y] E; try discriminate; [reflexivity|]. injection E as E. cbn [nth_error]. rewrite (IH y) by (cbn; congruence). reflexivity. }
  exists log, heard, obs. split; [apply Td|]. split.
  - destruct (nth_error heard y) as [ms|] eqn:Hm; [|apply nth_error_None in Hm; assert ((y < length cs)%nat) by (apply nth_error_Some; rewrite Ny; discriminate); lia].
    exists ms. split; [rewrite (turn_mine j ord b y heard Ty); exact Hm|].
    assert (Nc : nth_error (combine heard log) y = Some (ms, (obs, Ok tt))).
    { clear - Hm Nl. revert heard log Hm Nl. induction y as [|y IH]; intros [|u heard] [|w log] Hm Nl; try discriminate; cbn in *; [congruence|apply IH; assumption]. }
    clear - Al Ny Nc. revert y Ny Nc. induction Al as [|u w us ws Hu Al IH]; intros [|y] Ny Nc; try discriminate; cbn in Ny, Nc; [injection Ny as ->; injection Nc as ->; exact Hu|eapply IH; eassumption].
  - split; [rewrite (turn_mine j ord b y log Ty); exact Nl|]. split; [exact I|exact U].
Qed.
