(** * Theorems about event dispatch: items and the meaning of events *)
From Coq Require Import String List NArith ZArith Bool Lia.
From Verif Require Import PyStr PyDate PyFloat Tags Messages SpecMsg SpecTag MessageThms MessageThms2 MessageThms3 TagThms Protocol IO Client
  Items Lighting HandshakeThms ItemThms LightThms2 Gateway GatewayThms GatewayThms2 Energy SpecEnergy FloatThms EnergyThms EnergyThms2 EnergyThms3 Dispatch SpecDispatch.
Import ListNotations.
Open Scope N_scope.
Open Scope list_scope.

(** ** Items *)

Lemma key_eqb_spec a b : key_eqb a b = true <-> a = b.
Proof.
  destruct a as [w s], b as [w' s']. unfold key_eqb. cbn [fst snd].
  rewrite andb_true_iff, who_eqb_spec, str_eqb_spec. split; [intros [-> ->]; reflexivity|intros [= -> ->]; auto].
Qed.

Lemma position_some k l n : position k l = Some n -> nth_error l n = Some k.
Proof.
  revert n. induction l as [|x l IH]; intros n; cbn [position]; [discriminate|].
  destruct (key_eqb k x) eqn:E.
  - intros [= <-]. apply key_eqb_spec in E as ->. reflexivity.
  - destruct (position k l) as [j|]; [|discriminate]. intros [= <-]. cbn. auto.
Qed.

Lemma position_none k l : position k l = None <-> ~ In k l.
Proof.
  induction l as [|x l IH]; cbn [position]; [split; [intros _ []|reflexivity]|].
  destruct (key_eqb k x) eqn:E.
  - apply key_eqb_spec in E as ->. split; [discriminate|]. intros H. exfalso. apply H. left. reflexivity.
  - assert (N1 : k <> x) by (intros ->; assert (X : key_eqb x x = true) by (apply key_eqb_spec; reflexivity); congruence).
    destruct (position k l) as [j|].
    + split; [discriminate|]. intros H. exfalso. assert (X : Some j = None) by (apply IH; intros Hi; apply H; right; exact Hi). discriminate.
    + split; [|reflexivity]. intros _ [Hx|Hi]; [congruence|]. apply IH in Hi; [exact Hi|reflexivity].
Qed.

Lemma position_nth k l n : NoDup l -> nth_error l n = Some k -> position k l = Some n.
Proof.
  intros H. revert n. induction H as [|x l Hx _ IH]; intros [|n] E; cbn in E; try discriminate; cbn [position].
  - injection E as ->. assert (X : key_eqb k k = true) by (apply key_eqb_spec; reflexivity). rewrite X. reflexivity.
  - destruct (key_eqb k x) eqn:Ek.
    + apply key_eqb_spec in Ek as ->. exfalso. apply Hx. eapply nth_error_In, E.
    + rewrite (IH n E). reflexivity.
Qed.

Lemma get_item_spec its w whr its' r : NoDup its -> get_item its w whr = (its', r) ->
  NoDup its' /\ (exists l, its' = its ++ l) /\
  match r with
  | Ok n => nth_error its' n = Some (w, whr)
  | Err e => its' = its /\ ~ In (w, whr) its
  end.
Proof.
  intros N1 H. unfold get_item in H. destruct (position (w, whr) its) as [n|] eqn:P.
  - injection H as <- <-. split; [exact N1|]. split; [exists []; rewrite app_nil_r; reflexivity|]. apply position_some, P.
  - apply position_none in P. destruct (item_types w) as [f|].
    + destruct (construct f whr) as [[]|e].
      * injection H as <- <-. split; [|split].
        -- apply NoDup_rev in N1. rewrite <- (rev_involutive (its ++ _)). apply NoDup_rev. rewrite rev_app_distr. cbn.
           constructor; [rewrite <- in_rev; exact P|exact N1].
        -- eexists; reflexivity.
        -- rewrite nth_error_app2 by lia. rewrite Nat.sub_diag. reflexivity.
      * injection H as <- <-. split; [exact N1|]. split; [exists []; rewrite app_nil_r; reflexivity|]. auto.
    + injection H as <- <-. split; [exact N1|]. split; [exists []; rewrite app_nil_r; reflexivity|]. auto.
Qed.

Lemma hash_dec whr : {exists r, whr = 55 :: r /\ nohash r} + {~ exists r, whr = 55 :: r /\ nohash r}.
Proof.
  destruct whr as [|c r]; [right; intros (r & E & _); discriminate|].
  destruct (N.eq_dec c 55) as [->|Hc]; [|right; intros (r' & E & _); congruence].
  destruct (in_dec N.eq_dec 35 r) as [H|H].
  - right. intros (r' & E & Hr). injection E as <-. exact (Hr H).
  - left. exists r. split; [reflexivity|exact H].
Qed.

(** The supported values of WHO. *)
Definition supported (w : who) : Prop := In w [LIGHTING; AUTOMATION; GATEWAY; ENERGY_MANAGEMENT].

Lemma item_types_none w : item_types w = None <-> ~ supported w.
Proof. unfold supported. destruct w; cbn; split; try discriminate; intuition discriminate. Qed.

Lemma get_item_error its w whr e : Forall tagtext [whr] -> NoDup its -> snd (get_item its w whr) = Err e ->
  ~ In (w, whr) its /\
  ((e = KeyError /\ ~ supported w) \/
   (w = ENERGY_MANAGEMENT /\ (forall t, ~ energy_class whr t) /\
    ((e = IndexError /\ exists r, whr = 55 :: r /\ nohash r) \/ (e = InvalidTag /\ ~ exists r, whr = 55 :: r /\ nohash r)))).
Proof.
  intros Ht N1. inversion Ht as [|? ? Hw _]; subst. unfold get_item. destruct (position (w, whr) its) as [n|] eqn:P; [discriminate|].
  apply position_none in P. intros H. split; [exact P|].
  destruct (item_types w) as [f|] eqn:F.
  - right. destruct f; try (cbn in H; discriminate). assert (w = ENERGY_MANAGEMENT) as -> by (destruct w; try discriminate; reflexivity).
    split; [reflexivity|]. cbn [construct] in H. destruct (type_spec whr Hw) as (T1 & T2 & T3).
    destruct (get_type whr) as [t|e'] eqn:G; cbn in H; [discriminate|]. injection H as <-.
    assert (A : forall t, ~ energy_class whr t) by (intros t Ht'; apply T1 in Ht'; congruence).
    split; [exact A|].
    destruct (hash_dec whr) as [D|D].
    + left. split; [|exact D]. specialize (T2 D). congruence.
    + right. split; [|exact D]. specialize (T3 A D). congruence.
  - left. cbn in H. injection H as <-. split; [reflexivity|]. apply item_types_none, F.
Qed.

(** ** What the events mean *)

Lemma tag_tag_text v : tagtext v -> tagtext (tag_tag v).
Proof.
  unfold tag_tag, removeprefix. intros H. destruct (startswith [c_hash] v); [|exact H].
  rewrite <- (firstn_skipn (length [c_hash]) v) in H. apply Forall_app in H. apply H.
Qed.

Lemma tag_tag_cases v : (v = tag_tag v /\ (forall d, v <> 35 :: d)) \/ v = 35 :: tag_tag v.
Proof.
  destruct v as [|c v]; [left; split; [reflexivity|discriminate]|]. unfold tag_tag, removeprefix, c_hash.
  cbn [startswith]. destruct (N.eqb_spec 35 c) as [<-|Hc]; [right; reflexivity|left].
  split; [reflexivity|congruence].
Qed.

Lemma value_read v : tagtext v ->
  (exists n, valnum v n /\ py_int (tag_tag v) = Ok (Z.of_N n)) \/ ((forall n, ~ valnum v n) /\ py_int (tag_tag v) = Err ValueError).
Proof.
  intros H. destruct (py_int_tag (tag_tag v) (tag_tag_text v H)) as [(n & N1 & E)|(N1 & E)].
  - left. exists n. split; [|exact E]. exists (tag_tag v). split; [|exact N1]. destruct (tag_tag_cases v) as [[C _]|C]; auto.
  - right. split; [|exact E]. intros n Hn. pose proof (valnum_int v n Hn). congruence.
Qed.

Lemma mapM_app_seq {B} (f : nat -> res B) o n l : mapM f (seq o n) = Ok l -> length l = n.
Proof.
  revert o l. induction n as [|n IH]; intros o l; cbn [seq mapM]; [intros [= <-]; reflexivity|].
  destruct (f o); [|discriminate]. cbn [bind]. destruct (mapM f (seq (S o) n)) eqn:E; [|discriminate]. cbn [bind].
  intros [= <-]. cbn. f_equal. eapply IH, E.
Qed.

Lemma tag_ints_from vs more ns : Forall2 valnum vs ns ->
  forall pre0, mapM (fun i => do z <- int_value (pre0 ++ vs ++ more) i; Ok (VInt z)) (seq (length pre0) (length ns)) =
    Ok (map (fun x => VInt (Z.of_N x)) ns).
Proof.
  induction 1 as [|v n vs ns Hv _ IH]; intros pre0; [reflexivity|].
  cbn [length seq mapM map]. unfold int_value at 1, index.
  rewrite nth_error_app2 by lia. rewrite Nat.sub_diag. cbn [nth_error app bind]. rewrite (valnum_int v n Hv). cbn [bind].
  specialize (IH (pre0 ++ [v])). rewrite app_length, Nat.add_1_r in IH. rewrite <- app_assoc in IH. cbn [app] in IH.
  rewrite IH. reflexivity.
Qed.

Lemma tag_ints_back n : forall pre0 vs l, Forall tagtext vs ->
  mapM (fun i => do z <- int_value (pre0 ++ vs) i; Ok (VInt z)) (seq (length pre0) n) = Ok l ->
  exists us more ns, vs = us ++ more /\ Forall2 valnum us ns /\ length ns = n /\ l = map (fun x => VInt (Z.of_N x)) ns.
Proof.
  induction n as [|n IH]; intros pre0 vs l T; cbn [seq mapM].
  - intros [= <-]. exists [], vs, []. repeat split. constructor.
  - unfold int_value at 1, index. destruct vs as [|v vs].
    + rewrite app_nil_r, (proj2 (nth_error_None pre0 (length pre0))) by lia. discriminate.
    + rewrite nth_error_app2 by lia. rewrite Nat.sub_diag. cbn [nth_error bind].
      inversion T as [|? ? T1 T2]; subst. destruct (value_read v T1) as [(m & V & E)|(_ & E)]; rewrite E; cbn [bind]; [|discriminate].
      replace (pre0 ++ v :: vs) with ((pre0 ++ [v]) ++ vs) by (rewrite <- app_assoc; reflexivity).
      replace (S (length pre0)) with (length (pre0 ++ [v])) by (rewrite app_length; cbn; lia).
      destruct (mapM _ (seq (length (pre0 ++ [v])) n)) as [l'|] eqn:E'; [|discriminate]. cbn [bind]. intros [= <-].
      destruct (IH _ _ _ T2 E') as (us & more & ns & -> & F & L & ->).
      exists (v :: us), more, (m :: ns). split; [reflexivity|]. split; [constructor; assumption|]. split; [cbn; lia|reflexivity].
Qed.

Lemma tag_ints_spec vs n l : Forall tagtext vs ->
  (tag_ints vs n = Ok l <-> exists us more ns, vs = us ++ more /\ Forall2 valnum us ns /\ length ns = n /\ l = map (fun x => VInt (Z.of_N x)) ns).
Proof.
  intros T. unfold tag_ints. split.
  - intros H. exact (tag_ints_back n [] vs l T H).
  - intros (us & more & ns & -> & F & <- & ->). exact (tag_ints_from us more ns F []).
Qed.

Lemma enum_find {A} (f : A -> str) (all : list A) s a : (forall x, In x all) -> (forall x y, f x = f y -> x = y) ->
  (match find (fun x => str_eqb (f x) s) all with Some w => Ok w | None => Err ValueError end = Ok a <-> s = f a).
Proof.
  intros Hin Hinj. destruct (find _ all) as [x|] eqn:E.
  - apply find_some in E as [_ E]. apply str_eqb_spec in E. subst s. split; [intros [= ->]; reflexivity|].
    intros H. apply Hinj in H. congruence.
  - split; [discriminate|]. intros ->. pose proof (find_none _ _ E a (Hin a)) as H. cbn beta in H.
    assert (X : str_eqb (f a) (f a) = true) by (apply str_eqb_spec; reflexivity). congruence.
Qed.

Lemma wg_of_spec s w : wg_of s = Ok w <-> s = wg_str w.
Proof.
  apply enum_find.
  - intros []; unfold all_wg; cbn; tauto.
  - intros [] []; try reflexivity; discriminate.
Qed.

Lemma de_str_inj x y : de_str x = de_str y -> x = y.
Proof. destruct x, y; try reflexivity; discriminate. Qed.

Lemma de_of_spec s d : de_of s = Ok d <-> s = de_str d.
Proof.
  apply enum_find; [|exact de_str_inj]. intros []; unfold all_de; cbn; tauto.
Qed.

Lemma gateway_value_spec w vs args : gateway_value w vs args <->
  match w with
  | TIME => do t <- time_of vs; Ok [VTime t]
  | DATE => do t <- date_of vs; Ok [VDate t]
  | IP_ADDRESS => do a <- ip_of vs; Ok [VAddr a]
  | NET_MASK => do s <- dotted_of vs; Ok (spread s)
  | MAC_ADDRESS => do s <- mac_of vs; Ok (spread s)
  | DEVICE_TYPE => do s <- model_of vs; Ok (spread s)
  | FIRMWARE_VERSION => do s <- version_of vs; Ok (spread s)
  | UPTIME => do t <- uptime_of vs; Ok [VDelta t]
  | DATE_TIME => do t <- datetime_of vs; Ok [VDateTime t]
  | KERNEL_VERSION => do s <- version_of vs; Ok (spread s)
  | DISTRIBUTION_VERSION => do s <- version_of vs; Ok (spread s)
  end = Ok args.
Proof.
  split.
  - intros H. destruct H as [vs t H|vs t H|vs t H|vs t H|vs t H|vs t H|vs t H|vs t H|w vs t Hw H].
    9:{ destruct Hw as [<-|[<-|[<-|[]]]]; rewrite H; reflexivity. }
    all: rewrite H; reflexivity.
  - destruct w.
    all: match goal with |- (do _ <- ?x; _) = _ -> _ => destruct x eqn:E; [|discriminate] end; cbn [bind]; intros [= <-].
    all: try (constructor; assumption).
    all: apply GV_version; [cbn; tauto|assumption].
Qed.

Lemma gateway_reports w' whr d vs k args :
  (gateway_call (MDimRes w' whr d vs) = Ok (Some (k, args)) <-> exists w, d = wg_str w /\ k = K_gateway w /\ gateway_value w vs args).
Proof.
  cbn [gateway_call]. destruct (wg_of d) as [w|e] eqn:E; cbn [bind].
  - apply wg_of_spec in E. subst d. pose proof (gateway_value_spec w vs) as G.
    match goal with |- (do _ <- ?x; _) = _ <-> _ => set (y := x) in *; change (forall args, gateway_value w vs args <-> y = Ok args) in G; clearbody y end.
    split.
    + destruct y as [l|]; [|discriminate]. cbn [bind]. intros [= <- <-]. exists w. rewrite G. auto.
    + intros (w0 & Ew & -> & H). assert (w0 = w) as -> by (clear - Ew; destruct w, w0; try reflexivity; discriminate). apply G in H. rewrite H. reflexivity.
  - split; [discriminate|]. intros (w & -> & _). assert (X : wg_of (wg_str w) = Ok w) by (apply wg_of_spec; reflexivity). congruence.
Qed.

Lemma float_at0 v more f : float_at (v :: more) 0 = Ok f <-> digits v /\ v <> [] /\ reads (value_of 0 v) f.
Proof.
  unfold float_at, index. cbn [nth_error bind]. split.
  - intros H. destruct (all_digits v) eqn:D; [|rewrite float_bad in H; [discriminate|intros [X _]; apply digits_all in X; congruence]].
    apply digits_all in D. destruct v as [|c v]; [discriminate|]. split; [exact D|]. split; [discriminate|].
    rewrite float_read in H by (exact D || discriminate). injection H as <-. apply float_reads.
  - intros (D & N1 & R). rewrite float_read by assumption. f_equal. eapply reads_unique; [apply float_reads|exact R].
Qed.

Lemma int_at0 v more z : tagtext v -> (int_at (v :: more) 0 = Ok z <-> exists n, number v n /\ z = Z.of_N n).
Proof.
  intros T. unfold int_at, index. cbn [nth_error bind]. destruct (py_int_tag v T) as [(n & N1 & E)|(N1 & E)]; rewrite E; split.
  - intros [= <-]. eauto.
  - intros (m & M & ->). f_equal. apply number_int in M. congruence.
  - discriminate.
  - intros (n & M & _). exfalso. exact (N1 n M).
Qed.

Lemma char_back (v : str) more i z : tagtext v -> char0 (v :: more) i = Ok z ->
  exists c, nth_error v i = Some c /\ digitchar c /\ z = Z.of_N (c - 48).
Proof.
  intros T. unfold char0, index. cbn [nth_error bind]. destruct (nth_error v i) as [c|] eqn:E; [|discriminate]. cbn [bind]. intros H.
  exists c. split; [reflexivity|]. assert (Tc : tagchar c) by (unfold tagtext in T; rewrite Forall_forall in T; apply T; eapply nth_error_In, E).
  assert (D : digitchar c). { destruct Tc as [D| ->]; [exact D|]. exfalso. vm_compute in H. discriminate. }
  split; [exact D|].
  pose proof (char_read (v :: more) v c i eq_refl E D) as R. unfold char0, index in R. cbn [nth_error bind] in R. rewrite E in R. cbn [bind] in R. congruence.
Qed.

Lemma flag_back (v : str) more i b : tagtext v -> flag0 (v :: more) i = Ok b ->
  exists c, nth_error v i = Some c /\ digitchar c /\ b = negb (c =? 48).
Proof.
  intros T. unfold flag0. destruct (char0 (v :: more) i) as [z|] eqn:E; [|discriminate]. cbn [bind]. intros [= <-].
  destruct (char_back v more i z T E) as (c & Hc & D & ->). exists c. split; [exact Hc|]. split; [exact D|].
  unfold digitchar in D. destruct (N.eqb_spec c 48) as [->|Hn]; [reflexivity|]. cbn. apply negb_true_iff, Z.eqb_neq. lia.
Qed.

Lemma event_back (v : str) more st : tagtext v -> status_of_event (v :: more) = Ok st -> digits (firstn 13 v) /\ (13 <= length v)%nat.
Proof.
  intros T. unfold status_of_event. change [0; 1; 2; 3; 4; 5; 6; 7; 8; 9; 10; 11; 12]%nat with (seq 0 13).
  assert (G : forall n o l, mapM (fun i => do b <- flag0 (v :: more) i; Ok (Some b)) (seq o n) = Ok l ->
     forall i, (o <= i < o + n)%nat -> exists c, nth_error v i = Some c /\ digitchar c).
  { induction n as [|n IH]; intros o l H i Hi; [lia|]. cbn [seq mapM] in H.
    destruct (flag0 (v :: more) o) as [b|] eqn:F; [|discriminate]. cbn [bind] in H.
    destruct (mapM _ (seq (S o) n)) as [l'|] eqn:M; [|discriminate].
    destruct (Nat.eq_dec i o) as [->|Hne].
    - destruct (flag_back v more o b T F) as (c & ? & ? & _). eauto.
    - eapply IH; [exact M|lia]. }
  intros H. specialize (G 13%nat 0%nat st H). cbn [Nat.add] in G. split.
  - apply Forall_forall. intros c Hc. apply In_nth_error in Hc as (i & Hi).
    assert (i < 13)%nat. { apply (Nat.lt_le_trans _ (length (firstn 13 v))); [apply nth_error_Some; congruence|rewrite firstn_length; lia]. }
    destruct (G i ltac:(lia)) as (c' & Hc' & D). rewrite <- (firstn_skipn 13 v) in Hc'.
    rewrite nth_error_app1 in Hc' by (apply nth_error_Some; congruence). congruence.
  - destruct (G 12%nat ltac:(lia)) as (c & Hc & _). assert (12 < length v)%nat by (apply nth_error_Some; congruence). lia.
Qed.

Lemma actuator_back (v : str) more a : tagtext v -> actuator_of (v :: more) = Ok a ->
  exists c0 c1 c2 c3 c4 c5 tl, v = c0 :: c1 :: c2 :: c3 :: c4 :: c5 :: tl /\ Forall digitchar [c0; c1; c2; c3; c4; c5].
Proof.
  intros T. unfold actuator_of.
  destruct (flag0 (v :: more) 0) as [b0|] eqn:F0; [|discriminate]. cbn [bind].
  destruct (flag0 (v :: more) 1) as [b1|] eqn:F1; [|discriminate]. cbn [bind].
  destruct (flag0 (v :: more) 2) as [b2|] eqn:F2; [|discriminate]. cbn [bind].
  destruct (flag0 (v :: more) 3) as [b3|] eqn:F3; [|discriminate]. cbn [bind].
  destruct (flag0 (v :: more) 4) as [b4|] eqn:F4; [|discriminate]. cbn [bind].
  destruct (char0 (v :: more) 5) as [b5|] eqn:F5; [|discriminate]. cbn [bind]. intros _.
  apply flag_back in F0 as (c0 & H0 & D0 & _); [|exact T]. apply flag_back in F1 as (c1 & H1 & D1 & _); [|exact T].
  apply flag_back in F2 as (c2 & H2 & D2 & _); [|exact T]. apply flag_back in F3 as (c3 & H3 & D3 & _); [|exact T].
  apply flag_back in F4 as (c4 & H4 & D4 & _); [|exact T]. apply char_back in F5 as (c5 & H5 & D5 & _); [|exact T].
  destruct v as [|x0 [|x1 [|x2 [|x3 [|x4 [|x5 tl]]]]]]; try discriminate.
  cbn in H0, H1, H2, H3, H4, H5. exists x0, x1, x2, x3, x4, x5, tl. split; [reflexivity|].
  injection H0 as <-. injection H1 as <-. injection H2 as <-. injection H3 as <-. injection H4 as <-. injection H5 as <-.
  repeat (apply Forall_cons; [assumption|]). apply Forall_nil.
Qed.

Lemma dim_param_none d i : dim_param d i = Err IndexError.
Proof. unfold dim_param. replace (twp_parameters (de_str d)) with (@nil str) by (destruct d; reflexivity). destruct i; reflexivity. Qed.

Lemma energy_reports w whr ds vs k args : Forall tagtext vs ->
  (energy_call (MDimRes w whr ds vs) = Ok (Some (k, args)) <-> exists d, ds = de_str d /\ k = K_energy d /\ energy_value d vs args).
Proof.
  intros T. cbn [energy_call]. destruct (de_of ds) as [d|e] eqn:E; cbn [bind].
  2:{ split; [discriminate|]. intros (d & -> & _). assert (X : de_of (de_str d) = Ok d) by (apply de_of_spec; reflexivity). congruence. }
  apply de_of_spec in E. subst ds. split.
  - intros H. exists d. split; [reflexivity|].
    unfold report_args in H.
    destruct d; rewrite ?dim_param_none in H; cbn [bind] in H; try discriminate.
    all: destruct vs as [|v more]; [discriminate|]; inversion T as [|? ? Tv _]; subst.
    all: lazymatch type of H with
    | context [float_at] => 
        destruct (float_at (v :: more) 0) as [f|] eqn:F; [|discriminate]; cbn [bind] in H; injection H as <- <-; split; [reflexivity|];
        apply float_at0 in F as (D & N1 & R); apply EV_float; [cbn; tauto|assumption..]
    | context [status_of_event] =>
        destruct (status_of_event (v :: more)) as [st|] eqn:F; [|discriminate]; cbn [bind] in H; injection H as <- <-; split; [reflexivity|];
        destruct (event_back v more st Tv F) as [D L]; pose proof (eq_trans (eq_sym (event_status v more D L)) F) as X; injection X as <-; constructor; assumption
    | context [actuator_of] =>
        destruct (actuator_of (v :: more)) as [st|] eqn:F; [|discriminate]; cbn [bind] in H; injection H as <- <-; split; [reflexivity|];
        destruct (actuator_back v more st Tv F) as (c0 & c1 & c2 & c3 & c4 & c5 & tl & -> & D);
        pose proof (eq_trans (eq_sym (actuator_read _ _ _ _ _ _ tl more D)) F) as X; injection X as <-; constructor; exact D
    | context [int_at] =>
        destruct (int_at (v :: more) 0) as [z|] eqn:F; [|discriminate]; cbn [bind] in H; injection H as <- <-; split; [reflexivity|];
        apply int_at0 in F as (n & N1 & ->); [|exact Tv]; constructor; exact N1
    end.
  - intros (d0 & Ed & -> & V). apply de_str_inj in Ed as <-.
    remember d as d1 eqn:Ed in V. destruct V as [d1 v more f Hd D N1 R|v more n N1|v more L D|a b c d1 e f tl more D]; subst d1 || subst d.
    + assert (F : float_at (v :: more) 0 = Ok f) by (apply float_at0; auto).
      destruct Hd as [<-|[<-|[<-|[<-|[]]]]]; rewrite F; reflexivity.
    + inversion T as [|? ? Tv _]; subst. rewrite (proj2 (int_at0 v more _ Tv) (ex_intro _ n (conj N1 eq_refl))). reflexivity.
    + rewrite (event_status v more D L). reflexivity.
    + rewrite (actuator_read _ _ _ _ _ _ tl more D). reflexivity.
Qed.

Lemma twp_tag_is d t : nohash t -> (twp_tag d = t <-> exists ps, d = with_params t ps /\ Forall nohash ps).
Proof.
  intros Ht. destruct (twp_spec d) as (E & N1 & N2). split.
  - intros <-. exists (twp_parameters d). auto.
  - intros (ps & E' & N3). rewrite E in E'. apply with_params_unique in E' as [-> _]; auto.
Qed.

Lemma light_nohash e dim n : light_dim e dim n -> nohash dim.
Proof. intros []; cbv; intuition discriminate. Qed.

Lemma light_reports w whr d vs k args : Forall tagtext vs ->
  (light_call (MDimRes w whr d vs) = Ok (Some (k, args)) <->
   exists e dim n ps us more ns, d = with_params dim ps /\ vs = us ++ more /\ k = K_light e /\ args = map (fun x => VInt (Z.of_N x)) ns /\
     light_dim e dim n /\ Forall nohash ps /\ Forall2 valnum us ns /\ length ns = n).
Proof.
  intros T. cbn [light_call].
  assert (F : forall e dim n, light_dim e dim n -> twp_tag d = dim ->
    ((do l <- tag_ints vs n; Ok (Some (K_light e, l))) = Ok (Some (k, args)) <->
     exists e dim n ps us more ns, d = with_params dim ps /\ vs = us ++ more /\ k = K_light e /\ args = map (fun x => VInt (Z.of_N x)) ns /\
       light_dim e dim n /\ Forall nohash ps /\ Forall2 valnum us ns /\ length ns = n)).
  { intros e dim n Hl Hd. assert (Nd : nohash dim) by (eapply light_nohash, Hl).
    apply (twp_tag_is d dim Nd) in Hd as (ps & Ed & Hps). split.
    - destruct (tag_ints vs n) as [l|] eqn:E; [|discriminate]. cbn [bind]. intros [= <- <-].
      apply (tag_ints_spec vs n l T) in E as (us & more & ns & Ev & F & L & El). exists e, dim, n, ps, us, more, ns. auto 10.
    - intros (e' & dim' & n' & ps' & us & more & ns & Ed' & Ev & -> & -> & Hl' & Hps' & F & L).
      assert (Nd' : nohash dim') by (eapply light_nohash, Hl').
      rewrite Ed in Ed'. apply with_params_unique in Ed' as [<- _]; auto.
      assert (e' = e /\ n' = n) as [-> ->] by (destruct Hl; inversion Hl'; auto).
      rewrite (proj2 (tag_ints_spec vs n (map (fun x => VInt (Z.of_N x)) ns) T)); [reflexivity|]. exists us, more, ns. auto. }
  destruct (str_eqb (twp_tag d) (lit "1")) eqn:E1; [apply str_eqb_spec in E1; apply (F _ _ _ LD_temporization E1)|].
  destruct (str_eqb (twp_tag d) (lit "8")) eqn:E2; [apply str_eqb_spec in E2; apply (F _ _ _ LD_luminosity E2)|].
  destruct (str_eqb (twp_tag d) (lit "12")) eqn:E3; [apply str_eqb_spec in E3; apply (F _ _ _ LD_hsv E3)|].
  destruct (str_eqb (twp_tag d) (lit "13")) eqn:E4; [apply str_eqb_spec in E4; apply (F _ _ _ LD_white E4)|].
  split; [discriminate|]. intros (e & dim & n & ps & us & more & ns & Ed & _ & _ & _ & Hl & Hps & _).
  exfalso. apply str_eqb_neq in E1, E2, E3, E4.
  assert (Nd : nohash dim) by (eapply light_nohash, Hl).
  assert (Hd : twp_tag d = dim) by (apply twp_tag_is; eauto). destruct Hl; contradiction.
Qed.

Theorem reports_iff c m k args : built m -> msg_who m = Some (class_who c) -> c <> C_Camera ->
  (class_call c m = Ok (Some (k, args)) <-> reports m k args).
Proof.
  intros [B _] W Hc. destruct c; try congruence; cbn [class_call class_who] in *.
  - destruct m; cbn [msg_who] in W; try discriminate W; injection W as ->; cbn [auto_call].
    2-5: split; [discriminate|intros H; inversion H].
    unfold enum_of. destruct (str_in what what_automation_values) eqn:E; cbn [bind]; split.
    + intros [= <- <-]. constructor. unfold what_automation_values in E. cbn [map] in E. apply str_in_spec in E. exact E.
    + intros H. inversion H. reflexivity.
    + discriminate.
    + intros H. inversion H as [| |? ? Hin| | |]; subst. exfalso.
      apply (str_in_spec what what_automation_values) in Hin. congruence.
  - destruct m; cbn [msg_who] in W; try discriminate W; injection W as ->; cbn [free_tags] in B.
    5:{ inversion B as [|? ? _ B1]; subst. inversion B1 as [|? ? _ B2]; subst. rewrite (energy_reports _ _ _ _ _ _ B2). split.
        - intros (d & -> & -> & V). constructor. exact V.
        - intros H. inversion H; subst. eauto. }
    all: split; [discriminate|intros H; inversion H].
  - destruct m; cbn [msg_who] in W; try discriminate W; injection W as ->.
    4:{ change (gateway_call (MDimWri GATEWAY whr dim vals)) with (gateway_call (MDimRes GATEWAY whr dim vals)). rewrite gateway_reports. split.
        - intros (d & -> & -> & V). constructor. exact V.
        - intros H. inversion H; subst. eauto. }
    4:{ rewrite gateway_reports. split.
        - intros (d & -> & -> & V). constructor. exact V.
        - intros H. inversion H; subst. eauto. }
    all: split; [discriminate|intros H; inversion H].
  - destruct m; cbn [msg_who] in W; try discriminate W; injection W as ->; cbn [free_tags] in B.
    5:{ inversion B as [|? ? _ B1]; subst. inversion B1 as [|? ? _ B2]; subst. rewrite (light_reports _ _ _ _ _ _ B2). split.
        - intros (e & dd & n & ps & us & more & ns & -> & -> & -> & -> & Hl & Hps & F & L). econstructor; eassumption.
        - intros H. inversion H; subst. repeat eexists; eassumption. }
    2-4: split; [discriminate|intros H; inversion H].
    cbn [light_call]. split.
    + intros [= <- <-]. constructor. apply str_eqb_spec.
    + intros H. inversion H as [? ? b Hb| | | | |]; subst. do 5 f_equal.
      destruct b; [apply str_eqb_spec, Hb; reflexivity|apply str_eqb_neq; intros X; apply Hb in X; discriminate].
Qed.
