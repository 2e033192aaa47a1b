(** * Sessions over a connection that breaks *)
From Coq Require Import String List NArith ZArith Bool Lia.
From Verif Require Import PyStr Tags Messages MessageFacts SpecMsg SpecTag MessageThms MessageThms2 MessageThms3 TagThms SpecProto ProtoThms IO Client SpecItem Items
  Lighting SpecLight HandshakeThms ItemThms LightThms LightThms2 FrameThms SpecHouse HouseThms HouseThms2 SpecCrash.
Import ListNotations.
Open Scope N_scope.
Open Scope list_scope.

(** The connection before and after a moment in which it may break.  [out]: the
    frames on their way to the client; some of the last ones are lost. *)
Inductive still (a : bool) (out : list (list N)) : bool -> list (list N) -> Prop :=
| St_same : still a out a out
| St_cut out1 lost : a = true -> out = out1 ++ lost -> still a out false out1.

(** As [serving], but the connection may break before every event and after the
    last.  What is written after that is ignored, without an error (C65). *)
Inductive cutting (gw : gateway) {Y} : bool -> house -> list (list N) -> list (ev Y) -> bool -> house -> list (list N) -> Prop :=
| Ct_nil a h out a' out' : still a out a' out' -> cutting gw a h out [] a' h out'
| Ct_sent h out b h1 ans ev1 es a' h' out' : serves gw h b h1 ans ev1 -> cutting gw true h1 (out ++ ans) es a' h' out' ->
    cutting gw true h out (Sent b :: es) a' h' out'
| Ct_vain a h out out1 b es a' h' out' : still a out false out1 -> cutting gw false h out1 es a' h' out' ->
    cutting gw a h out (Sent b :: es) a' h' out'
| Ct_got a h out a1 f out1 m es a' h' out' : still a out a1 (f :: out1) -> parse_message f = Ok m ->
    cutting gw a1 h out1 es a' h' out' -> cutting gw a h out (Got m :: es) a' h' out'
| Ct_yield a h out y es a' h' out' : cutting gw a h out es a' h' out' -> cutting gw a h out (Yielded y :: es) a' h' out'.

(** Calls one after the other; a read times out when nothing is left to come. *)
Inductive session_cut (gw : gateway) : bool -> house -> list (list N) -> list call -> script ->
  list (list (str * seen) * res unit) -> bool -> house -> list (list N) -> Prop :=
| Sc_nil a h out s a' out' : still a out a' out' -> session_cut gw a h out [] s [] a' h out'
| Sc_call a h out c cs s es s1 r a1 h1 out1 log a' h' out' :
    program c s = (es, s1, r) -> cutting gw a h out es a1 h1 out1 -> (r = Err TimeoutError -> out1 = []) ->
    session_cut gw a1 h1 out1 cs s1 log a' h' out' ->
    session_cut gw a h out (c :: cs) s ((yields es, r) :: log) a' h' out'.

(** ** What the programs do, in one shape *)

Definition asking (c : call) (o : order) {Y} (f : Y -> str * seen) (want : msg -> Prop) (body : msg -> res (list Y)) (g : io Y unit) : Prop :=
  program c = tagged f g /\ (forall s, exists x, streamed want body s x /\ g s = pre [Sent (order_frame o)] x) /\
  (forall m, want m -> m <> MAck /\ m <> MNack) /\
  forall gw h, house_ok h -> Forall (fun p => exists ys, shows p c (map f ys) /\ read_as want body (frames_of o p) ys) (filter (at_whom gw o) h).

Lemma call_asks c o : call_ok c -> stands_for c o -> asks c = true -> exists (Y : Set) (f : Y -> str * seen) want body g, asking c o f want body g.
Proof.
  intros Hok Ho Ac. pose proof Hok as (Hr & Hw & Hk & _). pose proof (proj1 Hw : placed (call_item c)) as Hp.
  inversion Ho; subst; try discriminate Ac; cbn [call_item call_who] in *.
  - exists (str * bool)%type, (fun y => (fst y, SLamp (snd y))), normal, light_status_body, (light_get_status it).
    split; [reflexivity|]. split; [|split; [exact normal_not_ack|]].
    + intros s. cbn [order_frame]. rewrite <- Hk. apply status_streamed; assumption.
    + intros gw h Hh. eapply Forall_impl; [|apply (aimed_points gw LIGHTING (it_where it) h Hh)]. intros p (P & Pw). apply light_read, P.
  - exists (str * Z)%type, (fun y => (fst y, SLevel (snd y))), normal, dimmer_status_body, (dimmer_get_status it).
    split; [reflexivity|]. split; [|split; [exact normal_not_ack|]].
    + intros s. cbn [order_frame]. rewrite <- Hk. apply status_streamed; assumption.
    + intros gw h Hh. eapply Forall_impl; [|apply (aimed_points gw LIGHTING (it_where it) h Hh)]. intros p (P & Pw). apply dimmer_read; assumption.
  - exists (str * str)%type, (fun y => (fst y, SMove (snd y))), normal, auto_status_body, (auto_get_status it).
    split; [reflexivity|]. split; [|split; [exact normal_not_ack|]].
    + intros s. cbn [order_frame]. rewrite <- Hk. apply status_streamed; assumption.
    + intros gw h Hh. eapply Forall_impl; [|apply (aimed_points gw AUTOMATION (it_where it) h Hh)]. intros p (P & Pw). apply auto_read; assumption.
  - exists (str * list Z)%type, (fun y => (fst y, SNumbers (snd y))), dimres, (ints_body (req_count r)), (run_req it r).
    split; [reflexivity|]. split; [|split; [exact dimres_not_ack|]].
    + intros s. cbn [order_frame]. rewrite <- Hk. destruct r; (apply dimension_streamed; [assumption|assumption|]); apply (digits_wire _ (req_digits _)).
    + intros gw h Hh. eapply Forall_impl; [|apply (aimed_points gw LIGHTING (it_where it) h Hh)]. intros p (P & Pw). apply numbers_read; assumption.
Qed.

(** ** Reading what is left *)

Lemma cutting_retag gw {Y Z} (f : Y -> Z) es : forall a h out a' h' out',
  cutting gw a h out (retag f es) a' h' out' <-> cutting gw a h out es a' h' out'.
Proof.
  induction es as [|[b|m|y] es IH]; intros a h out a' h' out'; cbn [retag]; split; intros H; inversion H; subst;
    first [apply Ct_nil; assumption | eapply Ct_sent; [eassumption|]; apply IH; assumption | eapply Ct_vain; [eassumption|]; apply IH; assumption
          | eapply Ct_got; [eassumption|eassumption|]; apply IH; assumption | apply Ct_yield; apply IH; assumption].
Qed.
Lemma cutting_yielded gw {Y} (ys : list Y) es a h out a' h' out' :
  cutting gw a h out (map Yielded ys ++ es) a' h' out' <-> cutting gw a h out es a' h' out'.
Proof.
  induction ys as [|y ys IH]; cbn [map app]; [reflexivity|]. rewrite <- IH. split; intros H; [inversion H; assumption|constructor; assumption].
Qed.

(** What is on its way is the beginning of [whole], all of it while the
    connection lasts. *)
Definition coming (a : bool) (out whole : list (list N)) : Prop := exists lost, whole = out ++ lost /\ (a = true -> lost = []).
Lemma coming_still a out a1 out1 whole : coming a out whole -> still a out a1 out1 -> coming a1 out1 whole.
Proof.
  intros (lost & -> & T) H. destruct H as [|out1 l -> ->]; [exists lost; auto|]. rewrite (T eq_refl), app_nil_r.
  exists l. split; [reflexivity|discriminate].
Qed.
Lemma coming_cons a f out f' whole : coming a (f :: out) (f' :: whole) -> f = f' /\ coming a out whole.
Proof. intros (lost & E & T). injection E as -> ->. split; [reflexivity|]. exists lost. auto. Qed.
Lemma coming_none a f out : ~ coming a (f :: out) [].
Proof. intros (lost & E & _). discriminate E. Qed.

Lemma stream_cut gw {Y} (want : msg -> Prop) (body : msg -> res (list Y)) s es s' r :
  (forall m, want m -> m <> MAck /\ m <> MNack) ->
  streamed want body s (es, s', r) -> forall fs yss a h out a1 h1 out1,
  coming a out (fs ++ [frame_ack]) ->
  cutting gw a h out es a1 h1 out1 -> (r = Err TimeoutError -> out1 = []) ->
  Forall2 (fun f ys => exists m, parse_message f = Ok m /\ want m /\ body m = Ok ys) fs yss ->
  h1 = h /\ out1 = [] /\
  ((r = Ok tt /\ yields es = concat yss) \/
   (a1 = false /\ r = Err TimeoutError /\ exists k, (k <= length yss)%nat /\ yields es = concat (firstn k yss))).
Proof.
  intros Wn H. remember (es, s', r) as x eqn:E. revert es s' r E.
  assert (Stop : forall fs yss a h out a1 h1 out1 r, coming a out (fs ++ [frame_ack]) -> cutting gw a h out (@nil (ev Y)) a1 h1 out1 ->
    r = Err TimeoutError -> (r = Err TimeoutError -> out1 = []) ->
    h1 = h /\ out1 = [] /\ ((r = Ok tt /\ yields (@nil (ev Y)) = concat yss) \/
      (a1 = false /\ r = Err TimeoutError /\ exists k, (k <= length yss)%nat /\ yields (@nil (ev Y)) = concat (firstn k yss)))).
  { intros fs yss a h out a1 h1 out1 r C S R T. inversion S as [? ? ? ? ? St| | | |]; subst. rewrite (T eq_refl) in *.
    pose proof (coming_still _ _ _ _ _ C St) as (lost & El & Tl).
    split; [reflexivity|]. split; [reflexivity|]. right. split; [destruct a1; [|reflexivity]; rewrite (Tl eq_refl) in El; destruct fs; discriminate|].
    split; [reflexivity|]. exists 0%nat. split; [lia|reflexivity]. }
  induction H as [s|m s Hm Hw|s| |m s e Hw Hb|m ys s es0 s0 r0 Hw Hb Hs IH]; intros es s' r E fs yss a h out a1 h1 out1 C S T F; injection E as <- <- <-.
  - inversion S as [| | |? ? ? a2 f out2 ? ? ? ? ? St P S2|]; subst. pose proof (coming_still _ _ _ _ _ C St) as C2.
    destruct F as [|f0 ys fs yss (m & P' & W & B) F]; cbn [app] in C2; apply coming_cons in C2 as (-> & C2).
    + inversion S2 as [? ? ? ? ? St2| | | |]; subst. pose proof (coming_still _ _ _ _ _ C2 St2) as (lost & El & _).
      destruct out1; [|discriminate El]. auto.
    + rewrite P' in P. injection P as ->. destruct (Wn _ W) as [X _]. congruence.
  - inversion S as [| | |? ? ? a2 f out2 ? ? ? ? ? St P S2|]; subst. pose proof (coming_still _ _ _ _ _ C St) as C2.
    destruct F as [|f0 ys fs yss (m' & P' & W & B) F]; cbn [app] in C2; apply coming_cons in C2 as (-> & C2).
    + rewrite ack_parse in P. congruence.
    + rewrite P' in P. injection P as ->. contradiction.
  - eapply Stop; eauto.
  - eapply Stop; eauto.
  - inversion S as [| | |? ? ? a2 f out2 ? ? ? ? ? St P S2|]; subst. pose proof (coming_still _ _ _ _ _ C St) as C2.
    destruct F as [|f0 ys fs yss (m' & P' & W & B) F]; cbn [app] in C2; apply coming_cons in C2 as (-> & C2).
    + rewrite ack_parse in P. injection P as <-. destruct (Wn _ Hw) as [X _]. congruence.
    + rewrite P' in P. injection P as ->. congruence.
  - inversion S as [| | |? ? ? a2 f out2 ? ? ? ? ? St P S2|]; subst. pose proof (coming_still _ _ _ _ _ C St) as C2.
    destruct F as [|f0 ys' fs yss (m' & P' & W & B) F]; cbn [app] in C2; apply coming_cons in C2 as (-> & C2).
    + rewrite ack_parse in P. injection P as <-. destruct (Wn _ Hw) as [X _]. congruence.
    + rewrite P' in P. injection P as ->. rewrite Hb in B. injection B as <-.
      apply cutting_yielded in S2. destruct (IH _ _ _ eq_refl _ _ _ _ _ _ _ _ C2 S2 T F) as (A1 & A2 & A3).
      split; [assumption|]. split; [assumption|]. cbn [yields]. rewrite yields_app.
      assert (Ey : yields (map (@Yielded Y) ys) = ys) by apply yields_map. rewrite Ey. cbn [concat].
      destruct A3 as [(A3 & A4)|(A3 & A4 & k & Hk & A5)].
      * left. rewrite A4. auto.
      * right. split; [assumption|]. split; [assumption|]. exists (Datatypes.S k). cbn [firstn length concat]. rewrite A5. split; [lia|reflexivity].
Qed.

Lemma nack_cut gw {Y} (want : msg -> Prop) (body : msg -> res (list Y)) s es s' r a h out a1 h1 out1 :
  ~ want MNack -> streamed want body s (es, s', r) -> coming a out [frame_nack] ->
  cutting gw a h out es a1 h1 out1 -> (r = Err TimeoutError -> out1 = []) ->
  h1 = h /\ out1 = [] /\ yields es = [] /\ (r = Err ResponseError \/ (a1 = false /\ r = Err TimeoutError)).
Proof.
  intros Wn H C. remember (es, s', r) as x eqn:E.
  assert (Stop : forall a1 h1 out1, cutting gw a h out (@nil (ev Y)) a1 h1 out1 -> out1 = [] -> h1 = h /\ a1 = false).
  { intros a2 h2 out2 S O. inversion S as [? ? ? ? ? St| | | |]; subst. pose proof (coming_still _ _ _ _ _ C St) as (lost & El & Tl).
    split; [reflexivity|]. destruct a2; [|reflexivity]. rewrite (Tl eq_refl) in El. discriminate. }
  destruct H as [s|m s Hm Hw|s| |m s e Hw Hb|m ys s es0 s0 r0 Hw Hb Hs]; injection E as <- <- <-; intros S T.
  1,2,5,6: inversion S as [| | |? ? ? a2 f out2 ? ? ? ? ? St P S2|]; subst; pose proof (coming_still _ _ _ _ _ C St) as C2; apply coming_cons in C2 as (-> & C2);
    rewrite nack_parse in P; try discriminate P; injection P as <-; try contradiction.
  - inversion S2 as [? ? ? ? ? St2| | | |]; subst. pose proof (coming_still _ _ _ _ _ C2 St2) as (lost & El & _). destruct out1; [|discriminate El]. repeat (split; [reflexivity|]). left. reflexivity.
  - specialize (T eq_refl). destruct (Stop _ _ _ S T) as (-> & ->). auto 8.
  - specialize (T eq_refl). destruct (Stop _ _ _ S T) as (-> & ->). auto 8.
Qed.

(** ** One call *)

(** The connection is already gone. *)
Lemma vain_call gw h c s es s1 r a1 h1 out1 : call_ok c -> program c s = (es, s1, r) ->
  cutting gw false h [] es a1 h1 out1 -> a1 = false /\ h1 = h /\ out1 = [] /\ yields es = [] /\ r = Err TimeoutError.
Proof.
  intros Hok E S. pose proof Hok as (_ & _ & _ & o & Ho).
  assert (N : forall {Y} m (es' : list (ev Y)) a' h' out', ~ cutting gw false h [] (Got m :: es') a' h' out').
  { intros Y m es' a' h' out' X. inversion X as [| | |? ? ? a2 f out2 ? ? ? ? ? St P S2|]; subst. inversion St; subst; discriminate. }
  assert (Nn : forall {Y} a' h' out', cutting gw (Y:=Y) false h [] [] a' h' out' -> a' = false /\ h' = h /\ out' = []).
  { intros Y a' h' out' X. inversion X as [? ? ? ? ? St| | | |]; subst. inversion St; subst; [auto|discriminate]. }
  assert (V : forall {Y} b (es' : list (ev Y)) a' h' out', cutting gw false h [] (Sent b :: es') a' h' out' -> cutting gw false h [] es' a' h' out').
  { intros Y b es' a' h' out' X. inversion X as [| |? ? ? out2 ? ? ? ? ? St S2| |]; subst. inversion St; subst; [assumption|discriminate]. }
  destruct (asks c) eqn:Ac.
  - destruct (call_asks c o Hok Ho Ac) as (Y & f & want & body & g & Ep & Es & Wn & _). rewrite Ep in E. unfold tagged in E.
    destruct (Es s) as ([[es0 s0] r0] & Hs & Eg). rewrite Eg in E. cbn in E. injection E as <- <- <-.
    apply V in S. cbn [yields]. rewrite yields_retag. apply cutting_retag in S.
    remember (es0, s0, r0) as x eqn:Ex.
    destruct Hs as [s|m s Hm Hw|s| |m s e Hw Hb|m ys s es1 s2 r1 Hw Hb Hs]; injection Ex as <- <- <-; try (exfalso; eapply N; eassumption);
      apply Nn in S as (-> & -> & ->); auto.
  - destruct (command_program c o s Hok Ho Ac) as (_ & A). rewrite E in A. remember (es, s1, r) as x eqn:Ex.
    destruct A as [s|m s Hm|s|]; injection Ex as <- <- <-; apply V in S; try (exfalso; eapply N; eassumption); apply Nn in S as (-> & -> & ->); auto.
Qed.

Lemma concat_firstn_map {A B} (f : A -> B) k yss : map f (concat (firstn k yss)) = concat (firstn k (map (map f) yss)).
Proof. rewrite concat_map, firstn_map. reflexivity. Qed.

(** The frames that were read belong to the first points. *)
Lemma read_first {Y} (want : msg -> Prop) (body : msg -> res (list Y)) o ps (R : point -> list Y -> Prop) :
  Forall (fun p => exists ys, R p ys /\ read_as want body (frames_of o p) ys) ps ->
  exists yss fyss, Forall2 R ps yss /\
    Forall2 (fun f ys => exists m, parse_message f = Ok m /\ want m /\ body m = Ok ys) (concat (map (frames_of o) ps)) fyss /\
    (forall k, exists j, concat (firstn k fyss) = concat (firstn j yss)) /\
    (forall j, exists k, (k <= length fyss)%nat /\ concat (firstn k fyss) = concat (firstn j yss)) /\ concat fyss = concat yss.
Proof.
  induction 1 as [|p ps (ys & HR & (yss0 & -> & F0)) _ (yss & fyss & F & G & K & K' & Kc)].
  - exists [], []. cbn. repeat (split; [constructor|]). split; [|split; [|reflexivity]].
    + intros k. exists 0%nat. destruct k; reflexivity.
    + intros j. exists 0%nat. split; [lia|]. destruct j; reflexivity.
  - exists (concat yss0 :: yss), (yss0 ++ fyss). split; [constructor; assumption|].
    split; [cbn [map concat]; apply Forall2_app; assumption|].
    assert (L : (length yss0 <= 1)%nat).
    { assert (E0 : length (frames_of o p) = length yss0) by (clear - F0; induction F0; cbn; congruence). rewrite <- E0. destruct o; cbn; try lia. unfold frame_dim. destruct (p_dims p d); cbn; lia. }
    split; [|split; [|rewrite concat_app; cbn [concat]; rewrite Kc; reflexivity]].
    + intros k. destruct yss0 as [|y0 [|? ?]]; [| |cbn in L; lia].
      * destruct (K k) as (j & E). exists (Datatypes.S j). cbn. exact E.
      * destruct k as [|k]; [exists 0%nat; reflexivity|]. destruct (K k) as (j & E). exists (Datatypes.S j). cbn. rewrite app_nil_r, E. reflexivity.
    + intros j. destruct j as [|j]; [exists 0%nat; split; [lia|reflexivity]|]. destruct (K' j) as (k & Lk & E).
      destruct yss0 as [|y0 [|? ?]]; [| |cbn in L; lia].
      * exists k. split; [assumption|]. cbn. exact E.
      * exists (Datatypes.S k). cbn. rewrite app_nil_r, E. split; [lia|reflexivity].
Qed.

Theorem one_cut gw h c s es s1 r a1 h1 out1 : house_ok h -> call_ok c -> program c s = (es, s1, r) ->
  cutting gw true h [] es a1 h1 out1 -> (r = Err TimeoutError -> out1 = []) ->
  out1 = [] /\ ((exists evs, does gw h c h1 (yields es) r evs) \/ (a1 = false /\ r = Err TimeoutError /\ unfinished gw h c h1 (yields es))).
Proof.
  intros Hh Hok E S T. pose proof Hok as (Hr & Hw & Hk & o & Ho). pose proof (stands_ok c o Hw Ho) as Oo.
  assert (Fr : exists es', es = Sent (order_frame o) :: es').
  { destruct (asks c) eqn:Ac.
    - destruct (call_asks c o Hok Ho Ac) as (Y & f & want & body & g & Ep & Es & _). rewrite Ep in E. unfold tagged in E.
      destruct (Es s) as ([[es0 s0] r0] & Hs & Eg). rewrite Eg in E. cbn in E. injection E as <- _ _. eauto.
    - destruct (command_program c o s Hok Ho Ac) as (_ & A). rewrite E in A. inversion A; eauto. }
  destruct Fr as (es' & ->). inversion S as [|? ? ? h2 ans ev1 ? ? ? ? Sv S2|? ? ? out2 ? ? ? ? ? St S2| |]; subst.
  2:{ (* lost before it was sent *)
    assert (out2 = []) as -> by (inversion St as [|? ? ? X]; subst; destruct out2; [reflexivity|discriminate X]).
    assert (S3 : cutting gw false h [] (Sent (order_frame o) :: es') a1 h1 out1) by (eapply Ct_vain; [apply St_same|exact S2]).
    destruct (vain_call gw h c s _ s1 r a1 h1 out1 Hok E S3) as (-> & -> & -> & -> & ->).
    split; [reflexivity|]. right. split; [reflexivity|]. split; [reflexivity|]. apply Un_lost. }
  cbn [app] in S2. apply serves_order in Sv; [|assumption].
  destruct (asks c) eqn:Ac.
  - destruct (call_asks c o Hok Ho Ac) as (Y & f & want & body & g & Ep & Es & Wn & V). rewrite Ep in E. unfold tagged in E.
    destruct (Es s) as ([[es0 s0] r0] & Hs & Eg). rewrite Eg in E. cbn in E. injection E as <- <- <-.
    cbn [yields]. rewrite yields_retag. apply cutting_retag in S2.
    assert (Nc : ~ changes o) by (inversion Ho; subst; try discriminate Ac; intros []).
    destruct (existsb (at_whom gw o) h) eqn:X.
    + destruct (obeys_ask _ _ _ _ _ _ Nc X Sv) as (-> & Ea).
      destruct (read_first want body o _ _ (V gw h Hh)) as (yss & fyss & F & G & K & _ & Kc).
      assert (F' : Forall2 (fun p ys => shows p c ys) (filter (at_whom gw o) h) (map (map f) yss)) by (clear - F; induction F; constructor; assumption).
      destruct (stream_cut gw want body _ _ _ _ Wn Hs _ _ true h ans a1 h1 out1 ltac:(exists []; rewrite app_nil_r; split; [symmetry; exact Ea|reflexivity]) S2 T G) as (-> & -> & [(-> & ->)|(-> & -> & k & _ & ->)]);
        (split; [reflexivity|]).
      * left. exists ev1. rewrite Kc, concat_map. eapply Do_ask; eassumption.
      * right. split; [reflexivity|]. split; [reflexivity|]. destruct (K k) as (j & ->). rewrite concat_firstn_map. eapply Un_told; eassumption.
    + destruct (obeys_nobody _ _ _ _ _ _ X Sv) as (-> & -> & ->).
      assert (Wk : ~ want MNack) by (intros W; destruct (Wn _ W); congruence).
      destruct (nack_cut gw want body _ _ _ _ true h [frame_nack] a1 h1 out1 Wk Hs ltac:(exists []; auto) S2 T) as (-> & -> & -> & [->|(-> & ->)]); (split; [reflexivity|]).
      * left. exists []. eapply Do_nobody; eassumption.
      * right. split; [reflexivity|]. split; [reflexivity|]. apply Un_lost.
  - destruct (command_program c o s Hok Ho Ac) as (Hc & A). rewrite E in A.
    assert (B : (existsb (at_whom gw o) h = false /\ h2 = h /\ ev1 = [] /\ ans = [frame_nack]) \/ (existsb (at_whom gw o) h = true /\ ans = [frame_ack])).
    { inversion Sv; subst; cbn in Hc; try contradiction; [left; auto|right; auto|right; auto]. }
    assert (An : exists fr, ans = [fr]) by (destruct B as [(_ & _ & _ & ->)|(_ & ->)]; eauto). destruct An as (fr & ->).
    assert (Cm : coming true [fr] [fr]) by (exists []; auto).
    assert (Stop : forall (E0 : cutting gw (Y:=str * seen) true h2 [fr] [] a1 h1 out1), out1 = [] -> h1 = h2 /\ a1 = false).
    { intros E0 ->. inversion E0 as [? ? ? ? ? St| | | |]; subst. pose proof (coming_still _ _ _ _ _ Cm St) as (lost & El & Tl).
      split; [reflexivity|]. destruct a1; [|reflexivity]. rewrite (Tl eq_refl) in El. discriminate. }
    assert (One : forall m, cutting gw (Y:=str * seen) true h2 [fr] [Got m] a1 h1 out1 -> h1 = h2 /\ out1 = [] /\ parse_message fr = Ok m).
    { intros m X. inversion X as [| | |? ? ? a2 f2 out2 ? ? ? ? ? St P X2|]; subst. pose proof (coming_still _ _ _ _ _ Cm St) as C2. apply coming_cons in C2 as (-> & C2).
      inversion X2 as [? ? ? ? ? St2| | | |]; subst. pose proof (coming_still _ _ _ _ _ C2 St2) as (lost & El & _). destruct out1; [|discriminate El]. auto. }
    remember (Sent (order_frame o) :: es', s1, r) as x eqn:Ex.
    destruct A as [s|m s Hm|s|]; injection Ex as <- <- <-; cbn [yields].
    + destruct (One _ S2) as (-> & -> & P). split; [reflexivity|]. left. destruct B as [(_ & _ & _ & B)|(X & B)]; injection B as ->.
      * rewrite nack_parse in P. discriminate.
      * exists ev1. eapply Do_command; eassumption.
    + destruct (One _ S2) as (-> & -> & P). split; [reflexivity|]. left. destruct B as [(X & -> & -> & B)|(X & B)]; injection B as ->.
      * exists []. eapply Do_nobody; eassumption.
      * rewrite ack_parse in P. congruence.
    + specialize (T eq_refl). destruct (Stop S2 T) as (-> & ->). split; [assumption|]. right. split; [reflexivity|]. split; [reflexivity|]. eapply Un_obeyed; eassumption.
    + specialize (T eq_refl). destruct (Stop S2 T) as (-> & ->). split; [assumption|]. right. split; [reflexivity|]. split; [reflexivity|]. eapply Un_obeyed; eassumption.
Qed.

(** ** Whole sessions *)

Lemma vain_session gw a h out cs s log a' h' out' : session_cut gw a h out cs s log a' h' out' -> Forall call_ok cs -> a = false -> out = [] ->
  log = in_vain cs /\ a' = false /\ h' = h /\ out' = [].
Proof.
  induction 1 as [a h out s a' out' St|a h out c cs s es s1 r a1 h1 out1 log a' h' out' E S T H IH]; intros F -> ->.
  - inversion St; subst; [|discriminate]. auto.
  - inversion F; subst. destruct (vain_call gw h c s es s1 r a1 h1 out1 ltac:(assumption) E S) as (-> & -> & -> & -> & ->).
    destruct (IH ltac:(assumption) eq_refl eq_refl) as (-> & -> & -> & ->). auto.
Qed.

Lemma cut_before gw h c cs h1 obs r evs log a h' : does gw h c h1 obs r evs -> cut_story gw h1 cs log a h' -> cut_story gw h (c :: cs) ((obs, r) :: log) a h'.
Proof.
  intros D H. destruct H as [log evs' h' S|cs1 cs2 log evs' h' -> S|cs1 c2 cs2 log evs' h2 obs2 h' -> S U].
  - eapply Cut_not. econstructor; eassumption.
  - eapply (Cut_between gw h (c :: cs1 ++ cs2) (c :: cs1) cs2 ((obs, r) :: log)); [reflexivity|]. econstructor; eassumption.
  - eapply (Cut_during gw h (c :: cs1 ++ c2 :: cs2) (c :: cs1) c2 cs2 ((obs, r) :: log)); [reflexivity| |eassumption]. econstructor; eassumption.
Qed.

Theorem session_cut_story gw a h out cs s log a' h' out' : session_cut gw a h out cs s log a' h' out' ->
  gateway_ok gw -> house_ok h -> Forall call_ok cs -> a = true -> out = [] ->
  cut_story gw h cs log a' h' /\ out' = [].
Proof.
  induction 1 as [a h out s a' out' St|a h out c cs s es s1 r a1 h1 out1 log a' h' out' E S T H IH]; intros G Hh F -> ->.
  - inversion St as [|? ? ? X]; subst.
    + split; [eapply Cut_not; constructor|reflexivity].
    + destruct out'; [|discriminate X]. split; [|reflexivity]. apply (Cut_between gw h [] [] [] [] [] h); [reflexivity|constructor].
  - inversion F; subst. destruct (one_cut gw h c s es s1 r a1 h1 out1 Hh ltac:(assumption) E S T) as (-> & [(evs & D)|(-> & -> & U)]).
    + destruct a1.
      * destruct (IH G (does_ok _ _ _ _ _ _ _ G Hh D) ltac:(assumption) eq_refl eq_refl) as (St & ->).
        split; [|reflexivity]. eapply cut_before; eassumption.
      * destruct (vain_session _ _ _ _ _ _ _ _ _ _ H ltac:(assumption) eq_refl eq_refl) as (-> & -> & -> & ->).
        split; [|reflexivity]. eapply (Cut_between gw h (c :: cs) [c] cs [(yields es, r)]); [reflexivity|]. econstructor; [exact D|constructor].
    + destruct (vain_session _ _ _ _ _ _ _ _ _ _ H ltac:(assumption) eq_refl eq_refl) as (-> & -> & -> & ->).
      split; [|reflexivity]. eapply (Cut_during gw h (c :: cs) [] c cs []); [reflexivity|constructor|exact U].
Qed.
