(** * Whole visits: from start() to close() *)
From Coq Require Import String List NArith ZArith Bool Lia.
From Verif Require Import PyStr Tags Messages MessageFacts SpecMsg SpecTag MessageThms MessageThms2 MessageThms3 TagThms AuthOpen SpecOpen OpenThms AuthHmac IO Client SpecClient
  HmacThms HandshakeThms HandshakeThms2 SpecLogin LoginThms SpecItem Items Lighting SpecLight ItemThms LightThms LightThms2 FrameThms SpecHouse HouseThms HouseThms2 SpecVisit.
Import ListNotations.
Open Scope N_scope.
Open Scope list_scope.

Local Notation start := (@Client.start Empty_set).

(** Calls one after the other, whatever the gateway thinks of the client. *)
Inductive tour (l : lock) (gw : gateway) : stage -> house -> list (list N) -> list call -> script ->
  list (list (str * seen) * res unit) -> list (list N) -> stage -> house -> list (list N) -> Prop :=
| To_nil st h out s : tour l gw st h out [] s [] [] st h out
| To_call st h out c cs s es s1 r st1 h1 out1 evs log evs' st' h' out' :
    program c s = (es, s1, r) -> visit l gw st h out es st1 h1 out1 evs -> (r = Err TimeoutError -> out1 = []) ->
    tour l gw st1 h1 out1 cs s1 log evs' st' h' out' ->
    tour l gw st h out (c :: cs) s ((yields es, r) :: log) (evs ++ evs') st' h' out'.

(** A call through the client [c]: the item is of the right class and has an
    address that can be sent; the arguments are in range. *)
Definition call_via (c : client) (k : call) : Prop :=
  it_client (call_item k) = c /\ wiretag (it_where (call_item k)) /\ it_who (call_item k) = call_who k /\ exists o, stands_for k o.

Lemma via_ok c k : cl_session c <> Event -> cl_proto c = true -> call_via c k -> call_ok k.
Proof. intros S P (<- & W & K & O). split; [split; assumption|]. auto. Qed.

(** ** Inside, a visit is a session *)

Lemma visit_inside l gw {Y} st h out (es : list (ev Y)) st' h' out' evs : visit l gw st h out es st' h' out' evs -> st = Inside ->
  st' = Inside /\ serving gw h out es h' out' evs.
Proof.
  induction 1 as [| ? ? ? ? ? ? ? ? ? ? ? D V IH | | |]; intros E; subst.
  - split; [reflexivity|constructor].
  - inversion D.
  - destruct IHvisit as (A & B); [reflexivity|]. split; [assumption|]. eapply Sv_sent; eassumption.
  - destruct IHvisit as (A & B); [reflexivity|]. split; [assumption|]. eapply Sv_got; eassumption.
  - destruct IHvisit as (A & B); [reflexivity|]. split; [assumption|]. apply Sv_yield; assumption.
Qed.
Lemma inside_visit l gw {Y} h out (es : list (ev Y)) h' out' evs : serving gw h out es h' out' evs ->
  visit l gw Inside h out es Inside h' out' evs.
Proof. induction 1; [constructor|eapply Vs_order; eassumption|eapply Vs_got; eassumption|apply Vs_yield; assumption]. Qed.

Lemma tour_inside l gw st h out cs s log evs st' h' out' : tour l gw st h out cs s log evs st' h' out' -> st = Inside ->
  st' = Inside /\ session_with gw h out cs s log evs h' out'.
Proof.
  induction 1 as [|st h out c cs s es s1 r st1 h1 out1 evs log evs' st' h' out' E V T H IH]; intros X; subst.
  - split; [reflexivity|constructor].
  - destruct (visit_inside _ _ _ _ _ _ _ _ _ _ V eq_refl) as (-> & S). destruct IH as (A & B); [reflexivity|].
    split; [assumption|]. eapply Ss_call; eassumption.
Qed.
Lemma inside_tour l gw h out cs s log evs h' out' : session_with gw h out cs s log evs h' out' ->
  tour l gw Inside h out cs s log evs Inside h' out'.
Proof. induction 1; [constructor|]. eapply To_call; try eassumption. apply inside_visit. assumption. Qed.

(** ** The first steps of a call *)

Lemma call_trace c o s es s1 r : call_ok c -> stands_for c o -> program c s = (es, s1, r) ->
  match s with
  | [] => es = [Sent (order_frame o)] /\ s1 = [] /\ r = Err TimeoutError
  | None :: s' => es = [Sent (order_frame o)] /\ s1 = s' /\ r = Err TimeoutError
  | Some m :: s' => (exists es', es = Sent (order_frame o) :: Got m :: es') /\
      (m = MNack -> es = [Sent (order_frame o); Got m] /\ s1 = s' /\ r = Err ResponseError)
  end.
Proof.
  intros Hok Ho E. destruct (asks c) eqn:Ac.
  - assert (X : forall Y (f : Y -> str * seen) (g : io Y unit) want body,
      (exists x, streamed want body s x /\ g s = pre [Sent (order_frame o)] x) -> ~ want MNack -> tagged f g s = (es, s1, r) ->
      match s with
      | [] => es = [Sent (order_frame o)] /\ s1 = [] /\ r = Err TimeoutError
      | None :: s' => es = [Sent (order_frame o)] /\ s1 = s' /\ r = Err TimeoutError
      | Some m :: s' => (exists es', es = Sent (order_frame o) :: Got m :: es') /\
          (m = MNack -> es = [Sent (order_frame o); Got m] /\ s1 = s' /\ r = Err ResponseError)
      end).
    { intros Y f g want body (x & Hx & Eg) Wn Et. unfold tagged in Et. rewrite Eg in Et. destruct x as [[es0 s0] r0]. cbn in Et. injection Et as <- <- <-.
      remember (es0, s0, r0) as x eqn:Ex. destruct Hx; injection Ex as <- <- <-; cbn [retag]; auto.
      - split; [eauto|discriminate].
      - split; [eauto|auto].
      - split; [eauto|intros ->; contradiction].
      - split; [eauto|intros ->; contradiction]. }
    pose proof Hok as (Hr & Hw & Hk & _). pose proof (proj1 Hw : placed (call_item c)) as Hp.
    inversion Ho; subst; try discriminate Ac; cbn [call_item call_who program] in *.
    + eapply X; [|intros W; destruct (normal_not_ack _ W) as [_ N]; exact (N eq_refl)|exact E]. cbn [order_frame]. rewrite <- Hk. apply status_streamed; assumption.
    + eapply X; [|intros W; destruct (normal_not_ack _ W) as [_ N]; exact (N eq_refl)|exact E]. cbn [order_frame]. rewrite <- Hk. apply status_streamed; assumption.
    + eapply X; [|intros W; destruct (normal_not_ack _ W) as [_ N]; exact (N eq_refl)|exact E]. cbn [order_frame]. rewrite <- Hk. apply status_streamed; assumption.
    + eapply (X _ _ (run_req it r0) dimres (ints_body (req_count r0))); [|intros W; destruct (dimres_not_ack _ W) as [_ N]; exact (N eq_refl)|exact E]. cbn [order_frame]. rewrite <- Hk.
      destruct r0; (apply dimension_streamed; [assumption|assumption|]); apply (FrameThms.digits_wire _ (req_digits _)).
  - destruct (command_program c o s Hok Ho Ac) as (_ & A). rewrite E in A. remember (es, s1, r) as x eqn:Ex.
    destruct A as [s'|m s' Hm|s'|]; injection Ex as <- <- <-; auto.
    + split; [eauto|discriminate].
    + split; [eauto|auto].
Qed.

(** ** Outside, nothing happens *)

Lemma visit_nil l gw {Y} st h out st' h' out' evs : visit l gw (Y:=Y) st h out [] st' h' out' evs -> st' = st /\ h' = h /\ out' = out /\ evs = [].
Proof. intros H. inversion H; subst. auto. Qed.
Lemma visit_got l gw {Y} st h out m (es : list (ev Y)) st' h' out' evs : visit l gw st h out (Got m :: es) st' h' out' evs ->
  exists f out0, out = f :: out0 /\ parse_message f = Ok m /\ visit l gw st h out0 es st' h' out' evs.
Proof. intros H. inversion H; subst. eauto. Qed.
Lemma visit_sent l gw {Y} st h out b (es : list (ev Y)) st' h' out' evs : st <> Inside -> visit l gw st h out (Sent b :: es) st' h' out' evs ->
  exists st1 ans, door l st b st1 ans /\ visit l gw st1 h (out ++ ans) es st' h' out' evs.
Proof. intros N H. inversion H; subst; [eauto|congruence]. Qed.

Lemma generic_parse n : digits n -> n <> [] -> parse_message (wire [35 :: n]) = Ok (MGeneric [35 :: n]).
Proof.
  intros D N.
  assert (W : wiretag (35 :: n)).
  { destruct (FrameThms.digits_wire n D) as (T & H). split; [constructor; [unfold tagchar; auto|exact T]|].
    intros (u & v & E). destruct u as [|x u]; cbn in E.
    - injection E as ->. inversion D as [|? ? Hd _]. unfold digitchar in Hd. lia.
    - injection E as _ E. apply H. exists u, v. exact E. }
  assert (Wf : wellformed (MGeneric [35 :: n])).
  { split; [apply Forall_cons; [exact W|apply Forall_nil]|]. split; [discriminate|constructor]. }
  rewrite <- (print_parse _ Wf). f_equal. unfold wire. cbn. rewrite ?app_nil_r. reflexivity.
Qed.

Lemma order_no_answer o q nonce : order_ok o -> ~ SpecVisit.right_answer q nonce (order_frame o).
Proof.
  intros H (s & (D & N & _) & E). pose proof (order_parse o H) as P. rewrite E, (generic_parse s D N) in P.
  destruct o; discriminate P.
Qed.

Definition quiet (cs : list call) : list (list (str * seen) * res unit) := map (fun _ => ([], Err TimeoutError)) cs.

Lemma call_refused l gw h c s es s1 r st1 h1 out1 evs : call_ok c -> program c s = (es, s1, r) ->
  visit l gw Refused h [] es st1 h1 out1 evs -> st1 = Refused /\ h1 = h /\ out1 = [] /\ evs = [] /\ yields es = [] /\ r = Err TimeoutError.
Proof.
  intros Hok E V. pose proof Hok as (_ & _ & _ & o & Ho). pose proof (call_trace c o s es s1 r Hok Ho E) as T.
  destruct s as [|[m|] s].
  - destruct T as (-> & -> & ->). apply visit_sent in V as (st2 & ans & D & V); [|discriminate]. inversion D; subst. cbn [app] in V.
    apply visit_nil in V as (-> & -> & -> & ->). auto 6.
  - destruct T as ((es' & ->) & _). apply visit_sent in V as (st2 & ans & D & V); [|discriminate]. inversion D; subst. cbn [app] in V.
    apply visit_got in V as (f & out0 & X & _). discriminate.
  - destruct T as (-> & -> & ->). apply visit_sent in V as (st2 & ans & D & V); [|discriminate]. inversion D; subst. cbn [app] in V.
    apply visit_nil in V as (-> & -> & -> & ->). auto 6.
Qed.

Lemma tour_refused l gw st h out cs s log evs st' h' out' : tour l gw st h out cs s log evs st' h' out' ->
  Forall call_ok cs -> st = Refused -> out = [] -> h' = h /\ out' = [] /\ evs = [] /\ log = quiet cs.
Proof.
  induction 1 as [|st h out c cs s es s1 r st1 h1 out1 evs log evs' st' h' out' E V T H IH]; intros F -> ->; [auto|].
  inversion F as [|? ? Hok F']; subst. destruct (call_refused _ _ _ _ _ _ _ _ _ _ _ _ Hok E V) as (-> & -> & -> & -> & -> & ->).
  destruct IH as (-> & -> & -> & ->); auto.
Qed.

Lemma tour_challenged q nonce gw h cs s log evs st' h' out' : tour (OpenLock q nonce) gw Challenged h [] cs s log evs st' h' out' ->
  Forall call_ok cs -> h' = h /\ out' = [] /\ evs = [] /\
  log = match cs with [] => [] | _ :: cs' => ([], Err ResponseError) :: quiet cs' end.
Proof.
  intros H F. inversion H as [|? ? ? c cs0 ? es s1 r st1 h1 out1 evs1 log1 evs2 ? ? ? E V T H1]; subst; [auto|]. inversion F as [|? ? Hok F']; subst.
  pose proof Hok as (_ & Hw & _ & o & Ho). pose proof (stands_ok c o Hw Ho) as Oo. pose proof (call_trace c o s es s1 r Hok Ho E) as Tr.
  assert (X : exists es', es = Sent (order_frame o) :: es').
  { destruct s as [|[m|] s]; [destruct Tr as (-> & _); eauto|destruct Tr as ((es' & ->) & _); eauto|destruct Tr as (-> & _); eauto]. }
  destruct X as (es' & Ees). rewrite Ees in V. apply visit_sent in V as (st2 & ans & D & V); [|discriminate].
  assert (Y : st2 = Refused /\ ans = [SpecHouse.frame_nack]).
  { inversion D; subst; [|auto]. exfalso. eapply order_no_answer; eassumption. }
  destruct Y as (-> & ->). cbn [app] in V.
  destruct s as [|[m|] s].
  - destruct Tr as (-> & -> & ->). injection Ees as <-. apply visit_nil in V as (-> & -> & -> & ->). discriminate (T eq_refl).
  - destruct Tr as ((es'' & Eq) & N). rewrite Ees in Eq. injection Eq as ->. apply visit_got in V as (f & out0 & Eo & P & V). injection Eo as <- <-.
    rewrite nack_parse in P. injection P as <-. destruct (N eq_refl) as (E2 & -> & ->). rewrite Ees in E2. injection E2 as ->. rewrite Ees in *. cbn [yields].
    apply visit_nil in V as (-> & -> & -> & ->). destruct (tour_refused _ _ _ _ _ _ _ _ _ _ _ _ H1 F' eq_refl eq_refl) as (-> & -> & -> & ->). auto.
  - destruct Tr as (-> & -> & ->). injection Ees as <-. apply visit_nil in V as (-> & -> & -> & ->). discriminate (T eq_refl).
Qed.

(** ** The login *)

Lemma hello_visit l gw t h (es : list (ev Empty_set)) st' h' out' evs : lock_ok l ->
  visit l gw Waiting h [SpecHouse.frame_ack] (hello t ++ es) st' h' out' evs ->
  match l with
  | NoLock => visit l gw Inside h [SpecHouse.frame_ack] es st' h' out' evs
  | OpenLock q nonce => visit l gw Challenged h [wire [35 :: nonce]] es st' h' out' evs
  end.
Proof.
  intros L V. cbn [hello app] in V. apply visit_got in V as (f & out0 & E & _ & V). injection E as <- <-.
  apply visit_sent in V as (st2 & ans & D & V); [|discriminate]. destruct l; inversion D; subst; exact V.
Qed.

Lemma open_visit q nonce gw t n ans h (es : list (ev Empty_set)) st' h' out' evs : lock_ok (OpenLock q nonce) ->
  visit (OpenLock q nonce) gw Waiting h [SpecHouse.frame_ack] (open_to t n ans ++ es) st' h' out' evs ->
  n = 35 :: nonce /\
  ((SpecVisit.right_answer q nonce (wire [35 :: ans]) /\ visit (OpenLock q nonce) gw Inside h [SpecHouse.frame_ack] es st' h' out' evs) \/
   (~ SpecVisit.right_answer q nonce (wire [35 :: ans]) /\ visit (OpenLock q nonce) gw Refused h [SpecHouse.frame_nack] es st' h' out' evs)).
Proof.
  intros L V. unfold open_to in V. rewrite <- app_assoc in V. apply hello_visit in V; [|exact L]. cbn [app] in V.
  apply visit_got in V as (f & out0 & E & P & V). injection E as <- <-. rewrite (generic_parse nonce (proj1 L) (proj2 L)) in P. injection P as <-.
  split; [reflexivity|]. apply visit_sent in V as (st2 & a & D & V); [|discriminate]. cbn [app] in V. inversion D; subst; auto.
Qed.

Lemma right_iff q nonce pw p ans : py_int pw = Ok p -> own_calc_pass pw (35 :: nonce) = Ok ans ->
  (SpecVisit.right_answer q nonce (wire [35 :: ans]) <-> opens (OpenLock q nonce) pw).
Proof.
  intros P A. pose proof (LoginThms.right_answer q nonce pw p ans P A) as H. split.
  - intros (s & N & E). apply wire1_inj in E. injection E as <-. exists p. split; [assumption|]. apply H, N.
  - intros (p' & P' & E). rewrite P in P'. injection P' as <-. exists ans. split; [apply H, E|reflexivity].
Qed.

Lemma pass_value pw nonce ans : own_calc_pass pw nonce = Ok ans -> exists p, py_int pw = Ok p.
Proof. intros A. destruct (py_int_value pw) as [X|X]; [exact X|]. apply (pass_raises pw nonce) in X. congruence. Qed.

Theorem login_visit C c l gw pw rnd s c' es s1 r h st h1 out1 evs : sane C -> lock_ok l ->
  start C c pw rnd true s = (c', (es, s1, r)) -> visit l gw Waiting h [SpecHouse.frame_ack] es st h1 out1 evs ->
  (r = Err TimeoutError -> out1 = []) ->
  c' = {| cl_session := cl_session c; cl_proto := true |} /\ h1 = h /\ out1 = [] /\ evs = [] /\
  ((r = Ok tt /\ opens l pw /\ st = Inside) \/
   (r = Err InvalidAuthentication /\ ~ opens l pw /\ st = Refused) \/
   (r = Err ValueError /\ py_int pw = Err ValueError /\ st = Challenged /\ exists q nonce, l = OpenLock q nonce)).
Proof.
  intros HC L R V T. apply start_iff in R; [|exact HC]. destruct R as (-> & O & _). split; [reflexivity|].
  assert (Alg : forall a more es', ~ visit l gw Waiting h [SpecHouse.frame_ack] (alg_to (cl_session c) a more ++ es') st h1 out1 evs).
  { intros a more es' W. unfold alg_to in W. rewrite <- app_assoc in W. apply hello_visit in W; [|exact L]. cbn [app] in W. destruct l as [|q nonce].
    - apply visit_got in W as (f & out0 & E & P & _). injection E as <- <-. rewrite ack_parse in P. discriminate.
    - apply visit_got in W as (f & out0 & E & P & _). injection E as <- <-. rewrite (generic_parse nonce (proj1 L) (proj2 L)) in P. destruct a; discriminate. }
  assert (Auth : forall a more m k es', ~ visit l gw Waiting h [SpecHouse.frame_ack] (auth_to C (cl_session c) pw rnd a more m k ++ es') st h1 out1 evs).
  { intros a more m k es' W. unfold auth_to in W. rewrite <- app_assoc in W. exact (Alg _ _ _ W). }
  assert (NoOpen : forall n ans es', visit l gw Waiting h [SpecHouse.frame_ack] (open_to (cl_session c) n ans ++ es') st h1 out1 evs -> exists q nonce, l = OpenLock q nonce).
  { intros n ans es' W. destruct l as [|q nonce]; [|eauto]. unfold open_to in W. rewrite <- app_assoc in W. apply hello_visit in W; [|exact L]. cbn [app] in W.
    apply visit_got in W as (f & out0 & E & P & _). injection E as <- <-. rewrite ack_parse in P. discriminate. }
  destruct r as [[]|e].
  - destruct O as [|n ans A|a more m k m2 p F1 F2 F3 F4].
    + apply hello_visit in V; [|exact L].
      destruct l as [|q nonce]; apply visit_got in V as (f & out0 & E & P & V); injection E as <- <-.
      * apply visit_nil in V as (-> & -> & -> & ->). do 3 (split; [reflexivity|]). left. repeat split.
      * rewrite (generic_parse nonce (proj1 L) (proj2 L)) in P. discriminate.
    + destruct (NoOpen _ _ _ V) as (q & nonce & ->). apply open_visit in V as (-> & [(Ri & V)|(Ri & V)]); [| |exact L];
        apply visit_got in V as (f & out0 & E & P & V); injection E as <- <-.
      * apply visit_nil in V as (-> & -> & -> & ->). do 3 (split; [reflexivity|]). left. split; [reflexivity|]. split; [|reflexivity].
        destruct (pass_value _ _ _ A) as (p & Pp). apply (right_iff q nonce pw p ans Pp A). exact Ri.
      * rewrite nack_parse in P. discriminate.
    + exfalso. eapply Auth, V.
  - destruct e; try contradiction.
    + destruct O as [m H|m H1 H2 H3 H4|n ans m A H|n more H1 H2|a more m k H|a more m k m2 p b H1 H2 H3 H4 H5].
      * apply visit_got in V as (f & out0 & E & P & V). injection E as <- <-. rewrite ack_parse in P. congruence.
      * apply hello_visit in V; [|exact L]. destruct l as [|q nonce]; apply visit_got in V as (f & out0 & E & P & V); injection E as <- <-.
        -- rewrite ack_parse in P. congruence.
        -- rewrite (generic_parse nonce (proj1 L) (proj2 L)) in P. injection P as <-. cbn in H2. congruence.
      * destruct (NoOpen _ _ _ V) as (q & nonce & ->). apply open_visit in V as (-> & [(Ri & V)|(Ri & V)]); [| |exact L];
          apply visit_got in V as (f & out0 & E & P & V); injection E as <- <-.
        -- rewrite ack_parse in P. congruence.
        -- apply visit_nil in V as (-> & -> & -> & ->). do 3 (split; [reflexivity|]). right. left. split; [reflexivity|]. split; [|reflexivity].
           destruct (pass_value _ _ _ A) as (p & Pp). intros X. apply Ri. apply (right_iff q nonce pw p ans Pp A). exact X.
      * apply hello_visit in V; [|exact L]. cbn [app] in V. destruct l as [|q nonce]; apply visit_got in V as (f & out0 & E & P & V); injection E as <- <-.
        -- rewrite ack_parse in P. discriminate.
        -- rewrite (generic_parse nonce (proj1 L) (proj2 L)) in P. discriminate.
      * exfalso. eapply Auth, V.
      * exfalso. eapply Auth, V.
    + destruct O as [n e A|a more m k m2 p H1 H2 H3 H4].
      * apply hello_visit in V; [|exact L]. destruct l as [|q nonce]; apply visit_got in V as (f & out0 & E & P & V); injection E as <- <-.
        -- rewrite ack_parse in P. discriminate.
        -- apply visit_nil in V as (-> & -> & -> & ->). do 3 (split; [reflexivity|]). right. right. split; [reflexivity|]. split; [|split; [reflexivity|eauto]].
           destruct (py_int_value pw) as [[p Pp]|Pp]; [|exact Pp]. rewrite (pass_ok _ n _ Pp) in A. discriminate.
      * exfalso. eapply Auth, V.
    + destruct O as [|a more|a more m k H].
      * apply hello_visit in V; [|exact L]. destruct l as [|q nonce]; apply visit_got in V as (f & out0 & E & P & V); injection E as <- <-.
        -- rewrite ack_parse in P. discriminate.
        -- rewrite (generic_parse nonce (proj1 L) (proj2 L)) in P. discriminate.
      * exfalso. eapply Alg, V.
      * exfalso. eapply Auth, V.
    + specialize (T eq_refl). subst out1. destruct O as [| |n ans A|a more|a more m k H].
      * apply visit_nil in V as (_ & _ & X & _). discriminate.
      * pose proof (hello_visit l gw (cl_session c) h [] st h1 [] evs L V) as V'. destruct l; apply visit_nil in V' as (_ & _ & X & _); discriminate.
      * rewrite <- (app_nil_r (open_to _ _ _)) in V. destruct (NoOpen _ _ _ V) as (q & nonce & ->).
        apply open_visit in V as (-> & [(_ & V)|(_ & V)]); [| |exact L]; apply visit_nil in V as (_ & _ & X & _); discriminate.
      * exfalso. rewrite <- (app_nil_r (alg_to _ _ _)) in V. eapply Alg, V.
      * exfalso. rewrite <- (app_nil_r (auth_to _ _ _ _ _ _ _ _)) in V. eapply Auth, V.    + destruct O as [a more m k H1 H2]. exfalso. eapply Alg, V.
Qed.

(** ** The whole visit *)

Theorem whole_visit C t l gw pw rnd s c es s1 r h st h1 out1 evs1 cs log evs st' h' out' :
  sane C -> lock_ok l -> gateway_ok gw -> house_ok h -> t <> Event ->
  start C (new_client t) pw rnd true s = (c, (es, s1, r)) -> visit l gw Waiting h [SpecHouse.frame_ack] es st h1 out1 evs1 ->
  (r = Err TimeoutError -> out1 = []) -> Forall (call_via c) cs ->
  tour l gw st h1 out1 cs s1 log evs st' h' out' ->
  evs1 = [] /\ out' = [] /\
  ((r = Ok tt /\ opens l pw /\ story gw h cs log evs h') \/
   (r = Err InvalidAuthentication /\ ~ opens l pw /\ h' = h /\ evs = [] /\ log = quiet cs) \/
   (r = Err ValueError /\ l <> NoLock /\ py_int pw = Err ValueError /\ h' = h /\ evs = [] /\
    log = match cs with [] => [] | _ :: cs' => ([], Err ResponseError) :: quiet cs' end)).
Proof.
  intros HC L G Hh Ht R V T F To. destruct (login_visit _ _ _ _ _ _ _ _ _ _ _ _ _ _ _ _ HC L R V T) as (-> & -> & -> & -> & K).
  assert (F' : Forall call_ok cs) by (eapply Forall_impl; [|exact F]; intros k Hk; eapply via_ok; [| |exact Hk]; [exact Ht|reflexivity]).
  split; [reflexivity|]. destruct K as [(-> & O & ->)|[(-> & O & ->)|(-> & P & -> & q & nonce & ->)]].
  - destruct (tour_inside _ _ _ _ _ _ _ _ _ _ _ _ To eq_refl) as (_ & S). destruct (session_story _ _ _ _ _ _ _ _ _ S G Hh F' eq_refl) as (A & -> & _). auto.
  - destruct (tour_refused _ _ _ _ _ _ _ _ _ _ _ _ To F' eq_refl eq_refl) as (-> & -> & -> & ->). auto 8.
  - destruct (tour_challenged _ _ _ _ _ _ _ _ _ _ _ To F') as (-> & -> & -> & E). split; [reflexivity|]. right. right.
    split; [reflexivity|]. split; [discriminate|]. auto.
Qed.

(** ** Every visit can take place *)

Lemma refused_tour l gw h cs : Forall call_ok cs -> tour l gw Refused h [] cs [] (quiet cs) [] Refused h [].
Proof.
  induction cs as [|c cs IH]; intros F; [constructor|]. inversion F as [|? ? Hok F']; subst.
  pose proof Hok as (_ & _ & _ & o & Ho). destruct (program c []) as [[es s1] r] eqn:E.
  pose proof (call_trace c o [] es s1 r Hok Ho E) as (-> & -> & ->).
  eapply (To_call l gw Refused h [] c cs [] [Sent (order_frame o)] [] (Err TimeoutError) Refused h [] [] (quiet cs) []); [exact E| |reflexivity|apply IH, F'].
  eapply Vs_door; [apply Dr_deaf|]. apply Vs_nil.
Qed.

Lemma challenged_tour q nonce gw h cs : Forall call_ok cs -> exists s log st, tour (OpenLock q nonce) gw Challenged h [] cs s log [] st h [].
Proof.
  intros F. destruct cs as [|c cs]; [exists [], [], Challenged; constructor|]. inversion F as [|? ? Hok F']; subst.
  pose proof Hok as (_ & Hw & _ & o & Ho). destruct (program c [Some MNack]) as [[es s1] r] eqn:E.
  pose proof (call_trace c o _ es s1 r Hok Ho E) as (_ & N). destruct (N eq_refl) as (-> & -> & ->).
  exists [Some MNack], (([], Err ResponseError) :: quiet cs), Refused.
  eapply (To_call _ gw Challenged h [] c cs _ [Sent (order_frame o); Got MNack] [] (Err ResponseError) Refused h [] [] (quiet cs) []); [exact E| |discriminate|apply refused_tour, F'].
  eapply Vs_door; [apply Dr_wrong, order_no_answer, (stands_ok c o Hw Ho)|]. cbn [app]. eapply Vs_got; [exact nack_parse|]. apply Vs_nil.
Qed.

Lemma session_is t : session_frame (frame_session t).
Proof. destruct t; cbn; auto. Qed.

Lemma visit_app l gw {Y} st h out (es : list (ev Y)) st1 h1 out1 evs1 es2 st' h' out' evs :
  visit l gw st h out es st1 h1 out1 evs1 -> visit l gw st1 h1 out1 es2 st' h' out' evs -> visit l gw st h out (es ++ es2) st' h' out' (evs1 ++ evs).
Proof.
  induction 1; intros V; cbn [app].
  - exact V.
  - eapply Vs_door; eauto.
  - rewrite <- app_assoc. eapply Vs_order; eauto.
  - eapply Vs_got; eauto.
  - apply Vs_yield; auto.
Qed.

Lemma hello_free gw t h : visit (Y:=Empty_set) NoLock gw Waiting h [SpecHouse.frame_ack] (hello t) Inside h [SpecHouse.frame_ack] [].
Proof. unfold hello. eapply Vs_got; [exact ack_parse|]. eapply Vs_door; [apply Dr_free, session_is|]. apply Vs_nil. Qed.
Lemma hello_open q nonce gw t h : lock_ok (OpenLock q nonce) ->
  visit (Y:=Empty_set) (OpenLock q nonce) gw Waiting h [SpecHouse.frame_ack] (hello t ++ [Got (MGeneric [35 :: nonce])]) Challenged h [] [].
Proof.
  intros L. unfold hello. cbn [app]. eapply Vs_got; [exact ack_parse|]. eapply Vs_door; [apply Dr_challenge, session_is|]. cbn [app].
  eapply Vs_got; [exact (generic_parse nonce (proj1 L) (proj2 L))|]. apply Vs_nil.
Qed.

Definition joined (t : session) : client := {| cl_session := t; cl_proto := true |}.

Theorem visit_exists C t l gw pw rnd h cs : sane C -> lock_ok l -> gateway_ok gw -> house_ok h -> t <> Event -> Forall (call_via (joined t)) cs ->
  exists s es s1 r st log evs st' h', start C (new_client t) pw rnd true s = (joined t, (es, s1, r)) /\ r <> Err TimeoutError /\
    visit l gw Waiting h [SpecHouse.frame_ack] es st h [] [] /\ tour l gw st h [] cs s1 log evs st' h' [].
Proof.
  intros HC L G Hh Ht F.
  assert (F' : Forall call_ok cs) by (eapply Forall_impl; [|exact F]; intros k Hk; eapply via_ok; [| |exact Hk]; [exact Ht|reflexivity]).
  destruct (session_exists gw G cs h Hh F') as (ms & log & evs & h' & S). apply (inside_tour l) in S.
  destruct l as [|q nonce].
  - exists (map Some [MAck; MAck] ++ map Some ms), (hello t ++ [Got MAck]), (map Some ms), (Ok tt), Inside, log, evs, Inside, h'. split; [|split; [discriminate|split; [|exact S]]].
    + apply start_iff; [exact HC|]. split; [reflexivity|]. split; [apply L_free|reflexivity].
    + eapply (visit_app _ _ _ _ _ _ _ _ _ []); [apply hello_free|]. eapply Vs_got; [exact ack_parse|]. apply Vs_nil.
  - pose proof (hello_open q nonce gw t h L) as V0. destruct (py_int_value pw) as [[p P]|P].
    + destruct (pass_numeral pw (35 :: nonce) p P) as (n & ans & A & _). pose proof (right_iff q nonce pw p ans P A) as Ri.
      assert (X : opens (OpenLock q nonce) pw \/ ~ opens (OpenLock q nonce) pw).
      { destruct (Z.eq_dec (p mod 2 ^ 32) (q mod 2 ^ 32)) as [E|E]; [left; exists p; auto|right; intros (p' & P' & E'); congruence]. }
      destruct X as [X|X].
      * exists (map Some [MAck; MGeneric [35 :: nonce]; MAck] ++ map Some ms), (open_to t (35 :: nonce) ans ++ [Got MAck]), (map Some ms), (Ok tt), Inside, log, evs, Inside, h'.
        split; [|split; [discriminate|split; [|exact S]]].
        -- apply start_iff; [exact HC|]. split; [reflexivity|]. split; [apply L_open, A|reflexivity].
        -- unfold open_to. change [Got (MGeneric [35 :: nonce]); Sent (wire [35 :: ans])] with ([Got (MGeneric [35 :: nonce])] ++ [Sent (Y:=Empty_set) (wire [35 :: ans])]).
           rewrite (app_assoc (hello t)), <- (app_assoc (hello t ++ _)). eapply (visit_app _ _ _ _ _ _ _ _ _ []); [exact V0|]. cbn [app].
           eapply Vs_door; [apply Dr_right, Ri, X|]. eapply Vs_got; [exact ack_parse|]. apply Vs_nil.
      * exists (map Some [MAck; MGeneric [35 :: nonce]; MNack]), (open_to t (35 :: nonce) ans ++ [Got MNack]), [], (Err InvalidAuthentication), Refused, (quiet cs), [], Refused, h.
        split; [|split; [discriminate|split; [|apply refused_tour, F']]].
        -- apply start_iff; [exact HC|]. split; [reflexivity|]. split; [apply R_open; [exact A|discriminate]|reflexivity].
        -- unfold open_to. change [Got (MGeneric [35 :: nonce]); Sent (wire [35 :: ans])] with ([Got (MGeneric [35 :: nonce])] ++ [Sent (Y:=Empty_set) (wire [35 :: ans])]).
           rewrite (app_assoc (hello t)), <- (app_assoc (hello t ++ _)). eapply (visit_app _ _ _ _ _ _ _ _ _ []); [exact V0|]. cbn [app].
           eapply Vs_door; [apply Dr_wrong; intros Y; apply X, Ri, Y|]. eapply Vs_got; [exact nack_parse|]. apply Vs_nil.
    + destruct (challenged_tour q nonce gw h cs F') as (s & lg & st & To).
      exists (map Some [MAck; MGeneric [35 :: nonce]] ++ s), (hello t ++ [Got (MGeneric [35 :: nonce])]), s, (Err ValueError), Challenged, lg, [], st, h.
      split; [|split; [discriminate|split; [exact V0|exact To]]].
      apply start_iff; [exact HC|]. split; [reflexivity|]. split; [|reflexivity]. eapply V_password. apply pass_raises. exact P.
Qed.

(** ** Before start(), after close(), and on an event client *)

Theorem call_no_session c k s : (cl_session c = Event \/ cl_proto c = false) -> call_via c k -> program k s = ([], s, Err InvalidSession).
Proof.
  intros N (<- & _ & _ & o & Ho).
  assert (Hr : ~ ready (call_item k)) by (intros (A & B); destruct N; congruence).
  assert (D : forall n, tagtext (dec n)) by (intros n; apply dec_tagtext).
  destruct Ho as [it k n|it k|it h m x|it a b|it h x v|it t|it|it|it|it r]; cbn [call_item program] in *.
  - rewrite light_run_normal. apply command_no_session; [exact Hr|]. destruct k as [[]|[]|[]| |]; apply tagtext_valid; reflexivity.
  - unfold run_auto. apply command_no_session; [exact Hr|]. destruct k; apply tagtext_valid; reflexivity.
  - unfold temporization_command. replace (_ || _ || _)%bool with false by (symmetry; rewrite !orb_false_iff, !Z.leb_gt; lia).
    rewrite !value_int_small by lia. rewrite !andthen_lift. apply writing_no_session; [exact Hr|apply (D 2)].
  - unfold set_brightness_with_speed.
    pose proof (value_int_ok (Z.of_N a) ltac:(lia)) as Ea. pose proof (value_int_ok (Z.of_N b) ltac:(lia)) as Eb.
    rewrite N2Z.id in Ea, Eb. unfold value_int in *. rewrite Ea, Eb by (apply small_len; lia). rewrite !andthen_lift. apply writing_no_session; [exact Hr|apply (D 1)].
  - unfold set_hsv. replace ((h <? 0) || (359 <? h))%Z with false by (symmetry; rewrite orb_false_iff, !Z.ltb_ge; lia).
    replace ((x <? 0) || (100 <? x))%Z with false by (symmetry; rewrite orb_false_iff, !Z.ltb_ge; lia).
    replace ((v <? 0) || (100 <? v))%Z with false by (symmetry; rewrite orb_false_iff, !Z.ltb_ge; lia).
    rewrite !value_int_small by lia. rewrite !andthen_lift. apply writing_no_session; [exact Hr|apply (D 12)].
  - unfold set_white_temperature. replace ((t <? 1) || (65534 <? t))%Z with false by (symmetry; rewrite orb_false_iff, !Z.ltb_ge; lia).
    rewrite !value_int_small by lia. rewrite !andthen_lift. apply writing_no_session; [exact Hr|apply (D 13)].
  - unfold tagged, light_get_status, send_status_request. rewrite (andthen_err _ _ _ _ _ _ (item_send_refused _ _ _ Hr)). reflexivity.
  - unfold tagged, dimmer_get_status, send_status_request. rewrite (andthen_err _ _ _ _ _ _ (item_send_refused _ _ _ Hr)). reflexivity.
  - unfold tagged, auto_get_status, send_status_request. rewrite (andthen_err _ _ _ _ _ _ (item_send_refused _ _ _ Hr)). reflexivity.
  - unfold tagged. destruct r; unfold run_req, temporization_request, request_working_time_lamp, request_current_brightness_speed, request_current_hsv, request_current_white_temperature, send_dimension_request;
      match goal with |- context [mk ?d] => replace (mk d) with (Ok d) by (symmetry; apply mk_ok, tagtext_valid; reflexivity) end; rewrite andthen_lift;
      rewrite (andthen_err _ _ _ _ _ _ (item_send_refused _ _ _ Hr)); reflexivity.
Qed.
