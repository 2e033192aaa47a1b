(** * Whole sessions with a house, and its events *)
From Coq Require Import String List NArith ZArith Bool Lia.
From Verif Require Import PyStr Tags Messages MessageFacts SpecMsg SpecTag MessageThms MessageThms2 MessageThms3 TagThms Protocol SpecProto ProtoThms IO Client SpecItem Items
  Lighting SpecLight HandshakeThms ItemThms LightThms LightThms2 FrameThms Dispatch SpecDispatch DispatchThms DispatchThms2 SpecHouse HouseThms.
Import ListNotations.
Open Scope N_scope.
Open Scope list_scope.

(** ** The house stays readable *)

Lemma dec_valnum n : n < 100000 -> valnum (dec n) n.
Proof.
  intros H. exists (dec n). split; [left; reflexivity|]. split; [apply digits_all, dec_digits|]. split; [apply dec_not_nil|].
  split; [rewrite value_of_dval; apply dval_dec|]. apply (small_len n H).
Qed.

Lemma written_ok d vs ns p : point_ok p -> Forall wiretag vs -> Forall2 valnum vs ns -> length ns = enough d -> point_ok (written d vs p).
Proof.
  intros (A & B & C & L & D) W F E. split; [exact A|]. split; [exact B|]. split; [exact C|]. split; [|exact D].
  intros Hl. destruct (L Hl) as (S & Ds). split; [exact S|]. intros d' vs' X. cbn in X.
  destruct (str_eqb d d') eqn:Ed; [|apply Ds, X]. injection X as <-. apply str_eqb_spec in Ed. subst d'.
  split; [exact W|]. exists vs, [], ns. rewrite app_nil_r. auto.
Qed.

Lemma done_ok gw w a f h : house_ok h -> (forall p, point_ok p -> p_who p = w -> point_ok (f p)) -> house_ok (done_to gw w a f h).
Proof.
  intros H F. unfold house_ok, done_to. apply Forall_forall. intros p Hp. apply in_map_iff in Hp as (q & <- & I).
  unfold house_ok in H. rewrite Forall_forall in H. destruct (aimed gw w a q) eqn:A; [|apply H, I].
  apply F; [apply H, I|]. unfold aimed in A. apply andb_true_iff in A as (A & _). apply who_eqb_true, A.
Qed.

Lemma does_ok gw h c h1 obs r evs : gateway_ok gw -> house_ok h -> does gw h c h1 obs r evs -> house_ok h1.
Proof.
  intros (GL & GA) Hh D. destruct D as [o Ho X|o h' ans evs Ho Ac X O|o h' ans evs yss Ho Ac X O F]; [assumption| |].
  - destruct O; try assumption.
    + apply done_ok; [assumption|]. intros p P Pw. pose proof P as (A & B & C & L & D). subst w.
      inversion Ho as [it0 c0 n Hdoc Ec Ew|it0 c0 Ec Ew| | | | | | | | ]; subst.
      * destruct (L (eq_sym Ew)) as ((k & Hk) & Ds).
        destruct (GL n (p_state p) k ltac:(congruence) C Hk) as (W & m & Hm).
        split; [exact A|]. split; [exact B|]. cbn [moved p_state p_who p_dims p_where]. rewrite <- Ew. split; [exact W|].
        split; [intros _; split; [eauto|exact Ds]|discriminate].
      * destruct (D (eq_sym Ew)) as (c' & Hc'). destruct (GA c0 c') as (c'' & Hc'').
        split; [exact A|]. split; [exact B|]. cbn [moved p_state p_who p_dims p_where]. rewrite <- Ew, Hc', Hc''.
        split; [apply dec_wire|]. split; [discriminate|]. intros _. eauto.
    + apply done_ok; [assumption|]. intros p P Pw. inversion Ho; subst.
      * apply (written_ok _ _ [Z.to_N h0; Z.to_N m; Z.to_N s] p P); [repeat (apply Forall_cons; [apply dec_wire|]); apply Forall_nil| |reflexivity].
        repeat (constructor; [apply dec_valnum; lia|]). constructor.
      * apply (written_ok _ _ [l; s] p P); [repeat (apply Forall_cons; [apply dec_wire|]); apply Forall_nil| |reflexivity].
        repeat (constructor; [apply dec_valnum; lia|]). constructor.
      * apply (written_ok _ _ [Z.to_N h0; Z.to_N s; Z.to_N v] p P); [repeat (apply Forall_cons; [apply dec_wire|]); apply Forall_nil| |reflexivity].
        repeat (constructor; [apply dec_valnum; lia|]). constructor.
      * apply (written_ok _ _ [Z.to_N t] p P); [repeat (apply Forall_cons; [apply dec_wire|]); apply Forall_nil| |reflexivity].
        repeat (constructor; [apply dec_valnum; lia|]). constructor.
  - destruct O; try assumption; inversion Ho; subst; discriminate.
Qed.

(** ** Sessions *)

Theorem session_story gw h out cs s log evs h' out' : session_with gw h out cs s log evs h' out' ->
  gateway_ok gw -> house_ok h -> Forall call_ok cs -> out = [] ->
  story gw h cs log evs h' /\ out' = [] /\ house_ok h'.
Proof.
  induction 1 as [h out s|h out c cs s es s1 r h1 out1 evs log evs' h' out' E S T H IH]; intros G Hh Hc ->.
  - split; [constructor|]. auto.
  - inversion Hc; subst. destruct (one_call gw h c s es s1 r h1 out1 evs Hh ltac:(assumption) E S T) as (-> & D).
    destruct (IH G (does_ok _ _ _ _ _ _ _ G Hh D) ltac:(assumption) eq_refl) as (St & -> & Hh').
    split; [econstructor; eassumption|]. auto.
Qed.

(** Such sessions exist: a gateway that answers everything. *)
Lemma stream_exists gw {Y} (want : msg -> Prop) (body : msg -> res (list Y)) rest h : (forall m, want m -> m <> MAck /\ m <> MNack) ->
  forall fs ms, Forall2 (fun f m => parse_message f = Ok m /\ want m /\ exists ys, body m = Ok ys) fs ms ->
  forall x, streamed want body (map Some ms ++ Some MAck :: rest) x ->
  exists es, x = (es, rest, Ok tt) /\ serving gw h (fs ++ [frame_ack]) es h [] [].
Proof.
  intros Wn fs ms F. induction F as [|f m fs ms (P & W & ys & B) F IH]; intros x Hx; cbn [map app] in Hx.
  - inversion Hx; subst; try congruence.
    + exists [Got MAck]. split; [reflexivity|]. constructor; [apply ack_parse|constructor].
    + destruct (Wn _ H1). congruence.
    + destruct (Wn _ H1). congruence.
  - destruct (Wn _ W). inversion Hx; subst; try congruence; try contradiction.
    match goal with X : streamed _ _ (map Some ms ++ _) _ |- _ => destruct (IH _ X) as (es' & E & S) end.
    injection E as -> -> ->. eexists. split; [reflexivity|].
    constructor; [exact P|]. apply serving_yielded. exact S.
Qed.

Lemma call_exists gw h c : house_ok h -> call_ok c ->
  exists ms h1 evs, forall rest, exists es r, program c (map Some ms ++ rest) = (es, rest, r) /\
    serving gw h [] es h1 [] evs /\ r <> Err TimeoutError.
Proof.
  intros Hh Hok. pose proof Hok as (Hr & Hw & Hk & o & Ho). pose proof (stands_ok c o Hw Ho) as Oo.
  pose proof (proj1 Hw : placed (call_item c)) as Hp.
  assert (Sv : forall h1 ans evs, obeys gw h o h1 ans evs -> serves gw h (order_frame o) h1 ans evs) by (intros; exists o; auto).
  destruct (asks c) eqn:Ac.
  - assert (G : forall Y (f : Y -> str * seen) (want : msg -> Prop) body (g : io Y unit) (R : point -> list Y -> Prop),
      program c = tagged f g -> (forall s, exists x, streamed want body s x /\ g s = pre [Sent (order_frame o)] x) ->
      (forall m, want m -> m <> MAck /\ m <> MNack) ->
      Forall (fun p => exists ys, R p ys /\ read_as want body (frames_of o p) ys) (filter (at_whom gw o) h) ->
      exists ms h1 evs, forall rest, exists es r, program c (map Some ms ++ rest) = (es, rest, r) /\
        serving gw h [] es h1 [] evs /\ r <> Err TimeoutError).
    { intros Y f want body g R Eg Eq Wn V. rewrite Eg. destruct (existsb (at_whom gw o) h) eqn:X.
      - destruct (read_all want body (frames_of o) _ R V) as (yss & fyss & F & Ec & Gd).
        assert (M : exists ms, Forall2 (fun f m => parse_message f = Ok m /\ want m /\ exists ys, body m = Ok ys) (concat (map (frames_of o) (filter (at_whom gw o) h))) ms).
        { clear - Gd. induction Gd as [|fr ys fs fyss (m & P & W & B) Gd (ms & IH)]; [exists []; constructor|]. exists (m :: ms). constructor; eauto. }
        destruct M as (ms & M).
        assert (O : exists evs, obeys gw h o h (concat (map (frames_of o) (filter (at_whom gw o) h)) ++ [frame_ack]) evs).
        { inversion Ho; subst; try discriminate Ac; eexists; cbn [at_whom frames_of] in *;
            try (rewrite (concat_singles frame_state)); first [apply Ob_status; exact X | apply Ob_dimension; exact X]. }
        destruct O as (evs & O).
        exists (ms ++ [MAck]), h, (evs ++ []). intros rest. rewrite map_app, <- app_assoc. cbn [map app].
        destruct (Eq (map Some ms ++ Some MAck :: rest)) as (x & Hx & E).
        destruct (stream_exists gw want body rest h Wn _ _ M x Hx) as (es & -> & S).
        exists (retag f (Sent (order_frame o) :: es)), (Ok tt). unfold tagged. rewrite E. split; [reflexivity|].
        split; [|discriminate]. apply serving_retag'. econstructor; [apply Sv, O|]. exact S.
      - exists [MNack], h, ([] ++ []). intros rest. cbn [map app].
        destruct (Eq (Some MNack :: rest)) as (x & Hx & E).
        assert (Ex : x = ([Got MNack], rest, Err ResponseError)).
        { inversion Hx; subst; try reflexivity; match goal with W : want MNack |- _ => destruct (Wn _ W); congruence end. }
        subst x. exists (retag f [Sent (order_frame o); Got MNack]), (Err ResponseError). unfold tagged. rewrite E. split; [reflexivity|].
        split; [|discriminate]. apply serving_retag'. apply (Sv_sent gw h [] (order_frame o) h [frame_nack] [] [Got MNack] h [] []); [apply Sv, Ob_nobody, X|].
        constructor; [apply nack_parse|constructor]. }
    inversion Ho; subst; try discriminate Ac; cbn [call_item call_who] in *.
    + eapply (G _ _ normal light_status_body (light_get_status it) (fun p ys => True)); [reflexivity| |exact normal_not_ack|].
      * intros s. cbn [order_frame]. rewrite <- Hk. apply status_streamed; assumption.
      * eapply Forall_impl; [|apply (aimed_points gw LIGHTING (it_where it) h Hh)]. intros p (P & Pw). destruct (light_read it p P) as (ys & _ & R). eauto.
    + eapply (G _ _ normal dimmer_status_body (dimmer_get_status it) (fun p ys => True)); [reflexivity| |exact normal_not_ack|].
      * intros s. cbn [order_frame]. rewrite <- Hk. apply status_streamed; assumption.
      * eapply Forall_impl; [|apply (aimed_points gw LIGHTING (it_where it) h Hh)]. intros p (P & Pw). destruct (dimmer_read it p P Pw) as (ys & _ & R). eauto.
    + eapply (G _ _ normal auto_status_body (auto_get_status it) (fun p ys => True)); [reflexivity| |exact normal_not_ack|].
      * intros s. cbn [order_frame]. rewrite <- Hk. apply status_streamed; assumption.
      * eapply Forall_impl; [|apply (aimed_points gw AUTOMATION (it_where it) h Hh)]. intros p (P & Pw). destruct (auto_read it p P Pw) as (ys & _ & R). eauto.
    + eapply (G _ _ dimres (ints_body (req_count r)) (run_req it r) (fun p ys => True)); [reflexivity| |exact dimres_not_ack|].
      * intros s. cbn [order_frame]. rewrite <- Hk. destruct r; (apply dimension_streamed; [assumption|assumption|]); apply (digits_wire _ (req_digits _)).
      * eapply Forall_impl; [|apply (aimed_points gw LIGHTING (it_where it) h Hh)]. intros p (P & Pw). destruct (numbers_read it r p P Pw) as (ys & _ & R). eauto.
  - destruct (existsb (at_whom gw o) h) eqn:X.
    + assert (O : exists h1 evs, obeys gw h o h1 [frame_ack] evs).
      { destruct (command_program c o [] Hok Ho Ac) as (Hc & _).
        destruct o; cbn in Hc, X; try contradiction; do 2 eexists; [apply Ob_command|apply Ob_writing]; exact X. }
      destruct O as (h1 & evs & O). exists [MAck], h1, (evs ++ []). intros rest. cbn [map app]. destruct (command_program c o (Some MAck :: rest) Hok Ho Ac) as (Hc & A).
      destruct (program c (Some MAck :: rest)) as [[es s1] r]. inversion A; subst; try congruence.
      exists [Sent (order_frame o); Got MAck], (Ok tt). split; [reflexivity|]. split; [|discriminate].
      econstructor; [apply Sv, O|]. constructor; [apply ack_parse|constructor].
    + exists [MNack], h, ([] ++ []). intros rest. cbn [map app]. destruct (command_program c o (Some MNack :: rest) Hok Ho Ac) as (Hc & A).
      destruct (program c (Some MNack :: rest)) as [[es s1] r]. inversion A; subst; try congruence.
      exists [Sent (order_frame o); Got MNack], (Err ResponseError). split; [reflexivity|]. split; [|discriminate].
      apply (Sv_sent gw h [] (order_frame o) h [frame_nack] [] [Got MNack] h [] []); [apply Sv, Ob_nobody, X|].
        constructor; [apply nack_parse|constructor].
Qed.

Theorem session_exists gw : gateway_ok gw -> forall cs h, house_ok h -> Forall call_ok cs ->
  exists ms log evs h', session_with gw h [] cs (map Some ms) log evs h' [].
Proof.
  intros G cs. induction cs as [|c cs IH]; intros h Hh Hc; [exists [], [], [], h; constructor|].
  inversion Hc; subst. destruct (call_exists gw h c Hh ltac:(assumption)) as (ms & h1 & evs1 & E).
  destruct (E []) as (es0 & r0 & E0 & S0 & T0).
  destruct (one_call gw h c _ _ _ _ _ _ _ Hh ltac:(assumption) E0 S0 ltac:(congruence)) as (_ & D).
  destruct (IH h1 (does_ok _ _ _ _ _ _ _ G Hh D) ltac:(assumption)) as (ms2 & log & evs & h' & S2).
  exists (ms ++ ms2). rewrite map_app. destruct (E (map Some ms2)) as (es & r & E' & S' & T').
  do 3 eexists. econstructor; [exact E'|exact S'|congruence|exact S2].
Qed.

(** ** The history of one point *)

Lemma existsb_none {A} (f : A -> bool) l : existsb f l = false -> forall x, In x l -> f x = false.
Proof.
  intros H x I. destruct (f x) eqn:E; [|reflexivity]. assert (X : existsb f l = true) by (apply existsb_exists; eauto). congruence.
Qed.

Lemma obeys_step gw h o h' ans evs : obeys gw h o h' ans evs -> h' = map (fun p => step gw p o) h.
Proof.
  destruct 1.
  - rewrite <- (map_id h) at 1. apply map_ext_in. intros p I. unfold step. rewrite (existsb_none _ _ H p I). reflexivity.
  - reflexivity.
  - reflexivity.
  - rewrite <- (map_id h) at 1. apply map_ext. intros p. unfold step, effect_of. destruct (at_whom _ _ _); reflexivity.
  - rewrite <- (map_id h) at 1. apply map_ext. intros p. unfold step, effect_of. destruct (at_whom _ _ _); reflexivity.
Qed.

Lemma does_step gw h c h1 obs r evs : does gw h c h1 obs r evs -> exists o, stands_for c o /\ h1 = map (fun p => step gw p o) h.
Proof.
  destruct 1; exists o; (split; [assumption|]); [|eapply obeys_step; eassumption|eapply obeys_step; eassumption].
  eapply (obeys_step gw h o h), Ob_nobody, H0.
Qed.

Theorem story_lives gw h cs log evs h' : story gw h cs log evs h' ->
  exists os, Forall2 stands_for cs os /\ h' = map (life gw os) h.
Proof.
  induction 1 as [h|h c cs h1 obs r evs log evs' h' D S (os & F & ->)].
  - exists []. split; [constructor|]. symmetry. apply map_id.
  - destruct (does_step _ _ _ _ _ _ _ D) as (o & Ho & ->). exists (o :: os). split; [constructor; assumption|].
    rewrite map_map. reflexivity.
Qed.

Lemma stands_fun c o o' : stands_for c o -> stands_for c o' -> o = o'.
Proof.
  intros A B. inversion A; subst; inversion B; subst; try reflexivity.
  apply doc_code in H, H3. subst. reflexivity.
Qed.

Lemma at_step gw o o' p : at_whom gw o (step gw p o') = at_whom gw o p.
Proof. unfold step. destruct (at_whom gw o' p); [|reflexivity]. destruct o', o; reflexivity. Qed.
Lemma at_life gw o os : forall p, at_whom gw o (life gw os p) = at_whom gw o p.
Proof. induction os as [|o' os IH]; intros p; [reflexivity|]. cbn. fold (life gw os (step gw p o')). rewrite IH. apply at_step. Qed.
Lemma where_step gw o p : p_where (step gw p o) = p_where p.
Proof. unfold step. destruct (at_whom gw o p), o; reflexivity. Qed.
Lemma where_life gw os : forall p, p_where (life gw os p) = p_where p.
Proof. induction os as [|o os IH]; intros p; [reflexivity|]. cbn. fold (life gw os (step gw p o)). rewrite IH. apply where_step. Qed.
Lemma idle_life gw os : forall p, Forall (fun o => at_whom gw o p = true -> sets o = false) os -> life gw os p = p.
Proof.
  induction os as [|o os IH]; intros p F; [reflexivity|]. inversion F; subst. cbn. fold (life gw os (step gw p o)).
  assert (E : step gw p o = p).
  { unfold step. destruct (at_whom gw o p); [|reflexivity]. specialize (H1 eq_refl). destruct o; cbn in *; congruence. }
  rewrite E. apply IH. assumption.
Qed.
Lemma life_app gw os os' p : life gw (os ++ os') p = life gw os' (life gw os p).
Proof. apply fold_left_app. Qed.

Lemma story_app gw cs1 : forall cs2 h log evs h', story gw h (cs1 ++ cs2) log evs h' ->
  exists h1 log1 log2 evs1 evs2, story gw h cs1 log1 evs1 h1 /\ story gw h1 cs2 log2 evs2 h' /\ log = log1 ++ log2 /\ evs = evs1 ++ evs2.
Proof.
  induction cs1 as [|c cs1 IH]; intros cs2 h log evs h' H; cbn [app] in H.
  - exists h, [], log, [], evs. split; [constructor|]. auto.
  - inversion H; subst.
    match goal with X : story _ _ (cs1 ++ cs2) _ _ _ |- _ => destruct (IH _ _ _ _ _ X) as (h2 & l1 & l2 & e1 & e2 & A & B & -> & ->) end.
    exists h2, ((obs, r) :: l1), l2, (evs0 ++ e1), e2. split; [econstructor; eassumption|]. split; [assumption|].
    split; [reflexivity|apply app_assoc].
Qed.

Lemma valnum_fun v n n' : valnum v n -> valnum v n' -> n = n'.
Proof.
  intros (d & V & N) (d' & V' & N').
  assert (d = d') as <-.
  { destruct N as (D & _), N' as (D' & _). 
    destruct V as [->| ->], V' as [E|E]; try congruence; subst; exfalso; [apply Forall_inv in D|apply Forall_inv in D']; unfold digitchar in *; lia. }
  destruct N as (_ & _ & V1 & _), N' as (_ & _ & V2 & _). congruence.
Qed.
Lemma tagnum_fun v n n' : tagnum v n -> tagnum v n' -> n = n'.
Proof. intros A B. apply tagnum_int in A, B. rewrite A in B. injection B. apply N2Z.inj. Qed.
Lemma valnums_fun vs : forall vs' more more' ns ns', vs ++ more = vs' ++ more' -> Forall2 valnum vs ns -> Forall2 valnum vs' ns' ->
  length ns = length ns' -> ns = ns'.
Proof.
  induction vs as [|v vs IH]; intros vs' more more' ns ns' E A B L; inversion A; subst; inversion B; subst; cbn in L; try discriminate; [reflexivity|].
  injection E as -> E. f_equal; [eapply valnum_fun; eassumption|]. eapply IH; eauto.
Qed.

(** ** Reading back what was set *)

Lemma tells_kinds gw c ask v o oa : tells gw c ask v -> stands_for c o -> stands_for ask oa -> asks c = false /\ asks ask = true /\ sets o = true.
Proof. destruct 1; intros A B; inversion A; subst; inversion B; subst; auto. Qed.

Lemma tells_shows gw c ask v o q : tells gw c ask v -> stands_for c o -> at_whom gw o q = true ->
  shows (effect_of gw o q) ask [(p_where q, v)] /\ forall ys, shows (effect_of gw o q) ask ys -> ys = [(p_where q, v)].
Proof.
  intros T Ho A.
  assert (Nums : forall r vs ns it, effect_of gw o q = written (req_dim r) vs q -> Forall2 valnum vs ns -> length ns = req_count r ->
    shows (effect_of gw o q) (CAskNumbers it r) [(p_where q, SNumbers (map Z.of_N ns))] /\
    forall ys, shows (effect_of gw o q) (CAskNumbers it r) ys -> ys = [(p_where q, SNumbers (map Z.of_N ns))]).
  { intros r vs ns it E F L. rewrite E.
    assert (D : p_dims (written (req_dim r) vs q) (req_dim r) = Some vs) by (cbn [written p_dims]; rewrite str_eqb_refl; reflexivity).
    split; [apply (Sh_numbers (written (req_dim r) vs q) it r vs [] ns); [rewrite app_nil_r; exact D|assumption|assumption]|].
    intros ys S. inversion S as [| | | | |it0 r0 vs0 more ns0 D0 F0 L0|it0 r0 D0]; subst; [|congruence]. rewrite D in D0. injection D0 as D0.
    rewrite (valnums_fun vs vs0 [] more ns ns0); [reflexivity|rewrite app_nil_r; exact D0|assumption|assumption|congruence]. }
  assert (Who : forall w what a, o = Command w what a -> p_state (effect_of gw o q) = react gw w what (p_state q)).
  { intros w what a ->. cbn in A |- *. unfold aimed in A. apply andb_true_iff in A as (A & _). apply who_eqb_true in A. rewrite A. reflexivity. }
  assert (W : p_where (effect_of gw o q) = p_where q) by (destruct o; reflexivity).
  remember (effect_of gw o q) as q' eqn:Eq in *. rewrite <- W in *.
  destruct T; inversion Ho; subst o.
  - apply doc_code in H3. cbn in H3. subst n. specialize (Who _ _ _ eq_refl). rewrite H in Who.
    split; [apply Sh_on, Who|]. intros ys S. inversion S; subst; try reflexivity; congruence.
  - apply doc_code in H3. cbn in H3. subst n. specialize (Who _ _ _ eq_refl). rewrite H in Who.
    split; [apply Sh_off, Who|]. intros ys S. inversion S; subst; try reflexivity; congruence.
  - specialize (Who _ _ _ eq_refl). rewrite H in *. 
    assert (n0 = n) as -> by (apply doc_code in H5, H0; congruence).
    rewrite H1 in Who. assert (E : Z.of_N percent = (10 * Z.of_N n)%Z).
    { clear - H0. destruct n as [|p]; [discriminate|]. do 5 (destruct p as [p|p|]; try discriminate H0; try (injection H0 as <-; reflexivity)). }
    assert (Tn : tagnum (p_state q') n).
    { rewrite Who. exists (dec n), []. split; [symmetry; apply app_nil_r|]. split; [constructor|].
      split; [apply digits_all, dec_digits|]. split; [apply dec_not_nil|]. split; [rewrite value_of_dval; apply dval_dec|]. apply (small_len n).
      clear - H0. destruct n as [|p]; [lia|]. do 5 (destruct p as [p|p|]; try discriminate H0; try lia). }
    rewrite E. split; [apply (Sh_level q' it' n Tn)|].
    intros ys S. inversion S as [| | |it9 n9 Tn'| | |]; subst. rewrite (tagnum_fun _ _ _ Tn' Tn). reflexivity.
  - specialize (Who _ _ _ eq_refl). rewrite H in Who. rewrite <- Who.
    split; [apply (Sh_auto q' it' c Who)|]. intros ys S. inversion S; subst. reflexivity.
  - pose proof (Nums RTemporization _ [Z.to_N h; Z.to_N m; Z.to_N s] it' Eq) as X. cbn [map] in X.
    rewrite !Z2N.id in X by lia. apply X; [|reflexivity]. repeat (constructor; [apply dec_valnum; lia|]). constructor.
  - pose proof (Nums RBrightness _ [l; s] it' Eq) as X. cbn [map] in X. apply X; [|reflexivity].
    repeat (constructor; [apply dec_valnum; lia|]). constructor.
  - pose proof (Nums RHsv _ [Z.to_N h; Z.to_N s; Z.to_N v] it' Eq) as X. cbn [map] in X.
    rewrite !Z2N.id in X by lia. apply X; [|reflexivity]. repeat (constructor; [apply dec_valnum; lia|]). constructor.
Qed.

Lemma shown_where p c ys : shows p c ys -> forall y, In y ys -> fst y = p_where p.
Proof. destruct 1; intros y I; cbn in I; try contradiction; destruct I as [<-|[]]; reflexivity. Qed.

Lemma last_ask gw h ask oa log evs h' : stands_for ask oa -> asks ask = true -> story gw h [ask] log evs h' ->
  existsb (at_whom gw oa) h = true ->
  exists yss, Forall2 (fun p ys => shows p ask ys) (filter (at_whom gw oa) h) yss /\ log = [(concat yss, Ok tt)].
Proof.
  intros Ho Ha S X. inversion S as [|h0 c cs h1 obs r evs1 log1 evs2 h2 D S1]; subst.
  inversion S1; subst. inversion D as [o H H0|o hx ans ex H H0 H1 H2|o hx ans ex yss H H0 H1 H2 H3]; subst.
  - rewrite (stands_fun _ _ _ Ho H) in X. congruence.
  - congruence.
  - rewrite (stands_fun _ _ _ Ho H). eauto.
Qed.

Lemma Forall2_in {A B} (R : A -> B -> Prop) l l' x : Forall2 R l l' -> In x l -> exists y, In y l' /\ R x y.
Proof.
  induction 1 as [|a b l l' H F IH]; [intros []|]. intros [->|I]; [exists b; split; [left; reflexivity|assumption]|].
  destruct (IH I) as (y & Iy & Ry). exists y. split; [right; assumption|assumption].
Qed.
Lemma Forall2_in' {A B} (R : A -> B -> Prop) l l' y : Forall2 R l l' -> In y l' -> exists x, In x l /\ R x y.
Proof.
  induction 1 as [|a b l l' H F IH]; [intros []|]. intros [->|I]; [exists a; split; [left; reflexivity|assumption]|].
  destruct (IH I) as (x & Ix & Rx). exists x. split; [right; assumption|assumption].
Qed.

(** What [c] set is what [ask] reports, whatever was done to other points. *)
Theorem read_back gw h before c between ask log evs h' p o oa v :
  story gw h (before ++ c :: between ++ [ask]) log evs h' -> In p h ->
  stands_for c o -> stands_for ask oa -> at_whom gw o p = true -> at_whom gw oa p = true ->
  Forall (fun c' => forall o', stands_for c' o' -> at_whom gw o' p = true -> sets o' = false) between ->
  tells gw c ask v ->
  exists obs, last log ([], Ok tt) = (obs, Ok tt) /\ In (p_where p, v) obs /\
    (NoDup (map p_where h) -> forall v', In (p_where p, v') obs -> v' = v).
Proof.
  intros S Ip Ho Hoa Ap Aa Fb T.
  change (before ++ c :: between ++ [ask]) with (before ++ ([c] ++ (between ++ [ask]))) in S.
  rewrite !app_assoc in S. destruct (story_app gw _ _ _ _ _ _ S) as (h1 & l1 & l2 & e1 & e2 & S1 & S2 & -> & ->).
  destruct (story_lives _ _ _ _ _ _ S1) as (os & F & ->).
  apply Forall2_app_inv_l in F as (os1 & os2 & F1 & F2 & ->).
  apply Forall2_app_inv_l in F1 as (os0 & oc & F0 & Fc & ->). inversion Fc as [|x y l l' Hy Fn]; subst. inversion Fn; subst.
  rewrite (stands_fun _ _ _ Hy Ho) in *. clear Fc Fn Hy y.
  set (lf := life gw ((os0 ++ [o]) ++ os2)) in *.
  assert (E : lf p = effect_of gw o (life gw os0 p)).
  { unfold lf. rewrite !life_app. cbn [life fold_left]. 
    assert (E1 : step gw (life gw os0 p) o = effect_of gw o (life gw os0 p)) by (unfold step; rewrite at_life, Ap; reflexivity).
    rewrite E1. apply idle_life. apply Forall_forall. intros o2 I2 A2.
    destruct (Forall2_in' _ _ _ _ F2 I2) as (c2 & Ic2 & Hc2). rewrite Forall_forall in Fb. apply (Fb c2 Ic2 o2 Hc2).
    rewrite <- E1, at_step, at_life in A2. exact A2. }
  destruct (tells_shows gw c ask v o (life gw os0 p) T Ho ltac:(rewrite at_life; exact Ap)) as (Sh & Un). rewrite <- E in Sh, Un.
  assert (Wp : p_where (life gw os0 p) = p_where p) by apply where_life. rewrite Wp in Sh, Un.
  destruct (tells_kinds gw c ask v o oa T Ho Hoa) as (_ & Aask & _).
  assert (X : existsb (at_whom gw oa) (map lf h) = true).
  { apply existsb_exists. exists (lf p). split; [apply in_map, Ip|]. unfold lf. rewrite at_life. exact Aa. }
  destruct (last_ask gw _ ask oa _ _ _ Hoa Aask S2 X) as (yss & F & ->).
  exists (concat yss). rewrite last_last. split; [reflexivity|].
  assert (Il : In (lf p) (filter (at_whom gw oa) (map lf h))).
  { apply filter_In. split; [apply in_map, Ip|]. unfold lf. rewrite at_life. exact Aa. }
  split.
  - destruct (Forall2_in _ _ _ _ F Il) as (ys & Iy & Ry). apply Un in Ry. subst ys.
    apply in_concat. exists [(p_where p, v)]. split; [assumption|left; reflexivity].
  - intros Nd v' I. apply in_concat in I as (ys & Iy & Iv). destruct (Forall2_in' _ _ _ _ F Iy) as (q & Iq & Rq).
    pose proof (shown_where _ _ _ Rq _ Iv) as Wq. cbn in Wq.
    apply filter_In in Iq as (Iq & _). apply in_map_iff in Iq as (q0 & <- & Iq0). unfold lf in Wq. rewrite where_life in Wq.
    assert (q0 = p) as ->.
    { clear - Nd Ip Iq0 Wq. induction h as [|a h IH]; [destruct Ip|]. cbn in Nd. inversion Nd; subst.
      destruct Ip as [->|Ip], Iq0 as [->|Iq0]; [reflexivity| | |apply IH; assumption]; exfalso; apply H1.
      - rewrite Wq. apply in_map, Iq0.
      - rewrite <- Wq. apply in_map, Ip. }
    apply Un in Rq. subst ys. destruct Iv as [Iv|[]]. congruence.
Qed.
