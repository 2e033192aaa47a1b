(** * C117: a connection that breaks in the middle of a session *)
From Coq Require Import String List NArith ZArith Bool Lia.
From Verif Require Import PyStr Tags Messages MessageFacts SpecMsg SpecTag MessageThms MessageThms2 TagThms Protocol SpecProto IO Client SpecItem Items
  Lighting SpecLight HandshakeThms ItemThms LightThms2 SpecHouse HouseThms HouseThms2 PropHouse SpecCrash CrashThms CrashThms2.
Import ListNotations.
Open Scope N_scope.
Open Scope list_scope.

(** Wherever the connection breaks: the calls before have happened, one call may
    be half done, the others time out and have not happened. *)
Theorem C117_story : forall gw h cs s log a h' out,
  gateway_ok gw -> house_ok h -> Forall call_ok cs -> session_cut gw true h [] cs s log a h' out ->
  cut_story gw h cs log a h' /\ out = [] /\ house_ok h'.
Proof.
  intros gw h cs s log a h' out G H F S. destruct (session_cut_story _ _ _ _ _ _ _ _ _ _ S G H F eq_refl eq_refl) as (C & ->).
  split; [exact C|]. split; [reflexivity|]. eapply cut_house; eassumption.
Qed.
Print Assumptions C117_story.

(** Nothing of this can be left out: every such course of things can happen. *)
Theorem C117_possible : forall gw, gateway_ok gw -> forall cs h log a h', house_ok h -> Forall call_ok cs -> cut_story gw h cs log a h' ->
  exists s, session_cut gw true h [] cs s log a h' [].
Proof. exact cut_possible. Qed.
Print Assumptions C117_possible.

(** What the client knows: the calls with a verdict come first, they are done;
    after them every call timed out, only the first of these may have been done,
    and only it may have reported something. *)
Theorem C117_known : forall gw h cs s log a h' out,
  gateway_ok gw -> house_ok h -> Forall call_ok cs -> session_cut gw true h [] cs s log a h' out ->
  exists os, Forall2 stands_for cs os /\ length log = length cs /\
    Forall (fun x => snd x = Ok tt \/ snd x = Err ResponseError) (firstn (verdicts log) log) /\
    Forall (fun x => snd x = Err TimeoutError) (skipn (verdicts log) log) /\
    Forall (fun x => fst x = []) (skipn (1 + verdicts log) log) /\
    (h' = map (life gw (firstn (verdicts log) os)) h \/ h' = map (life gw (firstn (1 + verdicts log) os)) h) /\
    (a = true -> verdicts log = length cs).
Proof.
  intros gw h cs s log a h' out G H F S. destruct (C117_story _ _ _ _ _ _ _ _ G H F S) as (C & _).
  destruct (cut_known gw h cs log a h' F C) as (n & os & -> & X). exists os. exact X.
Qed.
Print Assumptions C117_known.

(** Connecting again and making the calls that timed out once more leads to the
    house of an undisturbed session, if the first of them may be made twice. *)
Theorem C117_retry : forall gw h cs s log a h' out s2 log2 evs2 h2 out2 log0 evs0 h0,
  gateway_ok gw -> house_ok h -> Forall call_ok cs -> session_cut gw true h [] cs s log a h' out ->
  (forall c o, nth_error cs (verdicts log) = Some c -> stands_for c o -> repeatable gw o) ->
  session_with gw h' [] (skipn (verdicts log) cs) s2 log2 evs2 h2 out2 ->
  story gw h cs log0 evs0 h0 -> same_house h2 h0.
Proof.
  intros gw h cs s log a h' out s2 log2 evs2 h2 out2 log0 evs0 h0 G H F S. destruct (C117_story _ _ _ _ _ _ _ _ G H F S) as (C & _).
  eapply tried_again; eassumption.
Qed.
Print Assumptions C117_retry.

(** ** Without this condition it does not *)

(** A gateway that dims by one step. *)
Definition step_down (st : str) : str := if str_eqb st (lit "5") then lit "4" else if str_eqb st (lit "4") then lit "3" else lit "2".
Definition gw_steps : gateway :=
  {| covers := str_eqb; react := fun w what st => if str_eqb what (lit "31") then step_down st else what; echoes := true |}.
Lemma gw_steps_ok : gateway_ok gw_steps.
Proof.
  split.
  - intros n st k D W K. cbn [react gw_steps]. destruct (str_eqb (dec n) (lit "31")) eqn:E.
    + assert (X : exists m, m <= 9 /\ step_down st = dec m).
      { unfold step_down. destruct (str_eqb st (lit "5")); [exists 4; split; [lia|reflexivity]|].
        destruct (str_eqb st (lit "4")); [exists 3; split; [lia|reflexivity]|exists 2; split; [lia|reflexivity]]. }
      destruct X as (m & Lm & ->). split; [apply dec_wire|]. exists m, (dec m), []. split; [symmetry; apply app_nil_r|]. split; [constructor|].
      destruct (dec_valnum m ltac:(lia)) as (d & [<-|E'] & N); [exact N|]. exfalso. pose proof (dec_digits m) as A. rewrite E' in A. discriminate A.
    + exact (proj1 gw0_ok n st k D W K).
  - intros c c'. cbn [react gw_steps]. exists c. destruct c; reflexivity.
Qed.

Definition down_call : call := CLight (h_item LIGHTING "12") LDown.
Lemma down_ok : call_ok down_call /\ stands_for down_call (Command LIGHTING (lit "31") (lit "12")).
Proof.
  assert (X : stands_for down_call (Command LIGHTING (lit "31") (lit "12"))) by exact (F_light (h_item LIGHTING "12") LDown 31 eq_refl).
  split; [|exact X]. split; [split; [discriminate|reflexivity]|]. split; [tag_ok|]. split; [reflexivity|eauto].
Qed.

(** The lamp is dimmed once by the call that timed out and once more by the next
    attempt. *)
Theorem C117_retry_refuted : exists gw h cs log h' s2 log2 evs2 h2 log0 evs0 h0,
  gateway_ok gw /\ house_ok h /\ Forall call_ok cs /\ session_cut gw true h [] cs [] log false h' [] /\
  session_with gw h' [] (skipn (verdicts log) cs) s2 log2 evs2 h2 [] /\ story gw h cs log0 evs0 h0 /\
  log = [([], Err TimeoutError)] /\ log2 = [([], Ok tt)] /\ map p_state h0 = [lit "0"; lit "4"; lit "0"] /\ map p_state h2 = [lit "0"; lit "3"; lit "0"].
Proof.
  destruct down_ok as (K & Ho).
  exists gw_steps, house0, [down_call]. do 2 eexists. exists [Some MAck]. do 6 eexists.
  split; [apply gw_steps_ok|]. split; [apply house0_ok|]. split; [constructor; [exact K|constructor]|]. split.
  { eapply Sc_call; [vm_compute; reflexivity| |reflexivity|apply Sc_nil, St_same].
    eapply Ct_sent; [exists (Command LIGHTING (lit "31") (lit "12")); split; [order_tac|split; [reflexivity|obey_tac]]|].
    apply Ct_nil. eapply (St_cut true _ [] _); reflexivity. }
  split.
  { cbn [verdicts filter snd yields length skipn]. eapply Ss_call; [vm_compute; reflexivity| |discriminate|apply Ss_nil].
    serve (Command LIGHTING (lit "31") (lit "12")). hear. apply Sv_nil. }
  split.
  { eapply Story_cons; [|apply Story_nil]. eapply Do_command; [exact Ho|reflexivity|reflexivity|obey_tac]. }
  repeat split.
Qed.
Print Assumptions C117_retry_refuted.

(** ** A break inside a frame *)

(** The same does not hold for a connection that breaks inside a frame: what there
    is of it is read as if it were whole, and a lamp is reported that does not
    exist. *)
Theorem C117_frame_refuted : exists gw h c o ans evs got lost ms es, gateway_ok gw /\ house_ok h /\ call_ok c /\ stands_for c o /\
  obeys gw h o h ans evs /\ concat ans = got ++ lost /\ data_received [] got = (ms, None) /\
  program c (map Some ms) = (es, [], Err TimeoutError) /\ yields es = [(lit "1", SLamp false)] /\
  ~ exists p, In p h /\ p_where p = lit "1".
Proof.
  exists gw0, house0, (CAskLight (h_item LIGHTING "0")), (Status LIGHTING (lit "0")). do 2 eexists.
  exists (lit "*1*0*1"), (lit "1##*1*5*12##*#*1##"). do 2 eexists.
  split; [apply gw0_ok|]. split; [apply house0_ok|]. split.
  { split; [split; [discriminate|reflexivity]|]. split; [tag_ok|]. split; [reflexivity|]. eexists. apply F_ask_light. }
  split; [apply F_ask_light|]. split; [apply Ob_status; reflexivity|]. split; [reflexivity|]. split; [vm_compute; reflexivity|].
  split; [vm_compute; reflexivity|]. split; [reflexivity|].
  intros (p & [<-|[<-|[<-|[]]]] & E); discriminate E.
Qed.
Print Assumptions C117_frame_refuted.

(** ** A concrete case: the second request is cut after its first report *)

Example C117_ex : exists h', session_cut gw0 true house0 [] (firstn 3 calls0)
    (map Some [MAck; MNormal LIGHTING (lit "1") (lit "11")])
    [([], Ok tt); ([(lit "11", SLamp true)], Err TimeoutError); ([], Err TimeoutError)] false h' [] /\
  map p_state h' = [lit "1"; lit "1"; lit "0"].
Proof.
  eexists. split.
  - unfold calls0, firstn.
    eapply (Sc_call gw0 true house0 [] _ _ _ [Sent _; Got MAck] _ _ true); [vm_compute; reflexivity| |discriminate|].
    { eapply Ct_sent; [exists (Command LIGHTING (lit "1") (lit "0")); split; [order_tac|split; [reflexivity|obey_tac]]|].
      eapply Ct_got; [apply St_same|reflexivity|]. apply Ct_nil, St_same. }
    eapply (Sc_call gw0 true _ [] _ _ _ [Sent _; Got _; Yielded (lit "11", SLamp true)] _ _ false); [vm_compute; reflexivity| |reflexivity|].
    { eapply Ct_sent; [exists (Status LIGHTING (lit "0")); split; [order_tac|split; [reflexivity|obey_tac]]|].
      eapply Ct_got; [apply St_same|reflexivity|]. apply Ct_yield. apply Ct_nil. eapply (St_cut true _ [] _); reflexivity. }
    eapply (Sc_call gw0 false _ [] _ _ _ [Sent _] _ _ false); [vm_compute; reflexivity| |reflexivity|apply Sc_nil, St_same].
    eapply Ct_vain; [apply St_same|]. apply Ct_nil, St_same.
  - reflexivity.
Qed.

Example C117_ex_repeatable : repeatable gw0 (Command LIGHTING (lit "1") (lit "0")) /\ ~ repeatable gw_steps (Command LIGHTING (lit "31") (lit "12")).
Proof. split; [intros st; reflexivity|]. intros H. discriminate (H (lit "5")). Qed.
