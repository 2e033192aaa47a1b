(** * The event examples *)
From Coq Require Import String List NArith ZArith Bool Lia.
From Verif Require Import PyStr PyDate PyFloat Tags Messages MessageFacts SpecMsg SpecTag MessageThms MessageThms2 MessageThms3 TagThms Protocol SpecProto ProtoThms AuthHmac IO Client SpecItem Items
  Lighting SpecLight HandshakeThms ItemThms LightThms LightThms2 FrameThms Gateway SpecGateway GatewayThms Energy SpecEnergy EnergyThms FloatThms SpecClock ClockThms Dispatch SpecDispatch DispatchThms DispatchThms2 DispatchThms3
  SpecHouse HouseThms HouseThms2 SpecNotice NoticeThms.
From Verif Require Log.
From Verif Require Import Watchers SpecWatchers.
Import ListNotations.
Open Scope N_scope.
Open Scope list_scope.

(** ** One event *)

Lemma own_key x : own_registry x (watched x) = [own_callback].
Proof. unfold own_registry, register, no_callbacks. destruct (evkey_eq _ _) as [_|N]; [reflexivity|destruct N; reflexivity]. Qed.
Lemma own_other x k : k <> watched x -> own_registry x k = [].
Proof. intros H. unfold own_registry, register, no_callbacks. destruct (evkey_eq _ _) as [E|_]; [congruence|reflexivity]. Qed.

(** A report under the key that is watched is an event to speak of. *)
Lemma report_speaks x m args its i w whr : built m -> reports m (watched x) args -> msg_who m = Some w -> msg_where m = Some whr -> nth_error its i = Some (w, whr) ->
  exists a l, args = [a] /\ callback_body x its [VItem i; a] = [l] /\ speaks x m l.
Proof.
  intros B R W Wh Hi.
  inversion R as [what a b Hb Hm Hk Ha|e dim n ps vs more ns a Hl _ _ _ Hm Hk Ha|what a Hin Hm Hk Ha|wg a vs args' Hg Hm Hk Ha|wg a vs args' Hg Hm Hk Ha|d a vs args' He Hm Hk Ha];
    subst m; subst; destruct x; try discriminate Hk; cbn [msg_who msg_where] in W, Wh; injection W as <-; injection Wh as <-; assert (Ew := eq_refl (where_of its i)); unfold where_of in Ew at 2; rewrite Hi in Ew; cbn [snd] in Ew.
  - destruct b; eexists; eexists; (split; [reflexivity|]); cbn [callback_body]; rewrite Ew; (split; [reflexivity|]).
    + assert (what = lit "1") as -> by (apply Hb; reflexivity). apply Sp_on.
    + apply Sp_off. intros E. apply Hb in E. discriminate E.
  - injection Hk as ->. inversion Hl.
  - destruct Hin as [<-|[<-|[<-|[]]]]; eexists; eexists; (split; [reflexivity|]); cbn [callback_body]; rewrite Ew; (split; [reflexivity|]); [apply Sp_stopped|apply Sp_up|apply Sp_down].
  - injection Hk as ->. inversion Hg as [? t Ht| | | | | | | |? ? ? X]; subst; [|destruct X as [X|[X|[X|[]]]]; discriminate X].
    destruct B as (F & _). cbn [free_tags] in F. inversion F as [|? ? _ F']; subst. inversion F' as [|? ? _ F2]; subst.
    apply (proj1 (time_complete vs F2)) in Ht as (h & mi & s & z & Hn & Hc & ->).
    eexists; eexists; (split; [reflexivity|]); cbn [callback_body]; (split; [reflexivity|]). eapply Sp_time; eauto.
  - injection Hk as ->. inversion Hg as [? t Ht| | | | | | | |? ? ? X]; subst; [|destruct X as [X|[X|[X|[]]]]; discriminate X].
    destruct B as (F & _). cbn [free_tags] in F. inversion F as [|? ? _ F']; subst. inversion F' as [|? ? _ F2]; subst.
    apply (proj1 (time_complete vs F2)) in Ht as (h & mi & s & z & Hn & Hc & ->).
    eexists; eexists; (split; [reflexivity|]); cbn [callback_body]; (split; [reflexivity|]). eapply Sp_time; eauto.
  - injection Hk as ->. inversion He as [? v more f Hin Hd Hne Hr| | |]; subst.
    eexists; eexists; (split; [reflexivity|]); cbn [callback_body]; (split; [reflexivity|]). apply Sp_power; assumption.
Qed.

Lemma speaks_report x m l : built m -> speaks x m l -> exists args, reports m (watched x) args.
Proof.
  intros B S. destruct S as [a|what a N|a|a|a|a v more f D Ne Rf|m a vs h mi s z Hm Hn Hc]; cbn [watched].
  - exists [VBool true]. apply Rep_status. split; reflexivity.
  - exists [VBool false]. apply Rep_status. split; [discriminate|contradiction].
  - eexists. apply Rep_auto. cbn. auto.
  - eexists. apply Rep_auto. cbn. auto.
  - eexists. apply Rep_auto. cbn. auto.
  - eexists. apply (Rep_energy ACTIVE_POWER). apply EV_float with (f := f); [cbn; auto|assumption..].
  - assert (F : Forall tagtext vs).
    { destruct B as (F & _). destruct Hm as [-> | ->]; cbn [free_tags] in F; inversion F as [|? ? _ F']; subst; inversion F'; assumption. }
    assert (T : exists t, time_of vs = Ok t) by (eexists; apply (proj1 (time_complete vs F)); exists h, mi, s, z; auto).
    destruct T as (t & T). exists [VTime t]. destruct Hm as [-> | ->]; [apply (Rep_gateway TIME)|apply (Rep_gateway_set TIME)]; apply GV_time, T.
Qed.

Lemma made_tells x its m ts : built m -> made its (own_registry x) m ts -> tells x m (concat (map (fun t => callback_body x its (snd t)) ts)).
Proof.
  intros B M. destruct M as [k args w whr i ts R W Wh Hi C|N].
  - destruct (evkey_eq k (watched x)) as [->|Nk].
    + destruct (report_speaks x m args its i w whr B R W Wh Hi) as (a & l & -> & El & S). rewrite own_key in C.
      inversion C as [|f fs ts' T C'|f fs T]; subst; [|discriminate T]. inversion C'; subst. cbn [map snd concat]. rewrite El. left. exists l. auto.
    + rewrite (own_other x k Nk) in C. inversion C; subst. right. split; [|reflexivity]. intros l S.
      destruct (speaks_report x m l B S) as (args' & R'). destruct (reports_unique _ _ _ _ _ B R R') as (E & _). contradiction.
  - right. split; [|reflexivity]. intros l S. destruct (speaks_report x m l B S) as (args & R). exact (N _ _ R).
Qed.

Lemma speaks_unique x m l l' : built m -> speaks x m l -> speaks x m l' -> l = l'.
Proof.
  intros B S S'. destruct (speaks_report _ _ _ B S) as (args & R).
  destruct S as [a|what a N|a|a|a|a v more f D Ne Rf|m a vs h mi s z Hm Hn Hc]; inversion S' as [? E|? ? N' E|? E|? E|? E|? ? ? f' D' Ne' Rf' E|m' a' vs' h' mi' s' z' Hm' Hn' Hc' E]; subst; try reflexivity; try contradiction.
  - f_equal. f_equal. f_equal. eapply reads_unique; eassumption.
  - assert (vs' = vs) as -> by (destruct Hm as [-> | ->], Hm' as [Q|Q]; first [discriminate Q|injection Q as Q1 Q2; auto]).
    assert (F : Forall tagtext vs).
    { destruct B as (F & _). destruct Hm as [-> | ->]; cbn [free_tags] in F; inversion F as [|? ? _ F']; subst; inversion F'; assumption. }
    assert (T : forall h mi s z, time_numbers vs h mi s z -> clock_time h mi s -> time_of vs = Ok {| t_hour := Z.of_N h; t_minute := Z.of_N mi; t_second := Z.of_N s; t_offset := 3600 * z |}).
    { intros h0 mi0 s0 z0 H1 H2. apply (proj1 (time_complete vs F)). exists h0, mi0, s0, z0. auto. }
    pose proof (T _ _ _ _ Hn Hc) as E1. rewrite (T _ _ _ _ Hn' Hc') in E1. 
    match type of E1 with Ok ?a = Ok ?b => assert (X : a = b) by congruence; rewrite X; reflexivity end.
Qed.

(** ** Histories *)

(** The loop has got to [pre]; then either the rest is in the queue or an event
    has ended the loop. *)
Definition at_work (x : watcher) (st : state) (all : list msg) : Prop :=
  exists pre tss, Forall (fun m => ~ stray m) pre /\ Forall built pre /\ st_started st = concat tss /\
    Forall2 (made (st_items st) (own_registry x)) pre tss /\
    ((st = {| st_session := Event; st_trans := Some false; st_queue := st_queue st; st_items := st_items st; st_reg := own_registry x; st_started := concat tss; st_loop := Waiting |} /\
      sound (st_items st) /\ Forall built (st_queue st) /\ all = pre ++ st_queue st) \/
     (exists m post e, all = pre ++ m :: post /\ stray m /\ (e = IndexError \/ e = InvalidTag) /\ st_loop st = Failed e)).

Lemma stray_dec_list q : Forall built q -> Forall (fun m => ~ stray m) q \/ exists pre m post, q = pre ++ m :: post /\ Forall (fun m => ~ stray m) pre /\ stray m.
Proof.
  induction q as [|m q IH]; intros B; [left; constructor|]. inversion B as [|? ? Bm Bq]; subst.
  assert (D : stray m \/ ~ stray m).
  { destruct (handle 0 (fun _ => []) [] m) as [[i1 t1] o] eqn:E.
    destruct (handle_spec 0 _ [] m i1 t1 o ltac:(lia) Bm ltac:(split; constructor) E) as (_ & _ & [(_ & N & _)|(St & _)]); auto. }
  destruct D as [D|D]; [right; exists [], m, q; auto|].
  destruct (IH Bq) as [F|(pre & m' & post & -> & F & St)]; [left; auto|right]. exists (m :: pre), m', post. auto.
Qed.

Lemma made_mono x its l pre tss : Forall2 (made its (own_registry x)) pre tss -> Forall2 (made (its ++ l) (own_registry x)) pre tss.
Proof. induction 1; constructor; [apply made_more; assumption|assumption]. Qed.

Lemma drain_work x v pre tss q its st : v < 13 -> Forall (fun m => ~ stray m) pre -> Forall built pre -> Forall2 (made its (own_registry x)) pre tss -> sound its -> Forall built q ->
  st_session st = Event -> st_trans st = Some false -> st_queue st = q -> st_items st = its -> st_reg st = own_registry x -> st_started st = concat tss ->
  at_work x (drained v st) (pre ++ q).
Proof.
  intros Hv Np Bp F S Bq E1 E2 E3 E4 E5 E6. unfold drained. rewrite E1, E2, E3, E4, E5, E6.
  destruct (stray_dec_list q Bq) as [Nq|(p1 & m & post & -> & Np1 & St)].
  - destruct (drain_all v (own_registry x) q Hv its (concat tss) Bq S Nq) as (l & tss' & -> & S' & F').
    exists (pre ++ q), (tss ++ tss'). cbn [st_started st_items st_queue]. split; [apply Forall_app; auto|]. split; [apply Forall_app; auto|]. split; [rewrite concat_app; reflexivity|].
    split; [apply Forall2_app; [apply made_mono, F|exact F']|]. left. rewrite concat_app, app_nil_r. auto.
  - destruct (drain_stray v (own_registry x) p1 m post Hv its (concat tss) Bq S Np1 St) as (l & tss' & e & -> & He & F').
    apply Forall_app in Bq as (B1 & _).
    exists (pre ++ p1), (tss ++ tss'). cbn [st_started st_items st_queue st_loop]. split; [apply Forall_app; auto|]. split; [apply Forall_app; auto|]. split; [rewrite concat_app; reflexivity|].
    split; [apply Forall2_app; [apply made_mono, F|exact F']|]. right. exists m, post, e. rewrite <- app_assoc. auto.
Qed.

Lemma arrives_work x v q acts ms : v < 13 -> Forall built q -> arrives acts ms -> at_work x (run v (enter v (listening x q)) acts) (q ++ ms).
Proof.
  intros Hv B A. induction A as [|acts ms data ms' A IH P|acts ms A IH].
  - rewrite app_nil_r. exact (drain_work x v [] [] q [] (listening x q) Hv ltac:(constructor) ltac:(constructor) ltac:(constructor) ltac:(split; constructor) B eq_refl eq_refl eq_refl eq_refl eq_refl eq_refl).
  - rewrite run_snoc. destruct IH as (pre & tss & Np & Bp & Es & F & [(Est & S & Bq & Ea)|(m & post & e & Ea & St & He & El)]).
    + exists pre, tss. set (st := run v (enter v (listening x q)) acts) in *.
      assert (E : Dispatch.step v st (Packet data) = with_conn st (Some false) (st_queue st ++ ms')).
      { assert (Et : st_trans st = Some false) by (rewrite Est; reflexivity). cbn [Dispatch.step]. rewrite Et, (received _ _ _ P). reflexivity. }
      rewrite E. cbn [with_conn st_started st_items st_queue]. split; [exact Np|]. split; [exact Bp|]. split; [exact Es|]. split; [exact F|]. left.
      split; [|split; [exact S|split; [apply Forall_app; split; [exact Bq|eapply packet_built, P]|rewrite app_assoc, Ea, app_assoc; reflexivity]]].
      assert (X1 : st_session st = Event) by (rewrite Est; reflexivity). assert (X2 : st_reg st = own_registry x) by (rewrite Est; reflexivity).
      assert (X3 : st_loop st = Waiting) by (rewrite Est; reflexivity). unfold with_conn. cbn [st_queue st_items]. rewrite X1, X2, X3, Es. reflexivity.
    + exists pre, tss. set (st := run v (enter v (listening x q)) acts) in *. 
      assert (X : st_items (Dispatch.step v st (Packet data)) = st_items st /\ st_started (Dispatch.step v st (Packet data)) = st_started st /\ st_loop (Dispatch.step v st (Packet data)) = st_loop st).
      { cbn [Dispatch.step]. destruct (st_trans st) as [[]|]; auto. destruct (data_received _ _) as [q1 [e1|]]; auto. }
      destruct X as (-> & -> & ->). split; [exact Np|]. split; [exact Bp|]. split; [exact Es|]. split; [exact F|]. right. exists m, (post ++ ms'), e.
      rewrite app_assoc, Ea, <- app_assoc. auto.
  - rewrite run_snoc. destruct IH as (pre & tss & Np & Bp & Es & F & [(Est & S & Bq & Ea)|(m & post & e & Ea & St & He & El)]).
    + set (st := run v (enter v (listening x q)) acts) in *. cbn [Dispatch.step]. destruct (st_queue st) as [|m0 q0] eqn:Eq.
      * assert (E : match st_loop st with Waiting | _ => st end = st) by (destruct (st_loop st); reflexivity). rewrite E. exists pre, tss. rewrite Eq. auto 10.
      * assert (El : st_loop st = Waiting) by (rewrite Est; reflexivity). rewrite El, Ea.
        apply (drain_work x v pre tss (m0 :: q0) (st_items st)); auto; rewrite Est; reflexivity.
    + set (st := run v (enter v (listening x q)) acts) in *. cbn [Dispatch.step]. rewrite El. exists pre, tss. split; [exact Np|]. split; [exact Bp|]. split; [exact Es|]. split; [exact F|]. right. exists m, post, e. auto.
Qed.

Lemma work_tells x its pre tss : Forall built pre -> Forall2 (made its (own_registry x)) pre tss ->
  exists lss, Forall2 (tells x) pre lss /\ concat (map (fun t => callback_body x its (snd t)) (concat tss)) = concat lss.
Proof.
  intros B F. induction F as [|m ts pre tss M F IH]; [exists []; split; constructor|]. inversion B as [|? ? Bm Bp]; subst. destruct (IH Bp) as (lss & F' & E).
  exists (concat (map (fun t => callback_body x its (snd t)) ts) :: lss). split; [constructor; [apply made_tells; assumption|exact F']|].
  change (concat (ts :: tss)) with (ts ++ concat tss). rewrite map_app, concat_app. cbn [concat]. apply f_equal. exact E.
Qed.

(** The lines told so far, and where the loop is. *)
Theorem watch_lines x v C pw rnd s es s1 acts ms c : v < 13 -> start C (new_client Event) pw rnd true s = (c, (es, s1, Ok tt)) ->
  Forall built (unread s1) -> arrives acts ms ->
  exists st pre lss, watch x v C pw rnd true s acts = (es, Ok st) /\ narrated x st = concat lss /\ Forall2 (tells x) pre lss /\ Forall (fun m => ~ stray m) pre /\
    ((st_loop st = Waiting /\ unread s1 ++ ms = pre ++ st_queue st) \/
     (exists m post, unread s1 ++ ms = pre ++ m :: post /\ stray m /\ (st_loop st = Failed IndexError \/ st_loop st = Failed InvalidTag))).
Proof.
  intros Hv E B A. unfold watch. rewrite E. destruct (arrives_work x v _ _ _ Hv B A) as (pre & tss & Np & Bp & Es & F & W).
  destruct (work_tells x _ _ _ Bp F) as (lss & F' & El). eexists. exists pre, lss. split; [reflexivity|]. unfold narrated. rewrite Es. split; [exact El|]. split; [exact F'|]. split; [exact Np|].
  destruct W as [(Est & _ & _ & Ea)|(m & post & e & Ea & St & [-> | ->] & L)].
  - left. split; [rewrite Est; reflexivity|exact Ea].
  - right. exists m, post. auto.
  - right. exists m, post. auto.
Qed.

(** Nothing is left once the loop has run. *)
Theorem watch_woken x v C pw rnd s es s1 acts st c : start C (new_client Event) pw rnd true s = (c, (es, s1, Ok tt)) ->
  watch x v C pw rnd true s (acts ++ [Wake]) = (es, Ok st) -> st_loop st = Waiting -> st_queue st = [].
Proof.
  intros E W L. unfold watch in W. rewrite E in W. apply (f_equal snd) in W. cbn [snd] in W. injection W as W. rewrite run_snoc in W. set (s0 := run v _ acts) in *. clearbody s0.
  cbn [Dispatch.step] in W. destruct (st_loop s0) eqn:El, (st_queue s0) as [|m q] eqn:Eq; subst st; try congruence.
  unfold drained in *. destruct (drain v (st_reg s0) (st_trans s0) (st_queue s0) (st_items s0) (st_started s0)) as [[[q' its] ts] l] eqn:D. cbn [st_loop st_queue] in *. subst l.
  clear - D. revert D. generalize (st_queue s0) (st_items s0) (st_started s0). intros l. induction l as [|m l IH]; intros its0 ts0 D; cbn [drain] in D; [congruence|].
  destruct (handle v (st_reg s0) its0 m) as [[i1 t1] [e|]]; [discriminate|]. destruct (st_trans s0) as [[]|]; [discriminate| |discriminate]. eapply IH, D.
Qed.

(** From Python 3.13 on nothing is told. *)
Theorem watch_silent x v C pw rnd up s acts es st : 13 <= v -> watch x v C pw rnd up s acts = (es, Ok st) -> narrated x st = [].
Proof.
  intros Hv W. unfold watch in W. destruct (start C (new_client Event) pw rnd up s) as [c [[es0 s1] [y|e]]]; [|discriminate]. injection W as _ <-.
  set (s0 := enter v (listening x (unread s1))).
  assert (E0 : st_started s0 = []).
  { unfold s0, enter. cbn [listening st_session st_trans is_cmd_session]. unfold drained.
    pose proof (drain_new v (st_reg (listening x (unread s1))) (st_trans (listening x (unread s1))) (st_queue (listening x (unread s1))) Hv (st_items (listening x (unread s1))) (st_started (listening x (unread s1)))) as D.
    destruct (drain v _ _ _ _ _) as [[[q its] ts] l]. exact D. }
  unfold narrated. assert (E : st_started (run v s0 acts) = []); [|rewrite E; reflexivity].
  clearbody s0. revert s0 E0. induction acts as [|a acts IH]; intros s0 E0; [exact E0|]. cbn [run fold_left]. apply IH.
  destruct a as [data| | |k cb|w whr|]; cbn [Dispatch.step].
  - destruct (st_trans s0) as [[]|]; auto. destruct (data_received (st_queue s0) data) as [q [e|]]; auto.
  - destruct (st_trans s0); auto.
  - auto.
  - auto.
  - auto.
  - destruct (st_loop s0); auto. destruct (st_queue s0) eqn:Eq; auto. unfold drained.
    pose proof (drain_new v (st_reg s0) (st_trans s0) (st_queue s0) Hv (st_items s0) (st_started s0)) as D. destruct (drain v _ _ _ _ _) as [[[q its] ts] l']. cbn in *. congruence.
Qed.

(** ** Events of a house *)

Lemma carries_arrives acts fs : carries acts fs -> forall ps, Forall point_ok ps -> fs = map frame_state ps -> arrives acts (map state_msg ps).
Proof.
  induction 1 as [|acts fs group D IH|acts fs D IH]; intros ps F E.
  - destruct ps; [constructor|discriminate].
  - symmetry in E. apply map_eq_app in E as (ps1 & ps2 & -> & <- & <-). apply Forall_app in F as (F1 & F2). rewrite map_app.
    apply Ar_packet; [apply IH; auto|].
    pose proof (packet_ok (map (fun p => ([], state_msg p)) ps2) []) as P. rewrite map_map in P. cbn [snd] in P.
    transitivity (packet_messages (packet_text (map (fun p => ([], state_msg p)) ps2) [])); [|apply P].
    + f_equal. unfold packet_text. rewrite app_nil_r, map_map. cbn [fst snd app]. f_equal. apply map_ext. intros p. apply state_str.
    + apply Forall_map. eapply Forall_impl; [|exact F2]. intros p Hp. cbn [fst snd]. split; [split; constructor|apply state_streamable, Hp].
    + split; constructor.
  - apply Ar_wake, IH; assumption.
Qed.

Lemma point_tells x p ls : spoken p -> tells x (state_msg p) ls -> ls = point_lines x p.
Proof.
  intros (P & W) T. pose proof P as (_ & _ & _ & _ & HA).
  assert (B : built (state_msg p)) by apply wf_built, state_streamable, P.
  assert (K : (exists l, speaks x (state_msg p) l /\ point_lines x p = [l]) \/ ((forall l, ~ speaks x (state_msg p) l) /\ point_lines x p = [])).
  { unfold state_msg, point_lines. destruct W as [W|W]; rewrite W; destruct x.
    all: try (right; split; [intros l S; inversion S as [| | | | | |? ? ? ? ? ? ? Hm]; try destruct Hm; discriminate|reflexivity]).
    - left. destruct (str_eqb (p_state p) (lit "1")) eqn:E; eexists; (split; [|reflexivity]).
      + apply str_eqb_spec in E. rewrite E. apply Sp_on.
      + apply Sp_off. intros X. apply str_eqb_spec in X. congruence.
    - left. destruct (HA W) as (c & ->). destruct c; eexists; (split; [|reflexivity]); [apply Sp_stopped|apply Sp_up|apply Sp_down]. }
  destruct T as [(l & S & ->)|(N & ->)], K as [(l' & S' & ->)|(N' & ->)]; [|destruct (N' _ S)|destruct (N _ S')|reflexivity].
  f_equal. eapply speaks_unique; eassumption.
Qed.

(** All events of a house, once the loop has run. *)
Theorem watch_points x v C pw rnd s es s1 acts ps c : v < 13 -> start C (new_client Event) pw rnd true s = (c, (es, s1, Ok tt)) -> unread s1 = [] ->
  Forall spoken ps -> carries acts (map frame_state ps) ->
  exists st, watch x v C pw rnd true s (acts ++ [Wake]) = (es, Ok st) /\ st_loop st = Waiting /\ st_queue st = [] /\
    narrated x st = concat (map (point_lines x) ps).
Proof.
  intros Hv E U F D.
  assert (A : arrives (acts ++ [Wake]) (map state_msg ps)).
  { apply Ar_wake. eapply carries_arrives; [exact D| |reflexivity]. eapply Forall_impl; [|exact F]. intros p H. apply H. }
  assert (B : Forall built (unread s1)) by (rewrite U; constructor).
  destruct (watch_lines x v C pw rnd s es s1 _ _ c Hv E B A) as (st & pre & lss & W & El & Fl & Np & [(L & Ea)|(m & post & Ea & St & _)]).
  - pose proof (watch_woken x v C pw rnd s es s1 acts st c E W L) as Q. rewrite Q, U, app_nil_r in Ea. cbn [app] in Ea. subst pre.
    exists st. split; [exact W|]. split; [exact L|]. split; [exact Q|]. rewrite El. clear - F Fl. apply f_equal. revert lss Fl.
    induction F as [|p ps Hp F IH]; intros lss Fl; inversion Fl; subst; [reflexivity|]. cbn [map]. f_equal; [apply point_tells; assumption|apply IH; assumption].
  - exfalso. rewrite U in Ea. cbn [app] in Ea. assert (I : In m (map state_msg ps)) by (rewrite Ea; apply in_elt). apply in_map_iff in I as (p & <- & I).
    rewrite Forall_forall in F. exact (spoken_not_stray p (F p I) St).
Qed.
