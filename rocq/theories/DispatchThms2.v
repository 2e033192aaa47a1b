(** * Theorems about event dispatch: the loop *)
From Coq Require Import String List NArith ZArith Bool Lia.
From Verif Require Import PyStr PyDate PyFloat Tags Messages SpecMsg SpecTag MessageThms MessageThms2 MessageThms3 TagThms Protocol IO Client
  Items Lighting Gateway Energy SpecEnergy EnergyThms Dispatch SpecDispatch DispatchThms.
Import ListNotations.
Open Scope N_scope.
Open Scope list_scope.

(** ** Calls *)

Lemma calls_create args fs : calls args fs (fst (create_tasks fs args)).
Proof.
  induction fs as [|f fs IH]; [constructor|]. cbn [create_tasks]. destruct (cb_takes f (length args)) eqn:E.
  - destruct (create_tasks fs args) as [ts r]. constructor; assumption.
  - constructor; assumption.
Qed.

Theorem calls_unique args fs ts ts' : calls args fs ts -> calls args fs ts' -> ts = ts'.
Proof.
  intros H. revert ts'. induction H as [|f fs ts E H IH|f fs E]; intros ts' H'; inversion H'; subst; try congruence.
  f_equal. apply IH. assumption.
Qed.

(** If every callback takes the arguments, each is called once, in order. *)
Theorem calls_all args fs : (forall f, In f fs -> cb_takes f (length args) = true) -> calls args fs (map (fun f => (cb_id f, args)) fs).
Proof.
  induction fs as [|f fs IH]; intros H; [constructor|]. cbn [map]. constructor; [apply H; left; reflexivity|].
  apply IH. intros g Hg. apply H. right. exact Hg.
Qed.

(** In general a prefix is called. *)
Theorem calls_prefix args fs ts : calls args fs ts -> exists n, ts = map (fun f => (cb_id f, args)) (firstn n fs).
Proof.
  intros H. induction H as [|f fs ts E H [n ->]|f fs E].
  - exists O. reflexivity.
  - exists (S n). reflexivity.
  - exists O. reflexivity.
Qed.

(** ** One message *)

Lemma dispatch_class r it m w c : msg_who m = Some w -> class_who c = w ->
  forall v, v < 13 -> dispatch v r subclasses it m = fst (call_callbacks r c it m).
Proof.
  intros Hm Hc v Hv. unfold dispatch, subclasses, item_who. rewrite (proj2 (N.ltb_lt v 13) Hv), Hm.
  subst w. destruct c; cbn [class_who who_eqb who_str str_eqb].
  all: repeat match goal with |- context [who_eqb ?a ?b] => let y := eval vm_compute in (who_eqb a b) in change (who_eqb a b) with y end; cbv iota.
  all: destruct (call_callbacks r _ it m) as [ts [|]]; cbn [fst]; apply app_nil_r.
Qed.

Lemma dispatch_new v r cs it m : 13 <= v -> dispatch v r cs it m = [].
Proof.
  intros Hv. induction cs as [|c cs IH]; [reflexivity|]. cbn [dispatch]. unfold item_who. rewrite (proj2 (N.ltb_ge v 13) Hv). exact IH.
Qed.

Definition usable (k : who * str) : Prop :=
  supported (fst k) /\ (fst k = ENERGY_MANAGEMENT -> exists t, energy_class (snd k) t).
Definition sound (its : items) : Prop := NoDup its /\ Forall usable its.

Lemma get_item_sound its w whr its' x : tagtext whr -> sound its -> get_item its w whr = (its', x) -> sound its'.
Proof.
  intros T [N1 U] H. destruct (get_item_spec its w whr its' x N1 H) as (N2 & _ & _). split; [exact N2|].
  unfold get_item in H. destruct (position (w, whr) its); [injection H as <- _; exact U|].
  destruct (item_types w) as [f|] eqn:F; [|injection H as <- _; exact U].
  destruct (construct f whr) as [[]|e] eqn:C; injection H as <- _; [|exact U].
  apply Forall_app. split; [exact U|]. constructor; [|constructor]. split; cbn [fst snd].
  - destruct w; try discriminate; unfold supported; cbn; tauto.
  - intros ->. injection F as <-. cbn [construct] in C. destruct (type_spec whr T) as (T1 & _).
    destruct (get_type whr) as [t|] eqn:G; [|discriminate]. exists t. apply T1. reflexivity.
Qed.

Lemma reports_supported m k args : reports m k args -> exists w, msg_who m = Some w /\ supported w.
Proof. intros []; eexists; (split; [reflexivity|]); unfold supported; cbn; tauto. Qed.

Lemma supported_class w : supported w -> exists c, class_who c = w /\ c <> C_Camera.
Proof.
  intros [<-|[<-|[<-|[<-|[]]]]]; [exists C_Light|exists C_Automation|exists C_Gateway|exists C_Energy]; (split; [reflexivity|discriminate]).
Qed.

Theorem handle_spec v r its m its' ts x : v < 13 -> built m -> sound its -> handle v r its m = (its', ts, x) ->
  sound its' /\ (exists l, its' = its ++ l) /\
  ((x = None /\ ~ stray m /\ made its' r m ts) \/
   (stray m /\ its' = its /\ ts = [] /\ exists whr, msg_where m = Some whr /\
     ((x = Some IndexError /\ exists d, whr = 55 :: d /\ nohash d) \/
      (x = Some InvalidTag /\ ~ exists d, whr = 55 :: d /\ nohash d)))).
Proof.
  intros Hv B S H.
  assert (K : (msg_who m = None /\ msg_where m = None /\ handle v r its m = (its, [], None)) \/
              (exists w whr, msg_who m = Some w /\ msg_where m = Some whr /\ tagtext whr /\
                 handle v r its m = match get_item its w whr with
                   | (its', Ok n) => (its', dispatch v r subclasses n m, None)
                   | (its', Err KeyError) => (its', [], None)
                   | (its', Err e) => (its', [], Some e) end)).
  { destruct B as [B _]. destruct m; cbn [free_tags] in B.
    1,2,8: left; auto.
    all: right; do 2 eexists; split; [reflexivity|]; split; [reflexivity|]; split; [|reflexivity].
    all: repeat match goal with H : Forall _ (_ :: _) |- _ => inversion H; subst; clear H end; assumption. }
  destruct K as [(Wn & Wh & E)|(w & whr & Wm & Wh & T & E)]; rewrite E in H; clear E.
  - injection H as <- <- <-. split; [exact S|]. split; [exists []; rewrite app_nil_r; reflexivity|]. left.
    split; [reflexivity|]. split; [intros [X _]; congruence|]. apply Made_none. intros k args R.
    apply reports_supported in R as (w & X & _). congruence.
  - destruct (get_item its w whr) as [its1 [n|e]] eqn:G.
    + remember (dispatch v r subclasses n m) as ds eqn:ED. injection H as <- <- <-. pose proof (get_item_sound _ _ _ _ _ T S G) as S'. destruct S as [N1 U].
      destruct (get_item_spec _ _ _ _ _ N1 G) as (_ & P & Hn). split; [exact S'|]. split; [exact P|]. left. split; [reflexivity|].
      assert (Us : usable (w, whr)). { destruct S' as [_ U']. rewrite Forall_forall in U'. apply U'. eapply nth_error_In, Hn. }
      split.
      { intros (X & whr' & Y & Z). rewrite X in Wm. injection Wm as <-. rewrite Y in Wh. injection Wh as ->.
        destruct (proj2 Us eq_refl) as (t & Ht). exact (Z t Ht). }
      destruct (supported_class w (proj1 Us)) as (c & Ec & Hc).
      rewrite ED, (dispatch_class r n m w c Wm Ec v Hv).
      assert (Wc : msg_who m = Some (class_who c)) by congruence.
      unfold call_callbacks. destruct (class_call c m) as [[[k args]|]|e] eqn:C.
      * eapply Made; [apply (reports_iff c m k args B Wc Hc), C|exact Wm|exact Wh|exact Hn|apply calls_create].
      * apply Made_none. intros k args R. apply (reports_iff c m k args B Wc Hc) in R. congruence.
      * apply Made_none. intros k args R. apply (reports_iff c m k args B Wc Hc) in R. congruence.
    + destruct S as [N1 U]. destruct (get_item_spec _ _ _ _ _ N1 G) as (_ & P & (-> & _)).
      assert (G' : snd (get_item its w whr) = Err e) by (rewrite G; reflexivity).
      apply (get_item_error its w whr e ltac:(constructor; [exact T|constructor]) N1) in G' as (Nin & Cases).
      destruct Cases as [[-> Hs]|(-> & Hcl & Cases)].
      * injection H as <- <- <-. split; [split; assumption|]. split; [exact P|]. left. split; [reflexivity|]. split.
        -- intros (X & _). rewrite X in Wm. injection Wm as <-. apply Hs. unfold supported. cbn. tauto.
        -- apply Made_none. intros k args R. apply reports_supported in R as (w' & X & Y). rewrite X in Wm. injection Wm as ->. exact (Hs Y).
      * assert (stray m) as St by (split; [exact Wm|exists whr; auto]).
        destruct Cases as [[-> Hd]|[-> Hd]]; injection H as <- <- <-; (split; [split; assumption|]); (split; [exact P|]); right.
        all: split; [exact St|]; split; [reflexivity|]; split; [reflexivity|]; exists whr; auto.
Qed.

Lemma made_more its l r m ts : made its r m ts -> made (its ++ l) r m ts.
Proof.
  intros [k args w whr i ts' R W Wh Hi C|H]; [|apply Made_none; exact H].
  eapply Made; [exact R|exact W|exact Wh| |exact C]. rewrite nth_error_app1; [exact Hi|]. apply nth_error_Some. congruence.
Qed.

(** ** Draining the queue *)

Lemma drain_all v r q : v < 13 -> forall its ts, Forall built q -> sound its -> Forall (fun m => ~ stray m) q ->
  exists l tss, drain v r (Some false) q its ts = ([], its ++ l, ts ++ concat tss, Waiting) /\ sound (its ++ l) /\
    Forall2 (fun m t => made (its ++ l) r m t) q tss.
Proof.
  intros Hv. induction q as [|m q IH]; intros its ts B S NS; cbn [drain].
  - exists [], []. cbn [concat]. rewrite !app_nil_r. split; [reflexivity|]. split; [exact S|constructor].
  - inversion B as [|? ? Bm Bq]; subst. inversion NS as [|? ? Nm Nq]; subst.
    destruct (handle v r its m) as [[its1 ts1] x] eqn:H.
    destruct (handle_spec v r its m its1 ts1 x Hv Bm S H) as (S1 & (l1 & ->) & [(-> & _ & M)|(St & _)]); [|contradiction].
    destruct (IH (its ++ l1) (ts ++ ts1) Bq S1 Nq) as (l2 & tss & E & S2 & F).
    exists (l1 ++ l2), (ts1 :: tss). rewrite E. cbn [concat]. rewrite <- !app_assoc in *. split; [reflexivity|]. split; [exact S2|].
    constructor; [|exact F]. rewrite app_assoc. apply made_more. exact M.
Qed.

Lemma packet_built data ms : packet_messages data = Ok ms -> Forall built ms.
Proof.
  unfold packet_messages. destruct (decode_ascii data) as [raw|]; [|discriminate]. cbn [bind].
  generalize (filter nonempty (split_hh (strip raw))) as ps. intros ps. revert ms. induction ps as [|p ps IH]; intros ms; cbn [mapM].
  - intros [= <-]. constructor.
  - destruct (parse_message (p ++ hh)) as [m|] eqn:E; [|discriminate]. cbn [bind].
    destruct (mapM (fun p => parse_message (p ++ hh)) ps) as [l|]; [|discriminate]. cbn [bind]. intros [= <-]. constructor; [eapply parse_built, E|apply IH; reflexivity].
Qed.

Lemma fold_snoc {A} (ms q : list A) : fold_left (fun q m => q ++ [m]) ms q = q ++ ms.
Proof.
  revert q. induction ms as [|m ms IH]; intros q; cbn [fold_left]; [rewrite app_nil_r; reflexivity|].
  rewrite IH, <- app_assoc. reflexivity.
Qed.

Lemma received q data ms : packet_messages data = Ok ms -> data_received q data = (q ++ ms, None).
Proof. intros E. unfold data_received. rewrite E, fold_snoc. reflexivity. Qed.

Lemma run_snoc v s acts a : run v s (acts ++ [a]) = step v (run v s acts) a.
Proof. unfold run. apply fold_left_app. Qed.

Lemma run_app v s a b : run v s (a ++ b) = run v (run v s a) b.
Proof. unfold run. apply fold_left_app. Qed.

Lemma registered_snoc acts : forall r k c, registered r (acts ++ [Register k c]) = register (registered r acts) k c.
Proof.
  induction acts as [|a acts IH]; intros r k c; [reflexivity|]. destruct a; cbn [app registered]; apply IH.
Qed.

Lemma registered_other acts a : (forall k c, a <> Register k c) -> forall r, registered r (acts ++ [a]) = registered r acts.
Proof.
  intros H. induction acts as [|b acts IH]; intros r; cbn [app registered].
  - destruct a; try reflexivity. exfalso. eapply H. reflexivity.
  - destruct b; apply IH.
Qed.

(** ** Histories *)

Definition open_state (r : registry) (acts : list act) (q : list msg) (its : items) (ts : list task) : state :=
  {| st_session := Event; st_trans := Some false; st_queue := q; st_items := its; st_reg := registered r acts;
     st_started := ts; st_loop := Waiting |}.

Theorem observed_run v r acts evs q : v < 13 -> observed r acts evs q -> Forall (fun ev => ~ stray (snd ev)) evs ->
  Forall built q /\
  exists its tss, run v (enter v (connected r)) acts = open_state r acts q its (concat tss) /\ sound its /\
    Forall2 (fun ev ts => made its (fst ev) (snd ev) ts) evs tss.
Proof.
  intros Hv O. induction O as [|acts evs q data ms O IH P|acts evs q k c O IH|acts evs q w whr O IH T|acts evs q O IH]; intros NS.
  - split; [constructor|]. exists [], []. split; [reflexivity|]. split; [split; constructor|constructor].
  - destruct (IH NS) as (B & its & tss & E & S & F). split; [apply Forall_app; split; [exact B|eapply packet_built, P]|].
    exists its, tss. rewrite run_snoc, E. split; [|auto]. unfold step, open_state. cbn [st_trans st_queue].
    rewrite (received _ _ _ P). rewrite registered_other by discriminate. reflexivity.
  - destruct (IH NS) as (B & its & tss & E & S & F). split; [exact B|].
    exists its, tss. rewrite run_snoc, E. split; [|auto]. unfold open_state. rewrite registered_snoc. reflexivity.
  - destruct (IH NS) as (B & its & tss & E & S & F). split; [exact B|].
    destruct (get_item its w whr) as [its' x] eqn:G. exists its', tss. rewrite run_snoc, E. split; [|split].
    + unfold step, open_state. cbn [st_items]. rewrite G. cbn [fst]. rewrite registered_other by discriminate. reflexivity.
    + eapply get_item_sound; eassumption.
    + destruct S as [N1 _]. destruct (get_item_spec _ _ _ _ _ N1 G) as (_ & (l & ->) & _).
      clear - F. induction F; constructor; [apply made_more; assumption|assumption].
  - apply Forall_app in NS as [NS1 NS2]. destruct (IH NS1) as (B & its & tss & E & S & F). split; [constructor|].
    rewrite run_snoc, E.
    assert (NQ : Forall (fun m => ~ stray m) q).
    { clear - NS2. induction q; cbn in NS2; constructor; inversion NS2; auto. }
    destruct q as [|m q].
    + exists its, tss. cbn [map]. rewrite app_nil_r. split; [|auto]. unfold step, open_state. cbn [st_loop st_queue].
      rewrite registered_other by discriminate. reflexivity.
    + destruct (drain_all v (registered r acts) (m :: q) Hv its (concat tss) B S NQ) as (l & tss' & D & S' & F').
      exists (its ++ l), (tss ++ tss'). split; [|split; [exact S'|]].
      * unfold step, open_state. cbn [st_loop st_queue]. unfold drained. cbn [st_reg st_trans st_queue st_items st_started st_session].
        rewrite D. rewrite registered_other by discriminate. rewrite concat_app. reflexivity.
      * apply Forall2_app.
        -- clear - F. induction F; constructor; [apply made_more; assumption|assumption].
        -- remember (m :: q) as ms. clear - F'. induction F'; cbn [map]; constructor; [assumption|assumption].
Qed.

(** Every history of packets that decode, registrations, look-ups and wake-ups
    is described by [observed], in exactly one way. *)
Definition orderly (a : act) : Prop :=
  match a with
  | Packet data => exists ms, packet_messages data = Ok ms
  | Register _ _ | Wake => True
  | Lookup _ whr => tagtext whr
  | Lost | Close => False
  end.

Theorem observed_total r acts : Forall orderly acts -> exists evs q, observed r acts evs q.
Proof.
  induction acts as [|a acts IH] using rev_ind; intros H.
  - exists [], []. constructor.
  - apply Forall_app in H as [H1 H2]. destruct (IH H1) as (evs & q & O). inversion H2 as [|? ? H3 _]; subst.
    destruct a as [data| | |k c|w whr|]; cbn in H3; try contradiction.
    + destruct H3 as (ms & P). exists evs, (q ++ ms). constructor; assumption.
    + exists evs, q. constructor. exact O.
    + exists evs, q. constructor; assumption.
    + eexists; exists []. constructor. exact O.
Qed.

Lemma snoc_not_nil {A} (l : list A) x : l ++ [x] <> [].
Proof. destruct l; discriminate. Qed.

Theorem observed_unique r acts evs q : observed r acts evs q -> forall evs' q', observed r acts evs' q' -> evs' = evs /\ q' = q.
Proof.
  intros O. induction O as [|acts evs q data ms O IH P|acts evs q k c O IH|acts evs q w whr O IH T|acts evs q O IH]; intros evs' q' O'.
  - remember [] as a eqn:E in O'. destruct O' as [|? ? ? ? ? ? ?|? ? ? ? ? ?|? ? ? ? ? ? ?|? ? ? ?];
      [auto|exfalso; eapply snoc_not_nil; eassumption..].
  - remember (acts ++ [Packet data]) as a eqn:E in O'. destruct O' as [|acts' evs' q' data' ms' O' P'|acts' evs' q' ? ? O'|acts' evs' q' ? ? O' ?|acts' evs' q' O'];
      [symmetry in E; exfalso; eapply snoc_not_nil; eassumption|..]; apply app_inj_tail in E as [-> E]; try discriminate E.
    injection E as ->. destruct (IH _ _ O') as [-> ->]. split; congruence.
  - remember (acts ++ [Register k c]) as a eqn:E in O'. destruct O' as [|acts' evs' q' data' ms' O' P'|acts' evs' q' ? ? O'|acts' evs' q' ? ? O' ?|acts' evs' q' O'];
      [symmetry in E; exfalso; eapply snoc_not_nil; eassumption|..]; apply app_inj_tail in E as [-> E]; try discriminate E. auto.
  - remember (acts ++ [Lookup w whr]) as a eqn:E in O'. destruct O' as [|acts' evs' q' data' ms' O' P'|acts' evs' q' ? ? O'|acts' evs' q' ? ? O' ?|acts' evs' q' O'];
      [symmetry in E; exfalso; eapply snoc_not_nil; eassumption|..]; apply app_inj_tail in E as [-> E]; try discriminate E. auto.
  - remember (acts ++ [Wake]) as a eqn:E in O'. destruct O' as [|acts' evs' q' data' ms' O' P'|acts' evs' q' ? ? O'|acts' evs' q' ? ? O' ?|acts' evs' q' O'];
      [symmetry in E; exfalso; eapply snoc_not_nil; eassumption|..]; apply app_inj_tail in E as [-> E]; try discriminate E.
    destruct (IH _ _ O') as [-> ->]. auto.
Qed.

(** ** A stray event *)

Lemma drain_stray v r pre m post : v < 13 -> forall its ts, Forall built (pre ++ m :: post) -> sound its ->
  Forall (fun m => ~ stray m) pre -> stray m ->
  exists l tss e, drain v r (Some false) (pre ++ m :: post) its ts = (post, its ++ l, ts ++ concat tss, Failed e) /\
    (e = IndexError \/ e = InvalidTag) /\ Forall2 (fun m t => made (its ++ l) r m t) pre tss.
Proof.
  intros Hv. induction pre as [|m' pre IH]; intros its ts B S NS St; cbn [app drain].
  - inversion B as [|? ? Bm Bq]; subst. destruct (handle v r its m) as [[its1 ts1] x] eqn:H.
    destruct (handle_spec v r its m its1 ts1 x Hv Bm S H) as (_ & _ & [(-> & N1 & _)|(_ & -> & -> & whr & _ & C)]); [contradiction|].
    exists [], []. cbn [concat]. rewrite !app_nil_r. destruct C as [[-> _]|[-> _]]; eexists; (split; [reflexivity|]); (split; [tauto|constructor]).
  - inversion B as [|? ? Bm Bq]; subst. inversion NS as [|? ? Nm Nq]; subst.
    destruct (handle v r its m') as [[its1 ts1] x] eqn:H.
    destruct (handle_spec v r its m' its1 ts1 x Hv Bm S H) as (S1 & (l1 & ->) & [(-> & _ & M)|(St' & _)]); [|contradiction].
    destruct (IH (its ++ l1) (ts ++ ts1) Bq S1 Nq St) as (l2 & tss & e & E & He & F).
    exists (l1 ++ l2), (ts1 :: tss), e. rewrite E. cbn [concat]. rewrite <- !app_assoc in *. split; [reflexivity|]. split; [exact He|].
    constructor; [|exact F]. rewrite app_assoc. apply made_more. exact M.
Qed.

(** Whatever ends the loop, ends it for good. *)
Lemma ended_step v s a : st_loop s <> Waiting -> st_loop (step v s a) = st_loop s /\ st_started (step v s a) = st_started s.
Proof.
  intros H. destruct a as [data| | |k c|w whr|]; cbn [step].
  - destruct (st_trans s) as [[]|]; auto. destruct (data_received (st_queue s) data) as [q [e|]]; auto.
  - destruct (st_trans s); auto.
  - auto.
  - auto.
  - auto.
  - destruct (st_loop s) eqn:E; rewrite ?E; auto. congruence.
Qed.

Theorem ended v s acts : st_loop s <> Waiting -> st_loop (run v s acts) = st_loop s /\ st_started (run v s acts) = st_started s.
Proof.
  revert s. induction acts as [|a acts IH]; intros s H; [auto|]. cbn [run fold_left].
  destruct (ended_step v s a H) as [E1 E2]. destruct (IH (step v s a)) as [E3 E4]; [congruence|].
  unfold run in *. split; congruence.
Qed.

Theorem stray_event v r acts evs pre m post : v < 13 ->
  observed r acts evs (pre ++ m :: post) -> Forall (fun ev => ~ stray (snd ev)) evs -> Forall (fun m => ~ stray m) pre -> stray m ->
  exists e tss1 tss2 its, (e = IndexError \/ e = InvalidTag) /\
    Forall2 (fun ev ts => made its (fst ev) (snd ev) ts) evs tss1 /\
    Forall2 (fun m ts => made its (registered r acts) m ts) pre tss2 /\
    forall more, st_loop (run v (enter v (connected r)) (acts ++ Wake :: more)) = Failed e /\
      st_started (run v (enter v (connected r)) (acts ++ Wake :: more)) = concat (tss1 ++ tss2).
Proof.
  intros Hv O NS1 NS2 St. destruct (observed_run v r acts evs _ Hv O NS1) as (B & its & tss & E & S & F).
  destruct (drain_stray v (registered r acts) pre m post Hv its (concat tss) B S NS2 St) as (l & tss2 & e & D & He & F2).
  exists e, tss, tss2, (its ++ l). split; [exact He|]. split.
  { clear - F. induction F; constructor; [apply made_more; assumption|assumption]. }
  split; [exact F2|]. intros more.
  replace (acts ++ Wake :: more) with ((acts ++ [Wake]) ++ more) by (rewrite <- app_assoc; reflexivity).
  rewrite run_app, run_snoc, E.
  assert (X : step v (open_state r acts (pre ++ m :: post) its (concat tss)) Wake =
     {| st_session := Event; st_trans := Some false; st_queue := post; st_items := its ++ l; st_reg := registered r acts;
        st_started := concat tss ++ concat tss2; st_loop := Failed e |}).
  { transitivity (drained v (open_state r acts (pre ++ m :: post) its (concat tss))).
    - destruct pre; reflexivity.
    - unfold drained, open_state. cbn [st_reg st_trans st_queue st_items st_started st_session]. rewrite D. reflexivity. }
  rewrite X. match goal with |- context [run v ?s more] => destruct (ended v s more ltac:(discriminate)) as [E1 E2] end.
  rewrite E1, E2. cbn [st_loop st_started]. rewrite concat_app. auto.
Qed.

(** ** Python 3.13 and later *)

Lemma handle_new v r its m : 13 <= v -> snd (fst (handle v r its m)) = [].
Proof.
  intros Hv. unfold handle. destruct (msg_type m); try reflexivity.
  all: destruct (msg_who m), (msg_where m); try reflexivity.
  all: destruct (get_item its w s) as [its' [n|[]]]; try reflexivity; apply dispatch_new, Hv.
Qed.

Lemma drain_new v r t q : 13 <= v -> forall its ts, snd (fst (drain v r t q its ts)) = ts.
Proof.
  intros Hv. induction q as [|m q IH]; intros its ts; [reflexivity|]. cbn [drain].
  pose proof (handle_new v r its m Hv) as H. destruct (handle v r its m) as [[its' ts'] x]. cbn in H. subst ts'. rewrite app_nil_r.
  destruct x; [reflexivity|]. destruct t as [[]|]; try reflexivity. apply IH.
Qed.

Lemma drained_new v s : 13 <= v -> st_started (drained v s) = st_started s.
Proof.
  intros Hv. unfold drained. pose proof (drain_new v (st_reg s) (st_trans s) (st_queue s) Hv (st_items s) (st_started s)) as H.
  destruct (drain _ _ _ _ _ _) as [[[q its] ts] l]. exact H.
Qed.

Theorem never_started v s acts : 13 <= v -> st_started (run v (enter v s) acts) = st_started s.
Proof.
  intros Hv. induction acts as [|a acts IH] using rev_ind.
  - unfold run. cbn [fold_left]. unfold enter. destruct (is_cmd_session _); [reflexivity|].
    destruct (st_trans s) as [[]|]; try reflexivity. apply drained_new, Hv.
  - rewrite run_snoc. set (s' := run v (enter v s) acts) in *. rewrite <- IH. clearbody s'. destruct a as [data| | |k c|w whr|]; cbn [step].
    + destruct (st_trans s') as [[]|]; auto. destruct (data_received (st_queue s') data) as [q [e|]]; auto.
    + destruct (st_trans s'); auto.
    + auto.
    + auto.
    + auto.
    + destruct (st_loop s'); auto. destruct (st_queue s') eqn:E; auto. apply drained_new, Hv.
Qed.

(** ** Items over histories *)

Lemma handle_items v r its m : NoDup its ->
  NoDup (fst (fst (handle v r its m))) /\ exists l, fst (fst (handle v r its m)) = its ++ l.
Proof.
  intros N1. assert (Z : NoDup its /\ exists l, its = its ++ l) by (split; [exact N1|exists []; rewrite app_nil_r; reflexivity]).
  unfold handle. destruct (msg_type m); try exact Z.
  all: destruct (msg_who m) as [w|], (msg_where m) as [whr|]; try exact Z.
  all: destruct (get_item its w whr) as [its' x] eqn:G; destruct (get_item_spec _ _ _ _ _ N1 G) as (N2 & P & _).
  all: destruct x as [n|[]]; auto.
Qed.

Lemma drain_items v r t q : forall its ts, NoDup its ->
  let its' := snd (fst (fst (drain v r t q its ts))) in NoDup its' /\ exists l, its' = its ++ l.
Proof.
  induction q as [|m q IH]; intros its ts N1; cbn [drain].
  - split; [exact N1|exists []; rewrite app_nil_r; reflexivity].
  - destruct (handle_items v r its m N1) as (N2 & l & E). destruct (handle v r its m) as [[its' ts'] x]. cbn in N2, E. subst its'.
    assert (Z : NoDup (its ++ l) /\ exists l', its ++ l = its ++ l') by (split; [exact N2|eexists; reflexivity]).
    destruct x; [exact Z|]. destruct t as [[]|]; try exact Z.
    destruct (IH (its ++ l) (ts ++ ts') N2) as (N3 & l' & E). cbv zeta. split; [exact N3|]. exists (l ++ l'). rewrite app_assoc. exact E.
Qed.

Lemma step_items v s a : NoDup (st_items s) -> NoDup (st_items (step v s a)) /\ exists l, st_items (step v s a) = st_items s ++ l.
Proof.
  intros N1. assert (Z : NoDup (st_items s) /\ exists l, st_items s = st_items s ++ l) by (split; [exact N1|exists []; rewrite app_nil_r; reflexivity]).
  destruct a as [data| | |k c|w whr|]; cbn [step].
  - destruct (st_trans s) as [[]|]; auto. destruct (data_received (st_queue s) data) as [q [e|]]; auto.
  - destruct (st_trans s); auto.
  - exact Z.
  - exact Z.
  - cbn [st_items]. destruct (get_item (st_items s) w whr) as [its x] eqn:G. destruct (get_item_spec _ _ _ _ _ N1 G) as (N2 & P & _). auto.
  - destruct (st_loop s); auto. destruct (st_queue s) eqn:Q; auto. unfold drained. rewrite Q.
    pose proof (drain_items v (st_reg s) (st_trans s) (m :: l) (st_items s) (st_started s) N1) as D.
    destruct (drain v (st_reg s) (st_trans s) (m :: l) (st_items s) (st_started s)) as [[[q' its] ts] x]. exact D.
Qed.

Theorem run_items v acts : forall s, NoDup (st_items s) -> NoDup (st_items (run v s acts)) /\ exists l, st_items (run v s acts) = st_items s ++ l.
Proof.
  induction acts as [|a acts IH]; intros s N1; [split; [exact N1|exists []; rewrite app_nil_r; reflexivity]|].
  cbn [run fold_left]. destruct (step_items v s a N1) as (N2 & l & E). destruct (IH _ N2) as (N3 & l' & E'). unfold run in *.
  split; [exact N3|]. exists (l ++ l'). rewrite E', E, app_assoc. reflexivity.
Qed.

(** Two look-ups, any history in between. *)
Theorem same_item v s w1 whr1 i acts w2 whr2 j : NoDup (st_items s) ->
  snd (get_item (st_items s) w1 whr1) = Ok i ->
  snd (get_item (st_items (run v (step v s (Lookup w1 whr1)) acts)) w2 whr2) = Ok j ->
  (i = j <-> w1 = w2 /\ whr1 = whr2).
Proof.
  intros N1 G1 G2. destruct (step_items v s (Lookup w1 whr1) N1) as (N2 & _).
  destruct (run_items v acts _ N2) as (N3 & l & E).
  assert (E1 : st_items (step v s (Lookup w1 whr1)) = fst (get_item (st_items s) w1 whr1)) by reflexivity. rewrite E1 in E.
  set (its2 := st_items (run v (step v s (Lookup w1 whr1)) acts)) in *. clearbody its2. clear E1 N2.
  destruct (get_item (st_items s) w1 whr1) as [its1 x1] eqn:H1. cbn [fst snd] in *. subst x1.
  destruct (get_item_spec _ _ _ _ _ N1 H1) as (_ & _ & P1).
  destruct (get_item its2 w2 whr2) as [its3 x2] eqn:H2. cbn [snd] in G2. subst x2.
  destruct (get_item_spec _ _ _ _ _ N3 H2) as (N4 & (l' & E3) & P2).
  assert (P1' : nth_error its3 i = Some (w1, whr1)).
  { rewrite E3, E, nth_error_app1; [rewrite nth_error_app1; [exact P1|]|]; [apply nth_error_Some; congruence|].
    rewrite app_length. assert (i < length its1)%nat by (apply nth_error_Some; congruence). lia. }
  split.
  - intros ->. rewrite P1' in P2. injection P2. auto.
  - intros [-> ->]. apply (position_nth _ _ _ N4) in P1'. apply (position_nth _ _ _ N4) in P2. congruence.
Qed.

(** ** Closing *)

(** Without a live transport and with nothing to read, nothing happens any more. *)
Lemma dead_step v s a : st_loop s = Waiting -> st_queue s = [] -> st_trans s <> Some false ->
  st_loop (step v s a) = Waiting /\ st_queue (step v s a) = [] /\ st_trans (step v s a) <> Some false /\ st_started (step v s a) = st_started s.
Proof.
  intros L Q T. destruct a as [data| | |k c|w whr|]; cbn [step].
  - destruct (st_trans s) as [[]|] eqn:E; rewrite ?E; try congruence; repeat split; auto; congruence.
  - destruct (st_trans s) as [[]|] eqn:E; try congruence; cbn; repeat split; auto; congruence.
  - cbn. repeat split; auto; discriminate.
  - cbn. auto.
  - cbn. auto.
  - rewrite L, Q. auto.
Qed.

Lemma dead_run v acts : forall s, st_loop s = Waiting -> st_queue s = [] -> st_trans s <> Some false ->
  st_loop (run v s acts) = Waiting /\ st_queue (run v s acts) = [] /\ st_started (run v s acts) = st_started s.
Proof.
  induction acts as [|a acts IH]; intros s L Q T; [auto|]. cbn [run fold_left].
  destruct (dead_step v s a L Q T) as (L' & Q' & T' & S'). destruct (IH _ L' Q' T') as (L2 & Q2 & S2). unfold run in *.
  rewrite S2. auto.
Qed.

(** close(), or the loss of the connection, while the loop waits. *)
Theorem closed_waits v s acts a : In a [Close; Lost] -> st_loop s = Waiting -> st_queue s = [] ->
  st_loop (run v (step v s a) acts) = Waiting /\ st_queue (run v (step v s a) acts) = [] /\
  st_started (run v (step v s a) acts) = st_started s.
Proof.
  intros Ha L Q. assert (X : st_loop (step v s a) = Waiting /\ st_queue (step v s a) = [] /\ st_trans (step v s a) <> Some false /\ st_started (step v s a) = st_started s).
  { destruct Ha as [<-|[<-|[]]]; cbn [step].
    - cbn. repeat split; auto; discriminate.
    - destruct (st_trans s) eqn:E; cbn; rewrite ?E; repeat split; auto; discriminate. }
  destruct X as (L' & Q' & T' & <-). apply dead_run; assumption.
Qed.

(** With messages pending the next one is still handled; then the loop fails
    (close) or returns (dropped), and the messages behind it are never handled. *)
Definition end_of (a : act) : status := match a with Close => Failed AttributeError | _ => Returned end.

Theorem pending_after_end v s m q a acts : v < 13 -> In a [Close; Lost] ->
  st_loop s = Waiting -> st_trans s = Some false -> st_queue s = m :: q -> built m -> ~ stray m -> sound (st_items s) ->
  exists its ts, made its (st_reg s) m ts /\
    st_loop (run v s (a :: Wake :: acts)) = end_of a /\ st_started (run v s (a :: Wake :: acts)) = st_started s ++ ts.
Proof.
  intros Hv Ha L T Q B NS S. destruct (handle v (st_reg s) (st_items s) m) as [[its ts] x] eqn:H.
  destruct (handle_spec _ _ _ _ _ _ _ Hv B S H) as (_ & _ & [(-> & _ & M)|(St & _)]); [|contradiction].
  exists its, ts. split; [exact M|].
  assert (E : exists t, step v (step v s a) Wake =
    {| st_session := st_session s; st_trans := t; st_queue := q; st_items := its; st_reg := st_reg s; st_started := st_started s ++ ts; st_loop := end_of a |}).
  { destruct s as [ss st sq si sr sst sl]. cbn in *. subst. destruct Ha as [<-|[<-|[]]]; [exists None|exists (Some true)].
    all: cbn [step with_conn st_loop st_queue st_trans]; unfold drained; cbn [with_conn st_reg st_trans st_queue st_items st_started st_session drain].
    all: rewrite H; reflexivity. }
  destruct E as (t & E). unfold run. cbn [fold_left]. rewrite E.
  match goal with |- context [fold_left _ acts ?s] => destruct (ended v s acts) as [E1 E2]; [destruct Ha as [<-|[<-|[]]]; discriminate|] end.
  unfold run in E1, E2. rewrite E1, E2. auto.
Qed.

(** Until it is woken the loop just waits. *)
Lemma no_wake_step v s a : a <> Wake -> st_loop (step v s a) = st_loop s /\ st_started (step v s a) = st_started s.
Proof.
  intros H. destruct a as [data| | |k c|w whr|]; cbn [step]; try congruence; auto.
  - destruct (st_trans s) as [[]|]; auto. destruct (data_received (st_queue s) data) as [q [e|]]; auto.
  - destruct (st_trans s); auto.
Qed.

(** After close() the loop never returns, whatever was pending. *)
Lemma drain_closed v r q its ts : snd (drain v r None q its ts) <> Returned.
Proof.
  destruct q as [|m q]; cbn [drain]; [discriminate|]. destruct (handle v r its m) as [[its' ts'] [e|]]; discriminate.
Qed.

Theorem never_returns v s acts : st_loop s <> Returned -> st_loop (run v (step v s Close) acts) <> Returned.
Proof.
  intros L. assert (G : st_trans (step v s Close) = None /\ st_loop (step v s Close) <> Returned) by (split; [reflexivity|exact L]).
  revert G. generalize (step v s Close) as s0. intros s0 [T0 L0].
  assert (X : st_trans (run v s0 acts) = None /\ st_loop (run v s0 acts) <> Returned); [|apply X].
  induction acts as [|a acts IH] using rev_ind; [split; assumption|].
  rewrite run_snoc. destruct IH as [T1 L1]. revert T1 L1. generalize (run v s0 acts) as s1. intros s1 T1 L1.
  destruct a as [data| | |k c|w whr|]; cbn [step]; rewrite ?T1; auto.
  destruct (st_loop s1) eqn:E; rewrite ?E; auto. destruct (st_queue s1) eqn:Q; rewrite ?E; auto.
  unfold drained. rewrite T1. pose proof (drain_closed v (st_reg s1) (st_queue s1) (st_items s1) (st_started s1)) as D.
  destruct (drain _ _ _ _ _ _) as [[[q its] ts] x]. cbn in *. split; [reflexivity|exact D].
Qed.

(** A bad packet: the connection is closed, the packets behind it are lost, and
    the loop is where it was. *)
Theorem bad_packet v s data e : st_trans s = Some false -> packet_messages data = Err e ->
  step v s (Packet data) = step v s Lost.
Proof. intros T E. cbn [step]. rewrite T. unfold data_received. rewrite E. reflexivity. Qed.
