(** * Item objects, their clients and their classes *)
From Coq Require Import String List NArith ZArith Bool Lia.
From Verif Require Import PyStr Tags Messages SpecMsg SpecTag Protocol Queue QueueThms IO Client Items Energy SpecEnergy EnergyThms
  Dispatch SpecDispatch DispatchThms DispatchThms2 Objects SpecObjects SpecItem ItemThms ItemThms2.
Import ListNotations.
Open Scope N_scope.
Open Scope list_scope.

(** ** The objects refine the numbers of Dispatch.v *)

Lemma get_object_erase c w whr cl :
  keys (fst (get_object c w whr cl)) = fst (get_item (keys c) w whr) /\
  snd (get_object c w whr cl) = snd (get_item (keys c) w whr).
Proof.
  unfold get_object, get_item. destruct (position (w, whr) (keys c)); [auto|].
  destruct (item_types w) as [f|]; [|auto]. unfold make. destruct (construct f whr); cbn [bind fst snd]; [|auto].
  unfold keys. rewrite map_app, map_length. auto.
Qed.

Theorem handle_erase v r lc c m :
  handle v r (keys c) m =
  match handle_obj v r lc c m with (c', ts, x) => (keys c', ts, x) end.
Proof.
  unfold handle, handle_obj. destruct (msg_type m); try reflexivity;
    (destruct (msg_who m) as [w|]; [|reflexivity]; destruct (msg_where m) as [whr|]; [|reflexivity];
     destruct (get_object_erase c w whr lc) as [A B]; destruct (get_object c w whr lc) as [c' [n|e]]; destruct (get_item (keys c) w whr) as [its' x];
     cbn [fst snd] in A, B; subst; [reflexivity|destruct e; reflexivity]).
Qed.

(** ** Objects stay where they are *)

Definition same_but_client (a b : (who * str) * object) : Prop :=
  fst a = fst b /\ ob_class (snd a) = ob_class (snd b) /\ ob_where (snd a) = ob_where (snd b).

Lemma same_refl a : same_but_client a a.
Proof. repeat split. Qed.

Lemma get_object_grow c w whr cl n x : nth_error c n = Some x -> nth_error (fst (get_object c w whr cl)) n = Some x.
Proof.
  intros H. unfold get_object. destruct (position _ _); [exact H|]. destruct (item_types w) as [f|]; [|exact H].
  destruct (make f cl whr); [|exact H]. cbn [fst]. rewrite nth_error_app1; [exact H|]. apply nth_error_Some. congruence.
Qed.

Lemma handle_cache v r lc c m :
  fst (fst (handle_obj v r lc c m)) =
  match msg_who m, msg_where m with Some w, Some whr => fst (get_object c w whr lc) | _, _ => c end.
Proof.
  unfold handle_obj. destruct m; cbn [msg_type msg_who msg_where]; try reflexivity;
    (destruct (get_object c w whr lc) as [c' [n|[]]] || destruct (get_object c _ _ lc) as [c' [n|[]]]); reflexivity.
Qed.

Lemma assign_other n m cl c : n <> m -> nth_error (assign m cl c) n = nth_error c n.
Proof.
  intros H. unfold assign. destruct (nth_error c m) as [[k o]|]; [|reflexivity]. apply setnth_other. auto.
Qed.
Lemma assign_same n cl c k o : nth_error c n = Some (k, o) -> nth_error (assign n cl c) n = Some (k, with_client cl o).
Proof. intros H. unfold assign. rewrite H. apply setnth_same. apply nth_error_Some. congruence. Qed.

Lemma ostep_nth v c a n k o : nth_error c n = Some (k, o) ->
  nth_error (ostep v c a) n = Some (k, with_client (reassigned n (ob_client o) [a]) o).
Proof.
  assert (E : forall o : object, with_client (ob_client o) o = o) by (intros []; reflexivity).
  intros H. destruct a as [w whr cl|lc r m|m cl]; cbn [ostep reassigned].
  - rewrite E. apply get_object_grow, H.
  - rewrite E, handle_cache. destruct (msg_who m); [|exact H]. destruct (msg_where m); [|exact H]. apply get_object_grow, H.
  - destruct (Nat.eqb_spec m n) as [->|N1]; [apply assign_same, H|]. rewrite E, assign_other by auto. exact H.
Qed.

Lemma orun_nth v h : forall c n k o, nth_error c n = Some (k, o) ->
  nth_error (orun v c h) n = Some (k, with_client (reassigned n (ob_client o) h) o).
Proof.
  induction h as [|a h IH]; intros c n k o H.
  - destruct o. exact H.
  - cbn [orun fold_left]. fold (orun v (ostep v c a) h). rewrite (IH _ _ _ _ (ostep_nth v c a n k o H)). f_equal. f_equal.
    cbn [with_client ob_client]. unfold with_client. cbn [ob_class ob_where]. f_equal.
    destruct a; cbn [reassigned]; reflexivity.
Qed.

(** ** The client of an object is the first one offered *)

Definition fits (e : (who * str) * object) : Prop :=
  item_types (fst (fst e)) = Some (ob_class (snd e)) /\
  ob_where (snd e) = match fst (fst e) with GATEWAY => [] | _ => snd (fst e) end.

Lemma make_fits f w whr cl o : item_types w = Some f -> make f cl whr = Ok o -> fits ((w, whr), o) /\ ob_client o = cl.
Proof.
  unfold make, fits. intros F. destruct (construct f whr); cbn [bind]; [|discriminate]. intros [= <-]. cbn [fst snd ob_class ob_where ob_client].
  split; [|reflexivity]. split; [exact F|]. destruct w; cbn in F; try discriminate; injection F as <-; reflexivity.
Qed.

Lemma get_object_fits c w whr cl : Forall fits c -> Forall fits (fst (get_object c w whr cl)).
Proof.
  intros H. unfold get_object. destruct (position _ _); [exact H|]. destruct (item_types w) as [f|] eqn:F; [|exact H].
  destruct (make f cl whr) as [o|] eqn:M; [|exact H]. cbn [fst]. apply Forall_app. split; [exact H|]. constructor; [|constructor].
  exact (proj1 (make_fits f w whr cl o F M)).
Qed.

Lemma assign_fits n cl c : Forall fits c -> Forall fits (assign n cl c).
Proof.
  intros H. apply Forall_forall. intros e He. apply In_nth_error in He as [i Hi].
  destruct (Nat.eq_dec i n) as [->|N1].
  - unfold assign in Hi. destruct (nth_error c n) as [[k o]|] eqn:E.
    + rewrite setnth_same in Hi by (apply nth_error_Some; congruence). injection Hi as <-.
      apply nth_error_In in E. rewrite Forall_forall in H. exact (H _ E).
    + congruence.
  - rewrite assign_other in Hi by auto. apply nth_error_In in Hi. rewrite Forall_forall in H. exact (H _ Hi).
Qed.

Lemma ostep_fits v c a : Forall fits c -> Forall fits (ostep v c a).
Proof.
  intros H. destruct a as [w whr cl|lc r m|m cl]; cbn [ostep].
  - apply get_object_fits, H.
  - rewrite handle_cache. destruct (msg_who m); [|exact H]. destruct (msg_where m); [|exact H]. apply get_object_fits, H.
  - apply assign_fits, H.
Qed.
Lemma orun_fits v h : forall c, Forall fits c -> Forall fits (orun v c h).
Proof. induction h as [|a h IH]; intros c H; [exact H|]. cbn [orun fold_left]. apply IH, ostep_fits, H. Qed.

Lemma keys_assign n cl c : keys (assign n cl c) = keys c.
Proof.
  unfold assign, keys. destruct (nth_error c n) as [[k o]|] eqn:E; [|reflexivity].
  revert n E. induction c as [|x c IH]; intros [|n] E; cbn in *; try discriminate; [injection E as ->; reflexivity|]. f_equal. apply IH, E.
Qed.

Lemma get_object_keys c w whr cl k : In k (keys (fst (get_object c w whr cl))) -> In k (keys c) \/ k = (w, whr).
Proof.
  unfold get_object. destruct (position _ _); [auto|]. destruct (item_types w) as [f|]; [|auto].
  destruct (make f cl whr); [|auto]. cbn [fst]. unfold keys. rewrite map_app. intros H. apply in_app_or in H as [H|[H|[]]]; auto.
Qed.

Lemma unnamed v h : forall c k, ~ In k (keys c) -> (forall a cl, In a h -> ~ names a k cl) -> ~ In k (keys (orun v c h)).
Proof.
  induction h as [|a h IH]; intros c k N1 N2; [exact N1|]. cbn [orun fold_left]. apply IH.
  - intros H. destruct a as [w whr cl|lc r m|m cl]; cbn [ostep] in H.
    + apply get_object_keys in H as [H| ->]; [auto|]. eapply (N2 (OLookup w whr cl) cl); [left; reflexivity|]. constructor.
    + rewrite handle_cache in H. destruct (msg_who m) as [w|] eqn:W; [|auto]. destruct (msg_where m) as [whr|] eqn:Wh; [|auto].
      apply get_object_keys in H as [H| ->]; [auto|]. eapply (N2 (OEvent lc r m) lc); [left; reflexivity|]. constructor; assumption.
    + rewrite keys_assign in H. auto.
  - intros b cl Hb. apply N2. right. exact Hb.
Qed.

Lemma makeable_spec w whr : makeable (w, whr) -> exists f, item_types w = Some f /\ construct f whr = Ok tt.
Proof.
  unfold makeable. cbn [fst snd]. destruct w; try contradiction; intros H; try (eexists; split; reflexivity).
  destruct H as [t H]. exists F_Energy. split; [reflexivity|]. cbn [construct].
  apply (type_spec whr (class_tag whr t H)) in H. rewrite H. reflexivity.
Qed.

Lemma fresh_object c w whr cl : ~ In (w, whr) (keys c) -> makeable (w, whr) ->
  exists o, get_object c w whr cl = (c ++ [((w, whr), o)], Ok (length c)) /\ fits ((w, whr), o) /\ ob_client o = cl.
Proof.
  intros N1 M. destruct (makeable_spec w whr M) as (f & F & K). unfold get_object. apply position_none in N1. rewrite N1, F.
  destruct (make f cl whr) as [o|] eqn:E; [|unfold make in E; rewrite K in E; discriminate].
  exists o. split; [reflexivity|]. exact (make_fits f w whr cl o F E).
Qed.

Theorem owner v h1 a h2 k cl :
  names a k cl -> makeable k -> (forall b cl', In b h1 -> ~ names b k cl') ->
  exists n o, nth_error (orun v [] (h1 ++ a :: h2)) n = Some (k, o) /\ position k (keys (orun v [] (h1 ++ a :: h2))) = Some n /\
    ob_client o = reassigned n cl h2 /\ fits (k, o).
Proof.
  intros Na Mk N1. set (c1 := orun v [] h1). set (n := length c1).
  assert (U : ~ In k (keys c1)) by (apply unnamed; [intros []|exact N1]).
  assert (G : exists o, nth_error (ostep v c1 a) n = Some (k, o) /\ ob_client o = cl /\ position k (keys (ostep v c1 a)) = Some n).
  { assert (P : forall w whr o, k = (w, whr) -> position (w, whr) (keys (c1 ++ [((w, whr), o)])) = Some n).
    { intros w whr o ->. unfold keys, n. rewrite map_app. cbn [map fst]. revert U. unfold keys. clear. induction c1 as [|x c IH]; intros U; cbn [map app position length] in *.
      - assert (X : key_eqb (w, whr) (w, whr) = true) by (apply key_eqb_spec; reflexivity). rewrite X. reflexivity.
      - destruct (key_eqb (w, whr) (fst x)) eqn:X; [apply key_eqb_spec in X; exfalso; apply U; left; auto|]. rewrite IH; [reflexivity|]. intros H. apply U. right. exact H. }
    destruct Na as [w whr cl|lc r m w whr W Wh]; cbn [ostep]; [|rewrite handle_cache, W, Wh].
    - destruct (fresh_object c1 w whr cl U Mk) as (o' & E' & _ & C'). rewrite E'. cbn [fst]. exists o'.
      split; [rewrite nth_error_app2, Nat.sub_diag by (unfold n; lia); reflexivity|]. split; [exact C'|]. apply P. reflexivity.
    - destruct (fresh_object c1 w whr lc U Mk) as (o' & E' & _ & C'). rewrite E'. cbn [fst]. exists o'.
      split; [rewrite nth_error_app2, Nat.sub_diag by (unfold n; lia); reflexivity|]. split; [exact C'|]. apply P. reflexivity. }
  destruct G as (o & G & Co & Pk).
  assert (R : orun v [] (h1 ++ a :: h2) = orun v (ostep v c1 a) h2) by (unfold orun, c1; rewrite fold_left_app; reflexivity).
  rewrite R. pose proof (orun_nth v h2 _ _ _ _ G) as Nn.
  exists n, (with_client (reassigned n (ob_client o) h2) o). split; [exact Nn|]. split.
  - assert (K : forall h c, position k (keys c) = Some n -> position k (keys (orun v c h)) = Some n).
    { assert (PA : forall l l', position k l = Some n -> position k (l ++ l') = Some n).
      { generalize n. clear. intros n l. revert n. induction l as [|x l IH]; intros n l' H; cbn [position app] in *; [discriminate|].
        destruct (key_eqb k x); [exact H|]. destruct (position k l) as [j|] eqn:E; [|discriminate]. rewrite (IH j l' eq_refl). exact H. }
      assert (GO : forall c w whr d, position k (keys c) = Some n -> position k (keys (fst (get_object c w whr d))) = Some n).
      { intros c w whr d H. unfold get_object. destruct (position (w, whr) _); [exact H|]. destruct (item_types w) as [f|]; [|exact H].
        destruct (make f d whr); [|exact H]. cbn [fst]. unfold keys. rewrite map_app. apply PA, H. }
      induction h as [|b h IH]; intros c H; [exact H|]. cbn [orun fold_left]. apply IH. destruct b as [w whr d|lc r m|j d]; cbn [ostep].
      - apply GO, H.
      - rewrite handle_cache. destruct (msg_who m); [|exact H]. destruct (msg_where m); [|exact H]. apply GO, H.
      - rewrite keys_assign. exact H. }
    apply K, Pk.
  - split; [cbn [with_client ob_client]; rewrite Co; reflexivity|].
    pose proof (orun_fits v (h1 ++ a :: h2) [] ltac:(constructor)) as F. rewrite R in F. apply nth_error_In in Nn.
    rewrite Forall_forall in F. exact (F _ Nn).
Qed.

(** ** Sending *)

Lemma commanding_sends {Y} it m b s : commanding (it_client it) -> msg_bytes m = Ok b ->
  item_send (Y:=Y) it m s = ([Sent b], s, Ok tt).
Proof.
  intros [K P] E. unfold item_send, client_send. replace (is_cmd_session (it_client it)) with true by (unfold is_cmd_session; destruct K as [-> | ->]; reflexivity).
  rewrite P. cbn [negb andb]. rewrite E. reflexivity.
Qed.

Lemma event_refuses {Y} it m s : cl_session (it_client it) = Event -> item_send (Y:=Y) it m s = ([], s, Err InvalidSession).
Proof. intros K. unfold item_send, client_send, is_cmd_session. rewrite K. reflexivity. Qed.

Theorem all_commanding v clients h :
  (forall a k cl, In a h -> names a k cl -> commanding (clients cl)) ->
  (forall n cl, In (OAssign n cl) h -> commanding (clients cl)) ->
  forall k o, In (k, o) (orun v [] h) -> commanding (clients (ob_client o)).
Proof.
  intros N1 A1.
  assert (G : forall h c, (forall a k cl, In a h -> names a k cl -> commanding (clients cl)) ->
                (forall n cl, In (OAssign n cl) h -> commanding (clients cl)) ->
                Forall (fun e => commanding (clients (ob_client (snd e)))) c ->
                Forall (fun e => commanding (clients (ob_client (snd e)))) (orun v c h)).
  { clear. induction h as [|a h IH]; intros c N1 A1 F; [exact F|]. cbn [orun fold_left]. apply IH.
    - intros b k cl Hb. apply (N1 b). right. exact Hb.
    - intros n cl Hb. apply (A1 n). right. exact Hb.
    - assert (GO : forall w whr cl, commanding (clients cl) -> Forall (fun e => commanding (clients (ob_client (snd e)))) (fst (get_object c w whr cl))).
      { intros w whr cl H. unfold get_object. destruct (position _ _); [exact F|]. destruct (item_types w) as [f|] eqn:Fw; [|exact F].
        destruct (make f cl whr) as [o|] eqn:M; [|exact F]. cbn [fst]. apply Forall_app. split; [exact F|]. constructor; [|constructor].
        cbn [snd]. rewrite (proj2 (make_fits f w whr cl o Fw M)). exact H. }
      destruct a as [w whr cl|lc r m|n cl]; cbn [ostep].
      + apply GO. apply (N1 (OLookup w whr cl) (w, whr)); [left; reflexivity|constructor].
      + rewrite handle_cache. destruct (msg_who m) as [w|] eqn:W; [|exact F]. destruct (msg_where m) as [whr|] eqn:Wh; [|exact F].
        apply GO. apply (N1 (OEvent lc r m) (w, whr)); [left; reflexivity|constructor; assumption].
      + apply Forall_forall. intros e He. apply In_nth_error in He as [i Hi].
        destruct (Nat.eq_dec i n) as [->|Ni].
        * unfold assign in Hi. destruct (nth_error c n) as [[k o]|] eqn:E; [|congruence].
          rewrite setnth_same in Hi by (apply nth_error_Some; congruence). injection Hi as <-. cbn [snd with_client ob_client].
          apply (A1 n). left. reflexivity.
        * rewrite assign_other in Hi by auto. apply nth_error_In in Hi. rewrite Forall_forall in F. exact (F _ Hi). }
  intros k o H. pose proof (G h [] N1 A1 ltac:(constructor)) as F. rewrite Forall_forall in F. exact (F _ H).
Qed.

(** ** The items given to callbacks *)

Lemma create_item fs n args t : In t (fst (create_tasks fs (VItem n :: args))) -> exists id, t = (id, VItem n :: args).
Proof.
  induction fs as [|f fs IH]; cbn [create_tasks]; [intros []|]. destruct (cb_takes f _); [|intros []].
  destruct (create_tasks fs (VItem n :: args)) as [ts r]. cbn [fst]. intros [<-|H]; [eexists; reflexivity|]. apply IH, H.
Qed.

Lemma dispatch_item v r cs n m t : In t (dispatch v r cs n m) -> exists id args, t = (id, VItem n :: args).
Proof.
  induction cs as [|c cs IH]; cbn [dispatch]; [intros []|].
  destruct (item_who v c); [|exact IH]. destruct (msg_who m); [|exact IH]. destruct (who_eqb _ _); [|exact IH].
  unfold call_callbacks. destruct (class_call c m) as [[[k args]|]|e].
  - destruct (create_tasks (r k) (VItem n :: args)) as [ts x] eqn:E. intros H. apply in_app_or in H as [H|H].
    + pose proof (create_item (r k) n args t) as C. rewrite E in C. destruct (C H) as [id ->]. eauto.
    + destruct x; [destruct H|apply IH, H].
  - cbn. intros [].
  - cbn [app]. exact IH.
Qed.

Theorem given v h lc r m c' ts x : handle_obj v r lc (orun v [] h) m = (c', ts, x) ->
  forall t, In t ts -> exists id n args w whr o, t = (id, VItem n :: args) /\
    msg_who m = Some w /\ msg_where m = Some whr /\ nth_error c' n = Some ((w, whr), o) /\ fits ((w, whr), o).
Proof.
  intros H t Ht.
  assert (F : Forall fits c').
  { pose proof (orun_fits v (h ++ [OEvent lc r m]) [] ltac:(constructor)) as F. unfold orun in F. rewrite fold_left_app in F.
    cbn [fold_left ostep] in F. fold (orun v [] h) in F. rewrite H in F. exact F. }
  set (c := orun v [] h) in *. clearbody c.
  assert (K : exists w whr, msg_who m = Some w /\ msg_where m = Some whr /\ exists n, get_object c w whr lc = (c', Ok n) /\ In t (dispatch v r subclasses n m)).
  { unfold handle_obj in H. destruct (msg_type m); try (injection H as _ <- _; destruct Ht);
      (destruct (msg_who m) as [w|]; [|injection H as _ <- _; destruct Ht]; destruct (msg_where m) as [whr|]; [|injection H as _ <- _; destruct Ht];
       exists w, whr; split; [reflexivity|]; split; [reflexivity|]; destruct (get_object c w whr lc) as [c2 [n|e]];
       [injection H as -> <- _; exists n; auto|destruct e; injection H as _ <- _; destruct Ht]). }
  destruct K as (w & whr & W & Wh & n & G & D). destruct (dispatch_item _ _ _ _ _ _ D) as (id & args & ->).
  assert (Nn : exists o, nth_error c' n = Some ((w, whr), o)).
  { unfold get_object in G. destruct (position (w, whr) (keys c)) as [j|] eqn:P.
    - injection G as <- <-. apply position_some in P. unfold keys in P. rewrite nth_error_map in P.
      destruct (nth_error c j) as [[k o]|]; [|discriminate]. cbn in P. injection P as ->. eauto.
    - destruct (item_types w) as [f|]; [|discriminate]. destruct (make f lc whr) as [o|]; [|discriminate]. injection G as <- <-.
      exists o. rewrite nth_error_app2, Nat.sub_diag by lia. reflexivity. }
  destruct Nn as [o Nn]. exists id, n, args, w, whr, o. repeat split; auto.
  - rewrite Forall_forall in F. exact (proj1 (F _ (nth_error_In _ _ Nn))).
  - rewrite Forall_forall in F. exact (proj2 (F _ (nth_error_In _ _ Nn))).
Qed.

(** The class of the item given for an event, against the classes that offer
    the registration. *)
Lemma reports_offer m k args w f : reports m k args -> msg_who m = Some w -> item_types w = Some f ->
  offers (pyclass_of f) k \/ exists e, k = K_light e /\ f = F_Light /\ In e [LUMINOSITY_CHANGE; HSV_CHANGE; WHITE_TEMP_CHANGE].
Proof.
  intros R W F. destruct R; cbn [msg_who] in W; injection W as <-; cbn in F; injection F as <-; cbn [pyclass_of].
  - left. constructor. left. reflexivity.
  - destruct H; [left; constructor; right; left; reflexivity|right; eexists; repeat split; cbn; auto..].
  - left. constructor.
  - left. constructor.
  - left. constructor.
  - left. constructor. destruct H as [d v more f H|?|?|?]; cbn; [|tauto..]. destruct H as [<-|[<-|[<-|[<-|[]]]]]; tauto.
Qed.

Theorem dimmer_gets_light v h lc r m c' ts x e args :
  handle_obj v r lc (orun v [] h) m = (c', ts, x) -> In e [LUMINOSITY_CHANGE; HSV_CHANGE; WHITE_TEMP_CHANGE] ->
  v < 13 -> built m -> reports m (K_light e) args -> (forall f, In f (r (K_light e)) -> cb_takes f (S (length args)) = true) ->
  exists n k o, ts = map (fun f => (cb_id f, VItem n :: args)) (r (K_light e)) /\ nth_error c' n = Some (k, o) /\
    pyclass_of (ob_class o) = PLight.
Proof.
  intros H He Hv B R T.
  assert (W : msg_who m = Some LIGHTING) by (inversion R; reflexivity).
  assert (Wh : exists whr, msg_where m = Some whr) by (inversion R; subst; eexists; reflexivity). destruct Wh as [whr Wh].
  assert (F : Forall fits c').
  { pose proof (orun_fits v (h ++ [OEvent lc r m]) [] ltac:(constructor)) as F. unfold orun in F. rewrite fold_left_app in F.
    cbn [fold_left ostep] in F. fold (orun v [] h) in F. rewrite H in F. exact F. }
  set (c := orun v [] h) in *. clearbody c.
  assert (G : exists n, get_object c LIGHTING whr lc = (c', Ok n) /\ ts = dispatch v r subclasses n m).
  { assert (K : handle_obj v r lc c m = match get_object c LIGHTING whr lc with
                | (c', Ok n) => (c', dispatch v r subclasses n m, None) | (c', Err KeyError) => (c', [], None) | (c', Err e) => (c', [], Some e) end).
    { unfold handle_obj. rewrite W, Wh. inversion R; subst; reflexivity. }
    rewrite K in H. unfold get_object in *. destruct (position (LIGHTING, whr) (keys c)) as [j|].
    - injection H as -> <- _. eauto.
    - cbn [item_types make construct bind] in *. injection H as <- <- _. eauto. }
  destruct G as (n & G & ->).
  assert (Nn : exists o, nth_error c' n = Some ((LIGHTING, whr), o)).
  { unfold get_object in G. destruct (position (LIGHTING, whr) (keys c)) as [j|] eqn:P.
    - injection G as <- <-. apply position_some in P. unfold keys in P. rewrite nth_error_map in P.
      destruct (nth_error c j) as [[k o]|]; [|discriminate]. cbn in P. injection P as ->. eauto.
    - cbn [item_types make construct bind] in G. injection G as <- <-. eexists. rewrite nth_error_app2, Nat.sub_diag by lia. reflexivity. }
  destruct Nn as [o Nn]. exists n, (LIGHTING, whr), o. split; [|split; [exact Nn|]].
  - rewrite (dispatch_class r n m LIGHTING C_Light W eq_refl v Hv). unfold call_callbacks.
    rewrite (proj2 (reports_iff C_Light m (K_light e) args B W ltac:(discriminate)) R).
    eapply calls_unique; [apply calls_create|]. apply calls_all. exact T.
  - rewrite Forall_forall in F. destruct (F _ (nth_error_In _ _ Nn)) as [F1 _]. cbn in F1. injection F1 as <-. reflexivity.
Qed.

Lemma fits_class w whr o : fits ((w, whr), o) ->
  class_for w (pyclass_of (ob_class o)) /\ (w = GATEWAY -> ob_where o = []) /\ (w <> GATEWAY -> ob_where o = whr).
Proof.
  intros [F G]. cbn [fst snd] in *. destruct w; cbn in F; try discriminate; injection F as <-; (split; [constructor|]);
    split; intros H; try discriminate; try exact G; congruence.
Qed.

Theorem given_item v h lc r m c' ts x : handle_obj v r lc (orun v [] h) m = (c', ts, x) ->
  forall t, In t ts -> exists id n args w whr o, t = (id, VItem n :: args) /\
    msg_who m = Some w /\ msg_where m = Some whr /\ nth_error c' n = Some ((w, whr), o) /\
    class_for w (pyclass_of (ob_class o)) /\ (w = GATEWAY -> ob_where o = []) /\ (w <> GATEWAY -> ob_where o = whr).
Proof.
  intros H t Ht. destruct (given v h lc r m c' ts x H t Ht) as (id & n & args & w & whr & o & E & W & Wh & Nn & F).
  exists id, n, args, w, whr, o. pose proof (fits_class w whr o F). tauto.
Qed.

Theorem class_offers m k args w C : reports m k args -> msg_who m = Some w -> class_for w C ->
  offers C k \/ exists e, k = K_light e /\ C = PLight /\ In e [LUMINOSITY_CHANGE; HSV_CHANGE; WHITE_TEMP_CHANGE].
Proof.
  intros R W F. destruct F.
  - destruct (reports_offer m k args LIGHTING F_Light R W eq_refl) as [H|(e & E & _ & I)]; eauto.
  - destruct (reports_offer m k args AUTOMATION F_Automation R W eq_refl) as [H|(e & _ & E & _)]; [eauto|discriminate].
  - destruct (reports_offer m k args GATEWAY F_Gateway R W eq_refl) as [H|(e & _ & E & _)]; [eauto|discriminate].
  - destruct (reports_offer m k args ENERGY_MANAGEMENT F_Energy R W eq_refl) as [H|(e & _ & E & _)]; [eauto|discriminate].
Qed.

Theorem owner_class v h1 a h2 w whr cl :
  names a (w, whr) cl -> makeable (w, whr) -> (forall b cl', In b h1 -> ~ names b (w, whr) cl') ->
  exists n o, nth_error (orun v [] (h1 ++ a :: h2)) n = Some ((w, whr), o) /\
    (forall cl', get_object (orun v [] (h1 ++ a :: h2)) w whr cl' = (orun v [] (h1 ++ a :: h2), Ok n)) /\
    ob_client o = reassigned n cl h2 /\
    class_for w (pyclass_of (ob_class o)) /\ (w = GATEWAY -> ob_where o = []) /\ (w <> GATEWAY -> ob_where o = whr).
Proof.
  intros Na Mk N1. destruct (owner v h1 a h2 (w, whr) cl Na Mk N1) as (n & o & Nn & P & C & F).
  exists n, o. split; [exact Nn|]. split; [intros cl'; unfold get_object; rewrite P; reflexivity|]. split; [exact C|]. exact (fits_class w whr o F).
Qed.

(** The items of an event loop that was given a command client, when the same
    item was looked up before with the event client. *)
Theorem stolen v clients w whr ev cmd r m : makeable (w, whr) -> msg_who m = Some w -> msg_where m = Some whr ->
  cl_session (clients ev) = Event ->
  exists n o, nth_error (orun v [] [OLookup w whr ev; OEvent cmd r m]) n = Some ((w, whr), o) /\
    forall Y m' s, item_send (Y:=Y) (obj_item clients o) m' s = ([], s, Err InvalidSession).
Proof.
  intros Mk W Wh K.
  destruct (owner v [] (OLookup w whr ev) [OEvent cmd r m] (w, whr) ev (N_lookup w whr ev) Mk ltac:(intros ? ? [])) as (n & o & Nn & _ & C & _).
  exists n, o. split; [exact Nn|]. intros Y m' s. apply event_refuses. cbn [obj_item it_client]. rewrite C. exact K.
Qed.

Theorem all_can_send v clients h :
  (forall a k cl, In a h -> names a k cl -> commanding (clients cl)) ->
  (forall n cl, In (OAssign n cl) h -> commanding (clients cl)) ->
  forall k o, In (k, o) (orun v [] h) ->
  forall Y m b s, msg_bytes m = Ok b -> item_send (Y:=Y) (obj_item clients o) m s = ([Sent b], s, Ok tt).
Proof.
  intros A B k o H Y m b s E. apply commanding_sends; [|exact E]. exact (all_commanding v clients h A B k o H).
Qed.

Lemma obj_item_key v clients h w whr o : In ((w, whr), o) (orun v [] h) ->
  it_client (obj_item clients o) = clients (ob_client o) /\ it_who (obj_item clients o) = w /\ it_where (obj_item clients o) = key_where (w, whr).
Proof.
  intros H. pose proof (orun_fits v h [] (Forall_nil _)) as F. rewrite Forall_forall in F. destruct (F _ H) as [F1 F2]. cbn [fst snd] in *.
  split; [reflexivity|]. unfold obj_item, key_where. cbn [it_who it_where fst snd]. rewrite F2.
  split; [|reflexivity]. destruct w; cbn in F1; try discriminate; injection F1 as <-; reflexivity.
Qed.

Theorem object_frames v clients h w whr o : In ((w, whr), o) (orun v [] h) -> commanding (clients (ob_client o)) -> tagtext whr ->
  (forall Y what s, tagtext what -> @answered Y (frame_cmd w what (key_where (w, whr))) s (send_normal_message (obj_item clients o) what s)) /\
  (forall Y dim x xs s, tagtext dim -> Forall tagtext (x :: xs) ->
     @answered Y (frame_dimwri w (key_where (w, whr)) dim (x :: xs)) s (send_dimension_writing (obj_item clients o) dim (x :: xs) s)) /\
  (forall s, requested (frame_status w (key_where (w, whr))) normal s (send_status_request (obj_item clients o) as_is s)) /\
  (forall dim s, tagtext dim -> requested (frame_dimreq w (key_where (w, whr)) dim) dimres s (send_dimension_request (obj_item clients o) dim as_is s)).
Proof.
  intros H C T. destruct (obj_item_key v clients h w whr o H) as (E1 & E2 & E3).
  assert (R : ready (obj_item clients o)). { split; rewrite E1; [|exact (proj2 C)]. destruct C as [[C|C] _]; rewrite C; discriminate. }
  assert (P : placed (obj_item clients o)). { unfold placed. rewrite E3. unfold key_where. cbn [fst snd]. destruct w; try exact T. constructor. }
  split; [|split; [|split]]; intros; rewrite <- E3, <- E2.
  - apply command_answered; assumption.
  - apply writing_answered; assumption.
  - apply status_requested; assumption.
  - apply dimension_requested; assumption.
Qed.
