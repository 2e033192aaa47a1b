(** * Proofs about item classes of the application *)
From Coq Require Import String List NArith ZArith Bool Lia.
From Verif Require Import PyStr Tags Messages SpecMsg Protocol Queue IO Client Items Energy SpecEnergy
  Dispatch SpecDispatch DispatchThms DispatchThms2 Objects SpecObjects ObjectsThms ConcThms Custom SpecCustom.
Import ListNotations.
Open Scope N_scope.
Open Scope list_scope.

(** ** The dispatcher *)

Lemma xdispatch_app v r cs us a n m :
  exists extra, xdispatch v r (map inl cs ++ us) a n m = xdispatch v r (map inl cs) a n m ++ extra /\
    (extra = [] \/ extra = xdispatch v r us a n m) /\
    (forall c, In c cs -> v < 13 -> msg_who m = Some (class_who c) -> snd (built_calls r c a n m) = Ok tt -> extra = []) /\
    ((forall c, In c cs -> msg_who m = Some (class_who c) -> snd (built_calls r c a n m) <> Ok tt) -> extra = xdispatch v r us a n m).
Proof.
  induction cs as [|c cs (extra & E & D & K & L)]; cbn [map app xdispatch].
  - exists (xdispatch v r us a n m). split; [reflexivity|]. split; [auto|]. split; [intros c []|auto].
  - cbn [xwho xcalls]. unfold item_who. destruct (v <? 13) eqn:V.
    2:{ exists extra. split; [exact E|]. split; [exact D|]. split; [intros c' _ Hv; apply N.ltb_ge in V; lia|]. intros A. apply L. intros c' I. apply A. right. exact I. }
    destruct (msg_who m) as [w|] eqn:W.
    2:{ exists extra. split; [exact E|]. split; [exact D|]. split; [intros c' _ _ X; discriminate X|]. intros A. apply L. intros c' I. apply A. right. exact I. }
    destruct (who_eqb w (class_who c)) eqn:Q.
    + apply who_eqb_spec in Q. destruct (built_calls r c a n m) as [ts [[]|e]] eqn:B.
      * exists []. rewrite !app_nil_r. split; [reflexivity|]. split; [auto|]. split; [auto|]. intros A. exfalso. apply (A c); [left; reflexivity|congruence|rewrite B; reflexivity].
      * exists extra. rewrite E, app_assoc. split; [reflexivity|]. split; [exact D|]. split.
        -- intros c' [<-|I] Hv X O; [rewrite B in O; discriminate O|]. apply (K c' I Hv X O).
        -- intros A. apply L. intros c' I. apply A. right. exact I.
    + exists extra. split; [exact E|]. split; [exact D|]. split.
      * intros c' [<-|I] Hv X O; [|apply (K c' I Hv X O)]. injection X as ->. rewrite (proj2 (who_eqb_spec _ _) eq_refl) in Q. discriminate Q.
      * intros A. apply L. intros c' I. apply A. right. exact I.
Qed.

(** The library's class treats the item as one of its own. *)
Definition welcome (m : msg) (a : aclass) : Prop :=
  (msg_who m = Some GATEWAY -> isa a F_Gateway = true) /\ (msg_who m = Some ENERGY_MANAGEMENT -> isa a F_Energy = true).

Lemma welcome_calls r c a n m : welcome m a -> msg_who m = Some (class_who c) -> built_calls r c a n m = call_callbacks r c n m.
Proof. intros [G E] W. destruct c; cbn [built_calls]; try reflexivity; cbn [class_who] in W; [rewrite (E W)|rewrite (G W)]; reflexivity. Qed.

Lemma xdispatch_library v r a n m : welcome m a -> forall cs, xdispatch v r (map inl cs) a n m = dispatch v r cs n m.
Proof.
  intros H. induction cs as [|c cs IH]; [reflexivity|]. cbn [map xdispatch dispatch xwho xcalls].
  destruct (item_who v c) as [w|] eqn:I; [|exact IH]. destruct (msg_who m) as [w'|] eqn:W; [|exact IH].
  destruct (who_eqb w' w) eqn:Q; [|exact IH]. apply who_eqb_spec in Q. subst w'. unfold item_who in I. destruct (v <? 13); [|discriminate I]. injection I as <-.
  rewrite (welcome_calls r c a n m H W). destruct (call_callbacks r c n m) as [ts [u|e]]; [reflexivity|]. rewrite IH. reflexivity.
Qed.

(** ** ITEM_TYPES as it is *)

Definition same_types (x : world) : Prop := forall w, x_types x w = option_map built_maker (item_types w).
Definition native (x : world) : Prop :=
  forall k a w, In (k, (a, w)) (x_objs x) -> exists f, item_types (fst k) = Some f /\ a = A_built f.

Lemma xget_users x w whr : x_users (fst (xget x w whr)) = x_users x /\ x_types (fst (xget x w whr)) = x_types x.
Proof. unfold xget. destruct (position _ _); [auto|]. destruct (x_types x w) as [mk|]; [|auto]. destruct (mk_init mk whr); auto. Qed.

Lemma xhandle_world v r x m :
  fst (fst (xhandle v r x m)) = match msg_who m, msg_where m with Some w, Some whr => fst (xget x w whr) | _, _ => x end.
Proof.
  unfold xhandle. destruct m; cbn [msg_type msg_who msg_where]; try reflexivity;
    (destruct (xget x w whr) as [x' [n|[]]] || destruct (xget x _ _) as [x' [n|[]]]); try reflexivity;
    destruct (nth_error (x_objs x') n) as [[k [a w']]|]; reflexivity.
Qed.

Lemma xget_native x w whr : same_types x -> native x -> native (fst (xget x w whr)).
Proof.
  intros S N. unfold xget. destruct (position _ _); [exact N|]. rewrite S. destruct (item_types w) as [f|] eqn:F; [|exact N]. cbn [option_map].
  destruct (mk_init (built_maker f) whr) as [whr'|e]; [|exact N]. intros k a w' I. cbn [x_objs fst] in I. apply in_app_or in I as [I|[I|[]]]; [apply (N _ _ _ I)|].
  injection I as <- <- <-. exists f. auto.
Qed.

Lemma xget_plain x c w whr : same_types x -> xkeys x = keys c ->
  xkeys (fst (xget x w whr)) = keys (fst (get_object c w whr 0)) /\ snd (xget x w whr) = snd (get_object c w whr 0).
Proof.
  intros S K. unfold xget, get_object. rewrite K. destruct (position _ _); [auto|]. rewrite S. destruct (item_types w) as [f|]; [|auto]. cbn [option_map].
  unfold built_maker, make. cbn [mk_init mk_class]. destruct (construct f whr) as [u|e]; cbn [bind fst snd]; [|auto].
  split; [unfold xkeys, keys in *; cbn [x_objs]; rewrite !map_app, K; reflexivity|]. f_equal. rewrite <- (map_length fst (x_objs x)), <- (map_length fst c). unfold xkeys, keys in K. rewrite K. reflexivity.
Qed.

Lemma xrun_native v h : keeps_types h ->
  forall x c, same_types x -> native x -> xkeys x = keys c ->
  let x' := xrun v x h in same_types x' /\ native x' /\ xkeys x' = keys (orun v c (plain h)).
Proof.
  induction h as [|a h IH]; intros KT x c S N K; [auto|].
  assert (KT' : keeps_types h) by (intros w mk I; apply (KT w mk); right; exact I).
  assert (Get : forall w whr, let x' := fst (xget x w whr) in same_types x' /\ native x' /\ xkeys x' = keys (fst (get_object c w whr 0))).
  { intros w whr. destruct (xget_users x w whr) as [_ T]. split; [intros w'; rewrite T; apply S|]. split; [apply xget_native; assumption|]. apply (xget_plain x c w whr S K). }
  destruct a as [u|w mk|w whr|r m]; cbn [plain].
  - apply (IH KT' (xstep v x (XDefine u)) c); [exact S|exact N|exact K].
  - exfalso. apply (KT w mk). left. reflexivity.
  - destruct (Get w whr) as (S' & N' & K'). apply (IH KT' (fst (xget x w whr)) (fst (get_object c w whr 0)) S' N' K').
  - cbn zeta. change (xrun v x (XEvent r m :: h)) with (xrun v (fst (fst (xhandle v r x m))) h).
    change (orun v c (OEvent 0 r m :: plain h)) with (orun v (fst (fst (handle_obj v r 0 c m))) (plain h)).
    rewrite xhandle_world, handle_cache.
    destruct (msg_who m) as [w|]; [|apply (IH KT' x c S N K)]. destruct (msg_where m) as [whr|]; [|apply (IH KT' x c S N K)].
    destruct (Get w whr) as (S' & N' & K'). apply (IH KT' _ _ S' N' K').
Qed.

Lemma xrun_fresh v h : keeps_types h ->
  same_types (xrun v fresh h) /\ native (xrun v fresh h) /\ xkeys (xrun v fresh h) = keys (orun v [] (plain h)).
Proof. intros K. apply (xrun_native v h K fresh []); [intros w; reflexivity|intros k a w []|reflexivity]. Qed.

Lemma xget_nth x w whr x' n : xget x w whr = (x', Ok n) -> exists e, nth_error (x_objs x') n = Some ((w, whr), e).
Proof.
  unfold xget. destruct (position (w, whr) (xkeys x)) as [p|] eqn:P.
  - intros E. injection E as <- <-. apply position_some in P. unfold xkeys in P. rewrite nth_error_map in P.
    destruct (nth_error (x_objs x) p) as [[k e]|]; [|discriminate P]. injection P as ->. eauto.
  - destruct (x_types x w) as [mk|]; [|discriminate]. destruct (mk_init mk whr) as [whr'|e]; [|discriminate]. intros E. injection E as <- <-. cbn [x_objs].
    rewrite nth_error_app2, Nat.sub_diag by lia. cbn. eauto.
Qed.

(** ** Handling one event *)

Lemma create_all args : forall fs, (forall f, In f fs -> cb_takes f (length args) = true) -> create_tasks fs args = (map (fun f => (cb_id f, args)) fs, Ok tt).
Proof.
  induction fs as [|f fs IH]; intros H; [reflexivity|]. cbn [create_tasks map]. rewrite (H f (or_introl eq_refl)), (IH (fun g I => H g (or_intror I))). reflexivity.
Qed.


Lemma class_of_who w f : item_types w = Some f -> exists c, class_who c = w /\ c <> C_Camera.
Proof.
  intros H. destruct w; try discriminate H; [exists C_Light|exists C_Automation|exists C_Gateway|exists C_Energy]; split; try reflexivity; discriminate.
Qed.

Lemma user_tasks v r a n m t : forall us, In t (xdispatch v r (map inr us) a n m) ->
  exists u, In u us /\ msg_who m = Some (u_who u) /\ In t (fst (u_calls u n m)).
Proof.
  induction us as [|u us IH]; [intros []|]. cbn [map xdispatch xwho xcalls].
  assert (R : In t (xdispatch v r (map inr us) a n m) -> exists u0, In u0 (u :: us) /\ msg_who m = Some (u_who u0) /\ In t (fst (u_calls u0 n m))).
  { intros H. destruct (IH H) as (u0 & I & J). exists u0. split; [right; exact I|exact J]. }
  destruct (v <? 13); [|exact R]. destruct (msg_who m) as [w|] eqn:W; [|exact R]. destruct (who_eqb w (u_who u)) eqn:Q; [|exact R].
  apply who_eqb_spec in Q. destruct (u_calls u n m) as [ts x] eqn:U. intros H. apply in_app_or in H as [H|H].
  - exists u. rewrite U. split; [left; reflexivity|]. split; [congruence|exact H].
  - destruct x; [destruct H|exact (R H)].
Qed.

Lemma xrun_users v h : forall x, x_users (xrun v x h) = x_users x ++ flat_map (fun a => match a with XDefine u => [u] | _ => [] end) h.
Proof.
  induction h as [|a h IH]; intros x; [symmetry; apply app_nil_r|]. change (xrun v x (a :: h)) with (xrun v (xstep v x a) h). rewrite IH. cbn [flat_map].
  destruct a as [u|w mk|w whr|r m]; cbn [xstep x_users app].
  - rewrite <- app_assoc. reflexivity.
  - reflexivity.
  - rewrite (proj1 (xget_users x w whr)). reflexivity.
  - rewrite xhandle_world. destruct (msg_who m); [|reflexivity]. destruct (msg_where m); [|reflexivity]. rewrite (proj1 (xget_users x _ _)). reflexivity.
Qed.
Lemma users_defined v h u : In u (x_users (xrun v fresh h)) <-> In (XDefine u) h.
Proof.
  rewrite xrun_users. cbn [fresh x_users app]. rewrite in_flat_map. split.
  - intros ([u'|w mk|w whr|r m] & I & J); cbn in J; try contradiction. destruct J as [->|[]]. exact I.
  - intros I. exists (XDefine u). split; [exact I|left; reflexivity].
Qed.

Lemma xhandle_users v r x m : x_users (fst (fst (xhandle v r x m))) = x_users x.
Proof. rewrite xhandle_world. destruct (msg_who m); [|reflexivity]. destruct (msg_where m); [|reflexivity]. apply xget_users. Qed.

Theorem same_events v r h m x' ts e : keeps_types h -> xhandle v r (xrun v fresh h) m = (x', ts, e) ->
  exists c' ts0 extra, handle_obj v r 0 (orun v [] (plain h)) m = (c', ts0, e) /\ xkeys x' = map fst c' /\ ts = ts0 ++ extra /\
    (forall k args, built m -> v < 13 -> reports m k args -> suits r k args -> extra = []) /\
    (forall t, In t extra -> exists u n, In (XDefine u) h /\ msg_who m = Some (u_who u) /\ In t (fst (u_calls u n m))).
Proof.
  intros KT H. destruct (xrun_fresh v h KT) as (S & N & K).
  pose proof (xget_plain (xrun v fresh h) (orun v [] (plain h))) as G.
  pose proof (users_defined v h) as Us. pose proof (xhandle_users v r (xrun v fresh h) m) as Hu. rewrite H in Hu. cbn [fst] in Hu.
  set (x := xrun v fresh h) in *. set (c := orun v [] (plain h)) in *. clearbody x c. unfold xhandle in H. unfold handle_obj.
  assert (Z : (x, [], None) = (x', ts, e) -> exists c' ts0 extra, (c, [], None) = (c', ts0, e) /\ xkeys x' = map fst c' /\ ts = ts0 ++ extra /\
    (forall k args, built m -> v < 13 -> reports m k args -> suits r k args -> extra = []) /\
    (forall t, In t extra -> exists u n, In (XDefine u) h /\ msg_who m = Some (u_who u) /\ In t (fst (u_calls u n m)))).
  { intros E. injection E as <- <- <-. exists c, [], []. split; [reflexivity|]. split; [exact K|]. split; [reflexivity|]. split; [auto|]. intros t []. }
  assert (W : forall w whr, msg_who m = Some w -> match xget x w whr with
       | (x', Ok n) => match nth_error (x_objs x') n with Some (_, (a, _)) => (x', xdispatch v r (all_classes x') a n m, None) | None => (x', [], None) end
       | (x', Err KeyError) => (x', [], None)
       | (x', Err e) => (x', [], Some e) end = (x', ts, e) ->
    exists c' ts0 extra, match get_object c w whr 0 with
          | (c', Ok n) => (c', dispatch v r subclasses n m, None)
          | (c', Err KeyError) => (c', [], None)
          | (c', Err e) => (c', [], Some e)
          end = (c', ts0, e) /\ xkeys x' = map fst c' /\ ts = ts0 ++ extra /\
    (forall k args, built m -> v < 13 -> reports m k args -> suits r k args -> extra = []) /\
    (forall t, In t extra -> exists u n, In (XDefine u) h /\ msg_who m = Some (u_who u) /\ In t (fst (u_calls u n m)))).
  { intros w whr Hw E. destruct (G w whr S K) as [G1 G2]. pose proof (xget_native x w whr S N) as N'. pose proof (xget_nth x w whr) as Nt.
    destruct (xget x w whr) as [y o]. destruct (get_object c w whr 0) as [d o']. cbn [fst snd] in G1, G2, N'. subst o'. destruct o as [n|ex].
    - destruct (Nt y n eq_refl) as [[a wh] En]. rewrite En in E. injection E as <- <- <-.
      destruct (N' _ _ _ (nth_error_In _ _ En)) as (f & Hf & ->). cbn [fst] in Hf.
      assert (Wel : welcome m (A_built f)). { split; intros X; rewrite Hw in X; injection X as ->; cbn in Hf; injection Hf as <-; reflexivity. }
      destruct (xdispatch_app v r subclasses (map inr (x_users y)) (A_built f) n m) as (extra & X1 & X2 & X3 & _). fold (all_classes y) in X1.
      rewrite (xdispatch_library v r (A_built f) n m Wel) in X1. exists d, (dispatch v r subclasses n m), extra. split; [reflexivity|]. split; [exact G1|]. split; [exact X1|]. split.
      + intros k args Bm Hv Rp Su. destruct (class_of_who w f Hf) as (c0 & Hc & Nc). apply (X3 c0).
        * destruct c0; cbn; auto 10.
        * exact Hv.
        * congruence.
        * rewrite (welcome_calls r c0 (A_built f) n m Wel) by congruence. unfold call_callbacks.
          rewrite (proj2 (reports_iff c0 m k args Bm ltac:(congruence) Nc) Rp). rewrite create_all by exact Su. reflexivity.
      + intros t It. destruct X2 as [->|X2]; [destruct It|]. rewrite X2 in It. destruct (user_tasks _ _ _ _ _ _ _ It) as (u & Iu & Ju & Ku).
        exists u, n. split; [apply Us; rewrite <- Hu; exact Iu|]. split; [congruence|exact Ku].
    - assert (Q : forall ts0 e0, (y, [], e0) = (x', ts, e) -> ts0 = (@nil task) -> exists c' ts1 extra, (d, ts0, e0) = (c', ts1, e) /\ xkeys x' = map fst c' /\ ts = ts1 ++ extra /\
        (forall k args, built m -> v < 13 -> reports m k args -> suits r k args -> extra = []) /\
        (forall t, In t extra -> exists u n, In (XDefine u) h /\ msg_who m = Some (u_who u) /\ In t (fst (u_calls u n m)))).
      { intros ts0 e0 E0 ->. injection E0 as <- <- <-. exists d, [], []. split; [reflexivity|]. split; [exact G1|]. split; [reflexivity|]. split; [auto|]. intros t []. }
      destruct ex; apply Q; auto. }
  destruct (msg_type m); try (apply Z; exact H).
  all: destruct (msg_who m) as [w|]; [|apply Z; exact H]; destruct (msg_where m) as [whr|]; [|apply Z; exact H].
  all: apply (W w whr eq_refl H).
Qed.

(** ** A WHO that is not in ITEM_TYPES *)

Lemma xget_other x w whr w' : w <> w' -> (forall k e, In (k, e) (x_objs x) -> fst k <> w') ->
  forall k e, In (k, e) (x_objs (fst (xget x w whr))) -> fst k <> w'.
Proof.
  intros D H. unfold xget. destruct (position _ _); [exact H|]. destruct (x_types x w) as [mk|]; [|exact H]. destruct (mk_init mk whr); [|exact H].
  cbn [fst x_objs]. intros k e I. apply in_app_or in I as [I|[I|[]]]; [apply (H _ _ I)|]. injection I as <- _. exact D.
Qed.
Lemma xget_absent x w whr : x_types x w = None -> (forall k e, In (k, e) (x_objs x) -> fst k <> w) -> xget x w whr = (x, Err KeyError).
Proof.
  intros T H. unfold xget. destruct (position (w, whr) (xkeys x)) as [n|] eqn:P; [|rewrite T; reflexivity]. apply position_some in P. unfold xkeys in P. rewrite nth_error_map in P.
  destruct (nth_error (x_objs x) n) as [[k e]|] eqn:E; [|discriminate P]. injection P as ->. destruct (H _ _ (nth_error_In _ _ E)). reflexivity.
Qed.

(** Steps that do not touch the WHO, or cannot since it is not in ITEM_TYPES. *)
Lemma xstep_types v x a w : (forall mk, a <> XType w mk) -> x_types (xstep v x a) w = x_types x w.
Proof.
  intros H. destruct a as [u|w' mk|w' whr|r m]; cbn [xstep x_types]; [reflexivity| | |].
  - destruct (who_eqb w' w) eqn:Q; [|reflexivity]. apply who_eqb_spec in Q. subst w'. destruct (H mk). reflexivity.
  - rewrite (proj2 (xget_users x w' whr)). reflexivity.
  - rewrite xhandle_world. destruct (msg_who m); [|reflexivity]. destruct (msg_where m); [|reflexivity]. rewrite (proj2 (xget_users x _ _)). reflexivity.
Qed.
Lemma xstep_absent v x a w : (x_types x w = None \/ ~ asks_for a w) -> (forall k e, In (k, e) (x_objs x) -> fst k <> w) ->
  forall k e, In (k, e) (x_objs (xstep v x a)) -> fst k <> w.
Proof.
  intros T H. assert (Get : forall w' whr, (w' = w -> x_types x w = None) -> forall k e, In (k, e) (x_objs (fst (xget x w' whr))) -> fst k <> w).
  { intros w' whr Q. destruct (who_eqb w' w) eqn:E.
    - apply who_eqb_spec in E. subst w'. rewrite (xget_absent x w whr (Q eq_refl) H). exact H.
    - apply xget_other; [|exact H]. intros ->. rewrite (proj2 (who_eqb_spec w w) eq_refl) in E. discriminate E. }
  destruct a as [u|w' mk|w' whr|r m]; cbn [xstep x_objs]; try exact H.
  - apply Get. intros ->. destruct T as [T|T]; [exact T|]. destruct T. left. eauto.
  - rewrite xhandle_world. destruct (msg_who m) as [w'|] eqn:W; [|exact H]. destruct (msg_where m) as [whr|]; [|exact H]. apply Get. intros ->.
    destruct T as [T|T]; [exact T|]. destruct T. right. eauto.
Qed.

Lemma xrun_unlisted v w h : (forall mk, ~ In (XType w mk) h) -> forall x, x_types x w = None -> (forall k e, In (k, e) (x_objs x) -> fst k <> w) ->
  x_types (xrun v x h) w = None /\ forall k e, In (k, e) (x_objs (xrun v x h)) -> fst k <> w.
Proof.
  induction h as [|a h IH]; intros NT x T O; [auto|]. change (xrun v x (a :: h)) with (xrun v (xstep v x a) h). apply IH.
  - intros mk I. apply (NT mk). right. exact I.
  - rewrite xstep_types; [exact T|]. intros mk ->. apply (NT mk). left. reflexivity.
  - apply xstep_absent; auto.
Qed.

Theorem unlisted v r h m w : (forall mk, ~ In (XType w mk) h) -> ~ supported w -> msg_who m = Some w ->
  xhandle v r (xrun v fresh h) m = (xrun v fresh h, [], None).
Proof.
  intros NT NS W. assert (T : x_types fresh w = None) by (destruct w; try reflexivity; exfalso; apply NS; cbn; auto 10).
  destruct (xrun_unlisted v w h NT fresh T ltac:(intros k e [])) as [T' O']. unfold xhandle. rewrite W.
  destruct (msg_type m), (msg_where m) as [whr|]; try reflexivity; rewrite (xget_absent _ w whr T' O'); reflexivity.
Qed.

(** ** A WHO that the application has put into ITEM_TYPES *)

Definition made_by (mk : maker) (w : who) (x : world) : Prop :=
  forall k a wh, In (k, (a, wh)) (x_objs x) -> fst k = w -> a = mk_class mk /\ mk_init mk (snd k) = Ok wh.

Lemma xget_made mk w x w' whr : x_types x w = Some mk -> made_by mk w x -> made_by mk w (fst (xget x w' whr)).
Proof.
  intros T M. unfold xget. destruct (position _ _); [exact M|]. destruct (x_types x w') as [mk'|] eqn:T'; [|exact M]. destruct (mk_init mk' whr) as [wh'|] eqn:I; [|exact M].
  intros k a wh J E. cbn [fst x_objs] in J. apply in_app_or in J as [J|[J|[]]]; [apply (M _ _ _ J E)|]. injection J as <- <- <-. cbn [fst snd] in *. subst w'.
  rewrite T in T'. injection T' as <-. auto.
Qed.

Lemma xrun_made v mk w h : (forall mk', ~ In (XType w mk') h) -> forall x, x_types x w = Some mk -> made_by mk w x ->
  x_types (xrun v x h) w = Some mk /\ made_by mk w (xrun v x h).
Proof.
  induction h as [|a h IH]; intros NT x T M; [auto|]. change (xrun v x (a :: h)) with (xrun v (xstep v x a) h). apply IH.
  - intros mk' I. apply (NT mk'). right. exact I.
  - rewrite xstep_types; [exact T|]. intros mk' ->. apply (NT mk'). left. reflexivity.
  - destruct a as [u|w' mk'|w' whr|r m]; cbn [xstep].
    + exact M.
    + exact M.
    + apply xget_made; assumption.
    + rewrite xhandle_world. destruct (msg_who m) as [w'|]; [|exact M]. destruct (msg_where m) as [whr|]; [|exact M]. apply xget_made; assumption.
Qed.

Lemma xrun_none v w h : (forall a, In a h -> ~ asks_for a w) -> forall x, (forall k e, In (k, e) (x_objs x) -> fst k <> w) ->
  forall k e, In (k, e) (x_objs (xrun v x h)) -> fst k <> w.
Proof.
  induction h as [|a h IH]; intros NA x O; [exact O|]. change (xrun v x (a :: h)) with (xrun v (xstep v x a) h). apply IH.
  - intros b I. apply NA. right. exact I.
  - apply xstep_absent; [|exact O]. right. apply NA. left. reflexivity.
Qed.

Lemma listed_state v h w mk : listed h w mk -> x_types (xrun v fresh h) w = Some mk /\ made_by mk w (xrun v fresh h).
Proof.
  intros (h1 & h2 & -> & NA & NT). unfold xrun. rewrite fold_left_app. fold (xrun v fresh h1). cbn [fold_left].
  apply (xrun_made v mk w h2 NT).
  - cbn [xstep x_types]. rewrite (proj2 (who_eqb_spec w w) eq_refl). reflexivity.
  - intros k a wh I E. cbn [xstep x_objs] in I. destruct (xrun_none v w h1 NA fresh ltac:(intros ? ? []) _ _ I E).
Qed.

Lemma listed_item v h w mk whr wh : listed h w mk -> mk_init mk whr = Ok wh ->
  exists x' n, xget (xrun v fresh h) w whr = (x', Ok n) /\ nth_error (x_objs x') n = Some ((w, whr), (mk_class mk, wh)) /\ x_users x' = x_users (xrun v fresh h).
Proof.
  intros L I. destruct (listed_state v h w mk L) as [T M]. set (x := xrun v fresh h) in *. clearbody x.
  pose proof (xget_nth x w whr) as Nt. pose proof (xget_made mk w x w whr T M) as M'. pose proof (proj1 (xget_users x w whr)) as U.
  assert (O : exists n, snd (xget x w whr) = Ok n). { unfold xget. destruct (position _ _) as [n|]; [exists n; reflexivity|]. rewrite T, I. cbn [snd]. eauto. }
  destruct O as [n O]. destruct (xget x w whr) as [x' o]. cbn [fst snd] in *. subst o. exists x', n. split; [reflexivity|]. split; [|exact U].
  destruct (Nt x' n eq_refl) as [[a wh'] E]. rewrite E. destruct (M' _ _ _ (nth_error_In _ _ E) eq_refl) as [-> I']. cbn [snd] in I'. rewrite I in I'. injection I' as <-. reflexivity.
Qed.

Lemma xhandle_item v r x m w whr x' n k a wh : msg_who m = Some w -> msg_where m = Some whr -> xget x w whr = (x', Ok n) -> nth_error (x_objs x') n = Some (k, (a, wh)) ->
  xhandle v r x m = (x', xdispatch v r (all_classes x') a n m, None).
Proof.
  intros W R G E. unfold xhandle. destruct m; cbn [msg_type msg_who msg_where] in *; try discriminate W.
  all: injection W as ->; injection R as ->; rewrite G, E; reflexivity.
Qed.

Lemma first_call v r a n m w u us1 us2 : v < 13 -> msg_who m = Some w -> u_who u = w -> (forall u', In u' us1 -> u_who u' <> w) ->
  exists rest, xdispatch v r (map inr (us1 ++ u :: us2)) a n m = fst (u_calls u n m) ++ rest /\ (snd (u_calls u n m) = Ok tt -> rest = []).
Proof.
  intros V W E N. apply N.ltb_lt in V. induction us1 as [|u1 us1 IH]; cbn [app map xdispatch xwho xcalls]; rewrite V, W.
  - rewrite E, (proj2 (who_eqb_spec w w) eq_refl). destruct (u_calls u n m) as [ts [[]|e]]; cbn [fst snd]; eexists; (split; [reflexivity|]); [reflexivity|discriminate].
  - destruct (who_eqb w (u_who u1)) eqn:Q; [|apply IH; intros u' I; apply N; right; exact I].
    apply who_eqb_spec in Q. destruct (N u1 (or_introl eq_refl)). congruence.
Qed.

Lemma first_users v h w u : first_for h w u -> exists us1 us2, x_users (xrun v fresh h) = us1 ++ u :: us2 /\ u_who u = w /\ forall u', In u' us1 -> u_who u' <> w.
Proof.
  intros (h1 & h2 & -> & E & N). rewrite xrun_users. cbn [fresh x_users app]. rewrite flat_map_app. cbn [flat_map app]. eexists _, _. split; [reflexivity|]. split; [exact E|].
  intros u' I. apply in_flat_map in I as ([u''|w' mk|w' whr|r m] & I & J); cbn in J; try contradiction. destruct J as [->|[]]. apply N, I.
Qed.

Lemma library_none v r a n m w us : msg_who m = Some w -> ~ library_who w -> xdispatch v r (map inl subclasses ++ us) a n m = xdispatch v r us a n m.
Proof.
  intros W L. unfold subclasses. cbn [map app xdispatch xwho]. unfold item_who. rewrite W. destruct (v <? 13); [|reflexivity]. cbn [class_who].
  assert (Q : forall b, In b [AUTOMATION; VIDEO_DOOR_ENTRY; ENERGY_MANAGEMENT; GATEWAY; LIGHTING] -> who_eqb w b = false).
  { intros b I. destruct (who_eqb w b) eqn:E; [|reflexivity]. apply who_eqb_spec in E. subst b. destruct (L I). }
  rewrite !Q by (cbn; auto 10). reflexivity.
Qed.

Theorem listed_reaches v r h m w mk u whr wh : listed h w mk -> first_for h w u -> ~ library_who w -> v < 13 ->
  msg_who m = Some w -> msg_where m = Some whr -> mk_init mk whr = Ok wh ->
  exists x' n rest, xhandle v r (xrun v fresh h) m = (x', fst (u_calls u n m) ++ rest, None) /\
    nth_error (x_objs x') n = Some ((w, whr), (mk_class mk, wh)) /\ (snd (u_calls u n m) = Ok tt -> rest = []).
Proof.
  intros L F NL V W R I. destruct (listed_item v h w mk whr wh L I) as (x' & n & G & E & U). destruct (first_users v h w u F) as (us1 & us2 & U' & Eu & Nu).
  destruct (first_call v r (mk_class mk) n m w u us1 us2 V W Eu Nu) as (rest & D & K). exists x', n, rest.
  rewrite (xhandle_item v r _ m w whr x' n _ _ _ W R G E). unfold all_classes. rewrite (library_none _ _ _ _ _ w _ W NL), U, U', D. auto.
Qed.

(** ** A class in the place of one of the library *)

Theorem listed_library v r h m w mk whr wh : listed h w mk -> v < 13 -> msg_who m = Some w -> msg_where m = Some whr -> mk_init mk whr = Ok wh ->
  welcome m (mk_class mk) ->
  exists x' n, nth_error (x_objs x') n = Some ((w, whr), (mk_class mk, wh)) /\
    forall c k args, class_who c = w -> class_call c m = Ok (Some (k, args)) -> suits r k args ->
    xhandle v r (xrun v fresh h) m = (x', map (fun f => (cb_id f, VItem n :: args)) (r k), None).
Proof.
  intros L V W R I Wel. destruct (listed_item v h w mk whr wh L I) as (x' & n & G & E & U). exists x', n. split; [exact E|]. intros c k args Cw Cc Su.
  rewrite (xhandle_item v r _ m w whr x' n _ _ _ W R G E). f_equal. f_equal.
  destruct (xdispatch_app v r subclasses (map inr (x_users x')) (mk_class mk) n m) as (extra & X1 & _ & X3 & _). fold (all_classes x') in X1. rewrite X1.
  assert (B : call_callbacks r c n m = (map (fun f => (cb_id f, VItem n :: args)) (r k), Ok tt)). { unfold call_callbacks. rewrite Cc. apply create_all. exact Su. }
  rewrite (X3 c), app_nil_r.
  - rewrite (xdispatch_library v r _ n m Wel), (dispatch_class r n m w c W Cw v V), B. reflexivity.
  - destruct c; cbn; auto 10.
  - exact V.
  - congruence.
  - rewrite welcome_calls by (auto; congruence). rewrite B. reflexivity.
Qed.

(** ** A class that the library's class does not know *)

Lemma unwelcome_none v r a n m : msg_who m = Some GATEWAY /\ isa a F_Gateway = false \/ msg_who m = Some ENERGY_MANAGEMENT /\ isa a F_Energy = false ->
  xdispatch v r (map inl subclasses) a n m = [].
Proof.
  intros H. unfold subclasses. cbn [map xdispatch xwho xcalls]. unfold item_who. destruct (v <? 13); [|destruct (msg_who m); reflexivity].
  destruct H as [[-> H]|[-> H]]; cbn [class_who built_calls]; rewrite H;
    repeat match goal with |- context [who_eqb ?a ?b] => let y := eval vm_compute in (who_eqb a b) in change (who_eqb a b) with y end; reflexivity.
Qed.

Theorem unwelcome v r h m w mk whr x' ts e : listed h w mk -> msg_who m = Some w -> msg_where m = Some whr ->
  w = GATEWAY /\ isa (mk_class mk) F_Gateway = false \/ w = ENERGY_MANAGEMENT /\ isa (mk_class mk) F_Energy = false ->
  xhandle v r (xrun v fresh h) m = (x', ts, e) ->
  forall t, In t ts -> exists u n, In (XDefine u) h /\ u_who u = w /\ In t (fst (u_calls u n m)).
Proof.
  intros L W R B H t It. destruct (listed_state v h w mk L) as [T M]. pose proof (users_defined v h) as Us. pose proof (xhandle_users v r (xrun v fresh h) m) as Hu.
  rewrite H in Hu. cbn [fst] in Hu. pose proof (xget_made mk w (xrun v fresh h) w whr T M) as M'. pose proof (xget_nth (xrun v fresh h) w whr) as Nt.
  destruct (xget (xrun v fresh h) w whr) as [y [n|ex]] eqn:G.
  - destruct (Nt y n eq_refl) as [[a wh] E]. rewrite (xhandle_item v r _ m w whr y n _ _ _ W R G E) in H.
    assert (Q1 : x' = y) by congruence. assert (Q2 : ts = xdispatch v r (all_classes y) a n m) by congruence. clear H. subst x' ts. cbn [fst] in M'.
    destruct (M' _ _ _ (nth_error_In _ _ E) eq_refl) as [-> _].
    destruct (xdispatch_app v r subclasses (map inr (x_users y)) (mk_class mk) n m) as (extra & X1 & X2 & _). fold (all_classes y) in X1. rewrite X1, unwelcome_none in It.
    2:{ destruct B as [[-> B]|[-> B]]; auto. }
    cbn [app] in It. destruct X2 as [->|X2]; [destruct It|]. rewrite X2 in It. destruct (user_tasks _ _ _ _ _ _ _ It) as (u & Iu & Ju & Ku).
    exists u, n. split; [apply Us; rewrite <- Hu; exact Iu|]. split; [congruence|exact Ku].
  - exfalso. unfold xhandle in H. rewrite W, R, G in H. destruct (msg_type m); try (injection H as _ <- _; destruct It); destruct ex; injection H as _ <- _; destruct It.
Qed.

(** ** Items that are there stay *)

Lemma xget_stays x w whr n o : nth_error (x_objs x) n = Some o -> nth_error (x_objs (fst (xget x w whr))) n = Some o.
Proof.
  intros H. unfold xget. destruct (position _ _); [exact H|]. destruct (x_types x w) as [mk|]; [|exact H]. destruct (mk_init mk whr); [|exact H]. cbn [fst x_objs].
  rewrite nth_error_app1; [exact H|]. apply nth_error_Some. congruence.
Qed.
Lemma xrun_stays v h : forall x n o, nth_error (x_objs x) n = Some o -> nth_error (x_objs (xrun v x h)) n = Some o.
Proof.
  induction h as [|a h IH]; intros x n o H; [exact H|]. change (xrun v x (a :: h)) with (xrun v (xstep v x a) h). apply IH.
  destruct a as [u|w mk|w whr|r m]; cbn [xstep x_objs]; try exact H; [apply xget_stays, H|].
  rewrite xhandle_world. destruct (msg_who m); [|exact H]. destruct (msg_where m); [|exact H]. apply xget_stays, H.
Qed.
Lemma xget_nodup x w whr : NoDup (xkeys x) -> NoDup (xkeys (fst (xget x w whr))).
Proof.
  intros H. unfold xget. destruct (position _ _) eqn:P; [exact H|]. destruct (x_types x w) as [mk|]; [|exact H]. destruct (mk_init mk whr); [|exact H]. cbn [fst].
  unfold xkeys in *. cbn [x_objs]. rewrite map_app. cbn [map fst]. apply nodup_snoc; [exact H|]. apply position_none, P.
Qed.
Lemma xrun_nodup v h : forall x, NoDup (xkeys x) -> NoDup (xkeys (xrun v x h)).
Proof.
  induction h as [|a h IH]; intros x H; [exact H|]. change (xrun v x (a :: h)) with (xrun v (xstep v x a) h). apply IH.
  destruct a as [u|w mk|w whr|r m]; cbn [xstep]; try exact H; [apply xget_nodup, H|].
  rewrite xhandle_world. destruct (msg_who m); [|exact H]. destruct (msg_where m); [|exact H]. apply xget_nodup, H.
Qed.

Theorem old_item v h1 h2 n w whr o : nth_error (x_objs (xrun v fresh h1)) n = Some ((w, whr), o) ->
  nth_error (x_objs (xrun v fresh (h1 ++ h2))) n = Some ((w, whr), o) /\ xget (xrun v fresh (h1 ++ h2)) w whr = (xrun v fresh (h1 ++ h2), Ok n).
Proof.
  intros H. assert (S : nth_error (x_objs (xrun v fresh (h1 ++ h2))) n = Some ((w, whr), o)).
  { unfold xrun. rewrite fold_left_app. apply xrun_stays, H. }
  split; [exact S|]. unfold xget. rewrite (position_nth (w, whr) _ n); [reflexivity|apply xrun_nodup; constructor|].
  unfold xkeys. rewrite nth_error_map, S. reflexivity.
Qed.

(** ** What the library's classes leave over *)

Lemma derives_isa a f : f = F_Gateway \/ f = F_Energy -> (derives a f <-> isa a f = true).
Proof.
  intros F. split.
  - intros [->|[nm ->]]; destruct F as [->| ->]; reflexivity.
  - destruct F as [->| ->]; destruct a as [[]| | |nm [[]|]]; cbn; intros H; try discriminate H; first [left; reflexivity|right; eauto].
Qed.

Theorem leftover v r h m w whr u : keeps_types h -> first_for h w u -> v < 13 -> makeable (w, whr) ->
  m = MStatus w whr \/ (exists d, m = MDimReq w whr d) ->
  exists x' n a wh rest, xhandle v r (xrun v fresh h) m = (x', fst (u_calls u n m) ++ rest, None) /\
    nth_error (x_objs x') n = Some ((w, whr), (a, wh)) /\ (exists f, a = A_built f) /\ (snd (u_calls u n m) = Ok tt -> rest = []).
Proof.
  intros KT F V Mk Hm. destruct (xrun_fresh v h KT) as (S & N & K). destruct (first_users v h w u F) as (us1 & us2 & U' & Eu & Nu).
  assert (W : msg_who m = Some w) by (destruct Hm as [->|[d ->]]; reflexivity). assert (R : msg_where m = Some whr) by (destruct Hm as [->|[d ->]]; reflexivity).
  pose proof (xget_nth (xrun v fresh h) w whr) as Nt. pose proof (xget_native (xrun v fresh h) w whr S N) as N'. pose proof (proj1 (xget_users (xrun v fresh h) w whr)) as Us.
  assert (O : exists n, snd (xget (xrun v fresh h) w whr) = Ok n).
  { unfold xget. destruct (position _ _) as [n|]; [exists n; reflexivity|]. rewrite S.
    destruct (makeable_spec w whr Mk) as (f & -> & C). cbn [option_map built_maker mk_init]. rewrite C. cbn. eauto. }
  destruct O as [n O]. destruct (xget (xrun v fresh h) w whr) as [x' o] eqn:G. cbn [fst snd] in *. subst o. destruct (Nt x' n eq_refl) as [[a wh] E].
  destruct (N' _ _ _ (nth_error_In _ _ E)) as (f & Hf & ->).
  destruct (first_call v r (A_built f) n m w u us1 us2 V W Eu Nu) as (rest & D & Q). exists x', n, (A_built f), wh, rest.
  rewrite (xhandle_item v r _ m w whr x' n _ _ _ W R G E). split; [|split; [exact E|split; [eauto|exact Q]]]. f_equal. f_equal.
  destruct (xdispatch_app v r subclasses (map inr (x_users x')) (A_built f) n m) as (extra & X1 & _ & _ & X4). fold (all_classes x') in X1. rewrite X1.
  assert (B : forall c, In c subclasses -> built_calls r c (A_built f) n m = ([], Err InvalidMessage)).
  { intros c _. destruct c; cbn [built_calls]; try (destruct (isa _ _); [|reflexivity]); destruct Hm as [->|[d ->]]; reflexivity. }
  rewrite X4, Us, U', D.
  - clear - B. enough (Z : forall cs, (forall c, In c cs -> built_calls r c (A_built f) n m = ([], Err InvalidMessage)) -> xdispatch v r (map inl cs) (A_built f) n m = []) by (rewrite (Z _ B); reflexivity).
    induction cs as [|c cs IH]; intros H; [reflexivity|]. cbn [map xdispatch xwho xcalls]. rewrite (H c (or_introl eq_refl)). cbn [app].
    rewrite IH by (intros c' I; apply H; right; exact I). destruct (item_who v c); [|reflexivity]. destruct (msg_who m); [|reflexivity]. destruct (who_eqb _ _); reflexivity.
  - intros c I _ X. rewrite (B c I) in X. discriminate X.
Qed.

(** ** From Python 3.13 on *)

Theorem new_python v r x m : 13 <= v -> snd (fst (xhandle v r x m)) = [].
Proof.
  intros V. apply N.ltb_ge in V. assert (D : forall cs a n, xdispatch v r cs a n m = []).
  { induction cs as [|c cs IH]; intros a n; [reflexivity|]. cbn [xdispatch]. destruct c as [c|u]; cbn [xwho]; unfold item_who; rewrite V; apply IH. }
  unfold xhandle. destruct (msg_type m); try reflexivity. all: destruct (msg_who m); [|reflexivity]; destruct (msg_where m); [|reflexivity].
  all: destruct (xget x w s) as [x' [n|[]]]; try reflexivity; destruct (nth_error (x_objs x') n) as [[k [a wh]]|]; [|reflexivity]; cbn [fst snd]; apply D.
Qed.
