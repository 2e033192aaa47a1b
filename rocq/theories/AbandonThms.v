(** * Requests whose replies are not all taken *)
From Coq Require Import String List NArith ZArith Bool Lia.
From Verif Require Import PyStr Tags Messages SpecMsg MessageThms2 IO Client SpecItem Items HandshakeThms ItemThms ItemThms2 SpecAbandon.
Import ListNotations.
Open Scope list_scope.

(** A request with its consumer. *)
Definition ask_with {Y} (it : item) (q : query) (body : msg -> res (list Y)) : io Y unit :=
  match q with QStatus => send_status_request it body | QDim d => send_dimension_request it d body end.

(** Requests made one after the other, each consumed to its end: the replies
    each of them yields, and its result. *)
Fixpoint ask_all (qs : list (item * query)) (s : script) : list (list msg * res unit) :=
  match qs with
  | [] => []
  | (it, q) :: qs' => match ask_with it q as_is s with (es, s', r) => (yields es, r) :: ask_all qs' s' end
  end.
Definition ask_ok (p : item * query) : Prop := ready (fst p) /\ placed (fst p) /\ query_ok (snd p).

Definition kept (q : query) : msg -> bool := match q with QStatus => is_normal | QDim _ => is_dimres end.
Definition frame_of (it : item) (q : query) : list N :=
  match q with QStatus => frame_status (it_who it) (it_where it) | QDim d => frame_dimreq (it_who it) (it_where it) d end.

Lemma ask_frame {Y} it q (body : msg -> res (list Y)) (s : script) : ask_ok (it, q) ->
  ask_with it q body s = pre [Sent (frame_of it q)] (replies (kept q) body s).
Proof.
  intros (Hr & Hp & Hq). cbn [fst snd] in *. destruct q as [|d]; cbn [ask_with kept frame_of].
  - unfold send_status_request, create_status_message. rewrite (andthen_ok _ _ _ _ _ _ (item_send_ok it _ _ s Hr (status_bytes _ _ Hp))).
    unfold reply_loop. rewrite (proj2 Hr). reflexivity.
  - unfold send_dimension_request, create_dimension_request_message. rewrite (proj2 (mk_ok d) Hq), andthen_lift.
    rewrite (andthen_ok _ _ _ _ _ _ (item_send_ok it _ _ s Hr (dimreq_bytes _ _ _ Hp Hq))).
    unfold reply_loop. rewrite (proj2 Hr). reflexivity.
Qed.

Lemma kept_wants q m : kept q m = true <-> wants q m.
Proof. destruct q; [apply is_normal_spec|apply is_dimres_spec]. Qed.
Lemma wants_type q m : wants q m -> mtype_eqb (msg_type m) T_NACK = false /\ mtype_eqb (msg_type m) T_ACK = false.
Proof. destruct q; [intros (? & ? & ? & ->)|intros (? & ? & ? & ? & ->)]; split; reflexivity. Qed.
Lemma wants_not_ack q m : wants q m -> m <> MAck /\ m <> MNack.
Proof. destruct q; [intros (? & ? & ? & ->)|intros (? & ? & ? & ? & ->)]; split; discriminate. Qed.

(** Replies that the consumer takes. *)
Lemma replies_taken {Y} q (body : msg -> res (list Y)) rs yss (s : script) :
  Forall (wants q) rs -> Forall2 (fun m ys => body m = Ok ys) rs yss ->
  exists es, yields es = concat yss /\ gots es = rs /\ sents es = [] /\
    replies (kept q) body (map Some rs ++ s) = pre es (replies (kept q) body s).
Proof.
  intros W B. induction B as [|m ys rs yss Hb B IH].
  - exists []. split; [reflexivity|]. split; [reflexivity|]. split; [reflexivity|]. cbn [map app]. destruct (replies _ _ s) as [[? ?] ?]. reflexivity.
  - inversion W; subst. destruct (IH H2) as (es & A & G & Se & E). exists (Got m :: map Yielded ys ++ es).
    destruct (yields_map ys) as (Y1 & Y2 & Y3).
    cbn [yields gots sents concat]. rewrite yields_app, gots_app, sents_app, Y1, Y2, Y3, A, G, Se.
    split; [reflexivity|]. split; [reflexivity|]. split; [reflexivity|].
    cbn [map app replies]. destruct (wants_type _ _ H1) as (-> & ->). rewrite (proj2 (kept_wants q m) H1). cbn [negb]. rewrite Hb, E.
    destruct (replies (kept q) body s) as [[e2 s2] r2]. unfold pre. cbn [app]. rewrite <- app_assoc. reflexivity.
Qed.

(** The consumer leaves at the reply [m]. *)
Theorem abandoned {Y} it q (body : msg -> res (list Y)) rs yss m e (rest : script) :
  ask_ok (it, q) -> Forall (wants q) rs -> wants q m -> Forall2 (fun m ys => body m = Ok ys) rs yss -> body m = Err e ->
  let x := ask_with it q body (map Some rs ++ Some m :: rest) in
  sents (evs_of x) = [frame_of it q] /\ yields (evs_of x) = concat yss /\ gots (evs_of x) = rs ++ [m] /\ rest_of x = rest /\ res_of x = Err e.
Proof.
  intros Ok Wr Wm B E x. unfold x. rewrite (ask_frame _ _ _ _ Ok).
  destruct (replies_taken q body rs yss (Some m :: rest) Wr B) as (es & A & G & Se & ->).
  cbn [replies]. destruct (wants_type _ _ Wm) as (-> & ->). rewrite (proj2 (kept_wants q m) Wm). cbn [negb]. rewrite E.
  unfold pre, evs_of, rest_of, res_of. cbn [fst snd app sents yields gots]. rewrite sents_app, yields_app, gots_app, A, G, Se.
  cbn. rewrite app_nil_r. repeat split; reflexivity.
Qed.

Lemma as_is_all rs : Forall2 (fun m ys => as_is m = Ok ys) rs (map (fun m => [m]) rs).
Proof. induction rs; constructor; [reflexivity|assumption]. Qed.
Lemma concat_single {A} (l : list A) : concat (map (fun m => [m]) l) = l.
Proof. induction l; cbn; [reflexivity|]. rewrite IHl. reflexivity. Qed.

(** A whole answer is consumed. *)
Lemma ask_whole it q rs (s : script) : ask_ok (it, q) -> Forall (wants q) rs ->
  exists es, ask_with it q as_is (reply rs ++ s) = (es, s, Ok tt) /\ yields es = rs.
Proof.
  intros Ok W. rewrite (ask_frame _ _ _ _ Ok). unfold reply. rewrite <- app_assoc.
  destruct (replies_taken q as_is rs _ ([Some MAck] ++ s) W (as_is_all rs)) as (es & A & G & Se & ->).
  eexists. split; [reflexivity|]. cbn [app]. change (yields (Sent (frame_of it q) :: es ++ [Got MAck]) = rs). cbn [yields].
  rewrite yields_app, A, concat_single. cbn. apply app_nil_r.
Qed.

(** Whole answers, one per request: each request gets the answer at its place. *)
Lemma ask_each qs : forall rss (s : script), Forall ask_ok qs -> Forall2 (fun p rs => Forall (wants (snd p)) rs) qs rss ->
  ask_all qs (replies_to rss ++ s) = map (fun rs => (rs, Ok tt)) rss.
Proof.
  induction qs as [|(it, q) qs IH]; intros rss s Ok W; inversion W; subst; [reflexivity|].
  inversion Ok; subst. unfold replies_to. cbn [map concat ask_all]. rewrite <- app_assoc.
  cbn [snd] in H1. destruct (ask_whole it q y (concat (map reply l') ++ s) H2 H1) as (es & -> & ->).
  f_equal. apply IH; assumption.
Qed.

(** After one request that was left at [m], with [rs2] still to come, every
    later request of that kind gets the replies of the one before it. *)
Lemma wants_same q q' rs : same_kind q q' -> Forall (wants q) rs -> Forall (wants q') rs.
Proof. destruct q, q'; cbn; intros K; try contradiction; intros W; exact W. Qed.

Theorem shifted q qs rs2 : forall rss, Forall ask_ok qs -> Forall (fun p => same_kind q (snd p)) qs ->
  Forall (wants q) rs2 -> Forall (Forall (wants q)) rss -> length qs = length rss ->
  ask_all qs (reply rs2 ++ replies_to rss) = map (fun rs => (rs, Ok tt)) (removelast (rs2 :: rss)).
Proof.
  intros rss Ok K W Ws L.
  destruct (@exists_last _ (rs2 :: rss) ltac:(discriminate)) as (init & last & E).
  change (reply rs2 ++ replies_to rss) with (replies_to (rs2 :: rss)). rewrite E, removelast_last.
  unfold replies_to. rewrite map_app, concat_app. apply ask_each; [assumption|].
  assert (Wi : Forall (Forall (wants q)) init).
  { assert (X : Forall (Forall (wants q)) (init ++ [last])) by (rewrite <- E; constructor; assumption). apply Forall_app in X. apply X. }
  assert (Li : length qs = length init).
  { apply (f_equal (@length _)) in E. rewrite app_length in E. cbn in E. lia. }
  clear - K Wi Li. revert init Wi Li. induction K as [|p qs Hk K IH]; intros [|i init] Wi Li; try discriminate; constructor.
  - apply (wants_same q); [assumption|]. inversion Wi; assumption.
  - apply IH; [inversion Wi; assumption|]. cbn in Li. lia.
Qed.

(** A request of the other kind, or a command, fails on the first leftover. *)
Theorem other_kind q it q' m (s : script) : ask_ok (it, q') -> ~ same_kind q q' -> wants q m ->
  ask_with it q' as_is (Some m :: s) = ([Sent (frame_of it q'); Got m], s, Err ResponseError).
Proof.
  intros Ok K W. rewrite (ask_frame _ _ _ _ Ok). cbn [replies]. destruct (wants_type _ _ W) as (-> & ->).
  assert (E : kept q' m = false).
  { destruct q, q'; cbn in K, W; try (destruct K; exact I); [destruct W as (? & ? & ? & ->)|destruct W as (? & ? & ? & ? & ->)]; reflexivity. }
  rewrite E. reflexivity.
Qed.

Theorem commands_after q rs2 cs (rs : list msg) : Forall call_ok cs -> Forall (wants q) rs2 -> length cs = S (length rs2 + length rs) ->
  run_all cs (reply rs2 ++ map Some rs) = map (fun _ => Err ResponseError) rs2 ++ Ok tt :: map (fun m => verdict (Some m)) rs.
Proof.
  intros Ok W L. rewrite by_position; [|assumption|unfold reply; rewrite !app_length, !map_length; cbn; lia].
  assert (E : length (reply rs2 ++ map Some rs) = length cs) by (unfold reply; rewrite !app_length, !map_length; cbn; lia).
  rewrite <- E, firstn_all. unfold reply. rewrite !map_app, !map_map, <- app_assoc. f_equal.
  apply map_ext_in. intros m Hm. rewrite Forall_forall in W. destruct (wants_not_ack _ _ (W m Hm)). destruct m; try reflexivity; congruence.
Qed.
