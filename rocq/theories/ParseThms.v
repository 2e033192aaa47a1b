(** * The class parsers and the tags of messages *)
From Coq Require Import String List NArith ZArith Bool Lia.
From Verif Require Import PyStr Tags Messages MessageFacts SpecMsg MessageThms MessageThms2 SpecTag TagThms IO Client Items SpecParse.
Import ListNotations.
Open Scope N_scope.
Open Scope list_scope.

(** [SomeMessage.parse(tags)] for the class of each type. *)
Definition class_parse (k : mtype) : list str -> res msg :=
  match k with
  | T_ACK => parse_ack | T_NACK => parse_nack | T_NORMAL => parse_normal | T_STATUS => parse_status
  | T_DIMREQ => parse_dimreq | T_DIMWRI => parse_dim MDimWri | T_DIMRES => parse_dim MDimRes | T_GENERIC => parse_generic
  end.

Lemma mk_cases' t : (mk t = Ok t /\ tagtext t) \/ (mk t = Err InvalidTag /\ ~ tagtext t).
Proof. destruct (proj1 (tag_str t (mk t)) eq_refl) as [[H1 H2]|[H1 H2]]; auto. Qed.

Lemma unhash_iff t x : unhash t = x <-> maybe_hash t x.
Proof.
  unfold maybe_hash. destruct t as [|c t].
  - split.
    + intros <-. right. split; [reflexivity|discriminate].
    + intros [H|[<- _]]; [discriminate|reflexivity].
  - destruct (N.eq_dec c 35) as [->|D].
    + change 35 with c_hash. rewrite unhash_cons. split.
      * intros <-. auto.
      * intros [[= ->]|[E N]]; [reflexivity|]. exfalso. exact (N t (eq_sym E)).
    + rewrite unhash_not by (intros e [= E _]; contradiction). split.
      * intros <-. right. split; [reflexivity|]. intros e [= E _]. contradiction.
      * intros [[= E _]|[-> _]]; [contradiction|reflexivity].
Qed.

Lemma maybe_self x : maybe_hash (35 :: x) x.
Proof. left. reflexivity. Qed.

Lemma mapM_mk l : (mapM mk l = Ok l /\ Forall tagtext l) \/ (mapM mk l = Err InvalidTag /\ ~ Forall tagtext l).
Proof.
  induction l as [|t l IH]; [left; split; [reflexivity|constructor]|]. cbn [mapM].
  destruct (mk_cases' t) as [[-> T]|[-> T]]; cbn [bind].
  - destruct IH as [[-> F]|[-> F]]; cbn [bind]; [left|right]; split; auto. intros H. inversion H; auto.
  - right. split; [reflexivity|]. intros H. inversion H; auto.
Qed.

Ltac tags l := destruct l as [|? l]; [|].

(** Splits on every test a class parser makes. *)
Ltac crunch := repeat match goal with
  | |- context [who_of ?x] => let w := fresh "w" in let E := fresh "E" in let K := fresh "K" in
       destruct (who_of_cases x) as [(w & E & K)|[E K]]; rewrite K; cbn [bind]
  | |- context [mk ?t] => let E := fresh "E" in let T := fresh "T" in destruct (mk_cases' t) as [[E T]|[E T]]; rewrite E; cbn [bind]
  | |- context [mapM mk ?l] => let E := fresh "E" in let T := fresh "T" in destruct (mapM_mk l) as [[E T]|[E T]]; rewrite E; cbn [bind]
  end.

Theorem class_parse_iff k l m : class_parse k l = Ok m <-> accepts k l m.
Proof.
  split.
  - destruct k; cbn [class_parse].
    + unfold parse_ack. destruct l as [|a l]; [discriminate|]. cbn [bind index nth_error].
      destruct (str_eqb a (lit "#")) eqn:E; [apply str_eqb_spec in E; intros [= <-]; rewrite E; apply X_ack|].
      destruct l as [|b l]; [discriminate|]. cbn [bind index nth_error].
      destruct (str_eqb b (lit "1")) eqn:F; [|discriminate]. apply str_eqb_spec in F. intros [= <-]. rewrite F. apply X_ack'.
    + unfold parse_nack. destruct l as [|a l]; [discriminate|]. cbn [bind index nth_error].
      destruct (str_eqb a (lit "#")) eqn:E; [apply str_eqb_spec in E; intros [= <-]; rewrite E; apply X_nack|].
      destruct l as [|b l]; [discriminate|]. cbn [bind index nth_error].
      destruct (str_eqb b (lit "0")) eqn:F; [|discriminate]. apply str_eqb_spec in F. intros [= <-]. rewrite F. apply X_nack'.
    + unfold parse_normal. destruct l as [|a l]; [discriminate|]. cbn [bind index nth_error]. crunch; [|discriminate].
      destruct l as [|b l]; [discriminate|]. cbn [bind index nth_error]. crunch; [|discriminate].
      destruct l as [|c l]; [discriminate|]. cbn [bind index nth_error]. crunch; [|discriminate].
      intros [= <-]. subst a. constructor; assumption.
    + unfold parse_status. destruct l as [|a l]; [discriminate|]. cbn [bind index nth_error]. crunch; [|discriminate].
      destruct l as [|b l]; [discriminate|]. cbn [bind index nth_error]. crunch; [|discriminate].
      intros [= <-]. constructor; [apply unhash_iff, E|assumption].
    + unfold parse_dimreq. destruct l as [|a l]; [discriminate|]. cbn [bind index nth_error]. crunch; [|discriminate].
      destruct l as [|b l]; [discriminate|]. cbn [bind index nth_error]. crunch; [|discriminate].
      destruct l as [|c l]; [discriminate|]. cbn [bind index nth_error]. crunch; [|discriminate].
      intros [= <-]. constructor; [apply unhash_iff, E|assumption..].
    + unfold parse_dim. crunch; [|discriminate].
      destruct l as [|a l]; [discriminate|]. cbn [bind index nth_error]. crunch; [|discriminate].
      destruct l as [|b l]; [discriminate|]. cbn [bind index nth_error]. crunch; [|discriminate].
      destruct l as [|c l]; [discriminate|]. cbn [bind index nth_error skipn] in *. crunch; [|discriminate].
      intros [= <-]. constructor; try assumption; apply unhash_iff; auto.
    + unfold parse_dim. crunch; [|discriminate].
      destruct l as [|a l]; [discriminate|]. cbn [bind index nth_error]. crunch; [|discriminate].
      destruct l as [|b l]; [discriminate|]. cbn [bind index nth_error]. crunch; [|discriminate].
      destruct l as [|c l]; [discriminate|]. cbn [bind index nth_error skipn] in *. crunch; [|discriminate].
      intros [= <-]. constructor; try assumption; apply unhash_iff; auto.
    + unfold parse_generic. destruct (forallb is_valid_tag l) eqn:E; [|discriminate]. intros [= <-]. constructor.
      apply Forall_forall. intros t H. apply tagtext_valid. rewrite forallb_forall in E. exact (E _ H).
  - assert (M : forall t, tagtext t -> mk t = Ok t) by (intros t H; destruct (mk_cases' t) as [[E _]|[_ E]]; [exact E|contradiction]).
    assert (W : forall t w, maybe_hash t (who_str w) -> who_of (unhash t) = Ok w).
    { intros t w H. apply unhash_iff in H as ->. apply who_of_str. }
    assert (V : forall l, Forall tagtext l -> mapM mk l = Ok l) by (intros t H; destruct (mapM_mk t) as [[E _]|[_ E]]; [exact E|contradiction]).
    intros H. destruct H; cbn [class_parse]; try reflexivity.
    + unfold parse_ack. cbn [index nth_error bind]. destruct (str_eqb a (lit "#")); reflexivity.
    + unfold parse_nack. cbn [index nth_error bind]. destruct (str_eqb a (lit "#")); reflexivity.
    + unfold parse_normal. cbn [index nth_error bind]. rewrite who_of_str. cbn [bind]. rewrite !M by assumption. cbn [bind]. reflexivity.
    + unfold parse_status. cbn [index nth_error bind]. rewrite (W _ _ H). cbn [bind]. rewrite M by assumption. reflexivity.
    + unfold parse_dimreq. cbn [index nth_error bind]. rewrite (W _ _ H). cbn [bind]. rewrite M by assumption. cbn [bind]. rewrite M by assumption. reflexivity.
    + unfold parse_dim. cbn [index nth_error skipn bind]. rewrite V by assumption. cbn [bind]. rewrite (W _ _ H). cbn [bind]. rewrite M by assumption. cbn [bind].
      apply unhash_iff in H1 as ->. rewrite M by assumption. reflexivity.
    + unfold parse_dim. cbn [index nth_error skipn bind]. rewrite V by assumption. cbn [bind]. rewrite (W _ _ H). cbn [bind]. rewrite M by assumption. cbn [bind].
      apply unhash_iff in H1 as ->. rewrite M by assumption. reflexivity.
    + unfold parse_generic. replace (forallb is_valid_tag l) with true; [reflexivity|]. symmetry. apply forallb_forall.
      rewrite Forall_forall in H. intros t I. apply tagtext_valid, H, I.
Qed.

Theorem class_parse_errors k l e : class_parse k l = Err e ->
  (e = IndexError /\ (List.length l < needed k)%nat) \/ (e = ValueError /\ needed k <> 0%nat /\ ~ In k [T_ACK; T_NACK]) \/
  (e = InvalidTag /\ ~ Forall tagtext l) \/ (e = InvalidMessage /\ In k [T_ACK; T_NACK]).
Proof.
  assert (U : forall t, tagtext t -> tagtext (unhash t)).
  { intros t H. apply tagtext_valid, unhash_valid. apply tagtext_valid in H. exact H. }
  assert (S3 : forall (l : list str), Forall tagtext l -> Forall tagtext (skipn 3 l)).
  { intros [|a [|b [|c l']]] H; try constructor. apply Forall_inv_tail, Forall_inv_tail, Forall_inv_tail in H. exact H. }
  assert (F : forall (t : str) l, Forall tagtext l -> In t l -> tagtext t) by (intros t l' H; rewrite Forall_forall in H; auto).
  destruct k; cbn [class_parse needed].
  - unfold parse_ack. destruct l as [|a l]; [intros [= <-]; left; cbn; split; [reflexivity|lia]|]. cbn [bind index nth_error].
    destruct (str_eqb a _); [discriminate|]. destruct l as [|b l]; [intros [= <-]; left; cbn; split; [reflexivity|lia]|]. cbn [bind index nth_error].
    destruct (str_eqb b _); [discriminate|]. intros [= <-]. right. right. right. cbn. auto.
  - unfold parse_nack. destruct l as [|a l]; [intros [= <-]; left; cbn; split; [reflexivity|lia]|]. cbn [bind index nth_error].
    destruct (str_eqb a _); [discriminate|]. destruct l as [|b l]; [intros [= <-]; left; cbn; split; [reflexivity|lia]|]. cbn [bind index nth_error].
    destruct (str_eqb b _); [discriminate|]. intros [= <-]. right. right. right. cbn. auto.
  - unfold parse_normal.
    destruct l as [|a l]; [intros [= <-]; left; cbn; split; [reflexivity|lia]|]. cbn [bind index nth_error]. crunch; [|intros [= <-]; right; left; cbn; intuition discriminate].
    destruct l as [|b l]; [intros [= <-]; left; cbn; split; [reflexivity|lia]|]. cbn [bind index nth_error]. crunch; [|intros [= <-]; right; right; left; split; [reflexivity|]; intros H; apply T; apply (F _ _ H); cbn; auto].
    destruct l as [|c l]; [intros [= <-]; left; cbn; split; [reflexivity|lia]|]. cbn [bind index nth_error]. crunch; [discriminate|intros [= <-]; right; right; left; split; [reflexivity|]; intros H; apply T0; apply (F _ _ H); cbn; auto].
  - unfold parse_status.
    destruct l as [|a l]; [intros [= <-]; left; cbn; split; [reflexivity|lia]|]. cbn [bind index nth_error]. crunch; [|intros [= <-]; right; left; cbn; intuition discriminate].
    destruct l as [|b l]; [intros [= <-]; left; cbn; split; [reflexivity|lia]|]. cbn [bind index nth_error]. crunch; [discriminate|intros [= <-]; right; right; left; split; [reflexivity|]; intros H; apply T; apply (F _ _ H); cbn; auto].
  - unfold parse_dimreq.
    destruct l as [|a l]; [intros [= <-]; left; cbn; split; [reflexivity|lia]|]. cbn [bind index nth_error]. crunch; [|intros [= <-]; right; left; cbn; intuition discriminate].
    destruct l as [|b l]; [intros [= <-]; left; cbn; split; [reflexivity|lia]|]. cbn [bind index nth_error]. crunch; [|intros [= <-]; right; right; left; split; [reflexivity|]; intros H; apply T; apply (F _ _ H); cbn; auto].
    destruct l as [|c l]; [intros [= <-]; left; cbn; split; [reflexivity|lia]|]. cbn [bind index nth_error]. crunch; [discriminate|intros [= <-]; right; right; left; split; [reflexivity|]; intros H; apply T0; apply (F _ _ H); cbn; auto].
  - unfold parse_dim. crunch; [|intros [= <-]; right; right; left; split; [reflexivity|]; intros H; apply T; apply S3, H]. clear E T.
    destruct l as [|a l]; [intros [= <-]; left; cbn; split; [reflexivity|lia]|]. cbn [bind index nth_error]. crunch; [|intros [= <-]; right; left; cbn; intuition discriminate].
    destruct l as [|b l]; [intros [= <-]; left; cbn; split; [reflexivity|lia]|]. cbn [bind index nth_error]. crunch; [|intros [= <-]; right; right; left; split; [reflexivity|]; intros H; apply T; apply (F _ _ H); cbn; auto].
    destruct l as [|c l]; [intros [= <-]; left; cbn; split; [reflexivity|lia]|]. cbn [bind index nth_error]. crunch; [discriminate|intros [= <-]; right; right; left; split; [reflexivity|]; intros H; apply T0; apply U, (F _ _ H); cbn; auto].
  - unfold parse_dim. crunch; [|intros [= <-]; right; right; left; split; [reflexivity|]; intros H; apply T; apply S3, H]. clear E T.
    destruct l as [|a l]; [intros [= <-]; left; cbn; split; [reflexivity|lia]|]. cbn [bind index nth_error]. crunch; [|intros [= <-]; right; left; cbn; intuition discriminate].
    destruct l as [|b l]; [intros [= <-]; left; cbn; split; [reflexivity|lia]|]. cbn [bind index nth_error]. crunch; [|intros [= <-]; right; right; left; split; [reflexivity|]; intros H; apply T; apply (F _ _ H); cbn; auto].
    destruct l as [|c l]; [intros [= <-]; left; cbn; split; [reflexivity|lia]|]. cbn [bind index nth_error]. crunch; [discriminate|intros [= <-]; right; right; left; split; [reflexivity|]; intros H; apply T0; apply U, (F _ _ H); cbn; auto].
  - unfold parse_generic. destruct (forallb is_valid_tag l) eqn:E; [discriminate|]. intros [= <-]. right. right. left. split; [reflexivity|].
    intros H. rewrite Forall_forall in H. assert (forallb is_valid_tag l = true); [|congruence].
    apply forallb_forall. intros t I. apply tagtext_valid, H, I.
Qed.

(** ** The tags of a parsed message *)

Theorem parsed_tags s l m : is_frame s l -> parse_message s = Ok m -> tags_view (msg_type m) l (msg_tags m).
Proof.
  intros F P. apply parse_ok_iff in P as (l' & F' & D). rewrite (is_frame_unique _ _ _ F F'). destruct D; cbn [msg_type msg_tags].
  - apply V_plain. cbn. auto.
  - apply V_plain. cbn. auto.
  - apply V_request. cbn. auto.
  - apply V_request. cbn. auto.
  - apply V_hash. cbn. auto.
  - apply V_response. assumption.
  - apply V_hash. cbn. auto.
  - apply V_plain. cbn. auto.
  - apply V_plain. cbn. auto.
Qed.

Lemma accessors m :
  (msg_who m = None <-> In (msg_type m) [T_ACK; T_NACK; T_GENERIC]) /\
  (msg_where m = None <-> In (msg_type m) [T_ACK; T_NACK; T_GENERIC]) /\
  (forall w, msg_who m = Some w -> nth_error (msg_tags m) 0 = Some (who_str w)) /\
  (forall r, msg_where m = Some r -> nth_error (msg_tags m) (match msg_type m with T_NORMAL => 2 | _ => 1 end) = Some r) /\
  (forall a, get_what m = Ok a <-> msg_type m = T_NORMAL /\ nth_error (msg_tags m) 1 = Some a) /\
  (forall d, get_dimension m = Ok d <-> In (msg_type m) [T_DIMREQ; T_DIMWRI; T_DIMRES] /\ nth_error (msg_tags m) 2 = Some d) /\
  (forall vs, get_values m = Ok vs <-> In (msg_type m) [T_DIMWRI; T_DIMRES] /\ skipn 3 (msg_tags m) = vs).
Proof. destruct m; cbn; intuition (try congruence). Qed.

Lemma hash_separates ht hs hl :
  (forall x y, ht x = ht y -> x = y) -> (forall x y, hs x = hs y -> x = y) -> (forall x y, hl x = hl y -> x = y) ->
  forall a b h, msg_hash ht hs hl a = Ok h -> msg_hash ht hs hl b = Ok h -> a = b.
Proof.
  intros It Is Il a b h Ha Hb.
  assert (Ea : h = hl [ht (msg_type a); hl (map hs (msg_tags a))]) by (destruct a; cbn [msg_hash] in Ha; congruence).
  assert (Eb : h = hl [ht (msg_type b); hl (map hs (msg_tags b))]) by (destruct b; cbn [msg_hash] in Hb; congruence).
  rewrite Ea in Eb. apply Il in Eb. injection Eb as E1 E2. apply It in E1. apply Il in E2.
  assert (E3 : msg_tags a = msg_tags b).
  { revert E2. generalize (msg_tags a), (msg_tags b). induction l as [|x l IH]; intros [|y l'] E; try discriminate; [reflexivity|].
    cbn in E. injection E as E E'. f_equal; auto. }
  apply msg_eq_spec. unfold msg_eq, isinstance_of. rewrite E1.
  replace (mtype_eqb (msg_type b) (msg_type b)) with true by (symmetry; apply mtype_eqb_spec; reflexivity). cbn [orb andb].
  apply list_str_eqb_spec. exact E3.
Qed.

Lemma extra_tags k l m more :
  In k [T_ACK; T_NACK; T_NORMAL; T_STATUS; T_DIMREQ] -> class_parse k l = Ok m -> class_parse k (l ++ more) = Ok m.
Proof.
  intros K H. apply class_parse_iff in H. apply class_parse_iff.
  destruct H; cbn [app]; try (constructor; assumption); cbn in K; intuition discriminate.
Qed.
