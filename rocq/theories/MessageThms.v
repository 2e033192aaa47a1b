(** * The parser against the tag-wise specification *)
From Coq Require Import String List NArith ZArith Bool Lia.
From Verif Require Import PyStr Regex Tags Messages MessageFacts SpecMsg.
Import ListNotations.
Open Scope N_scope.
Open Scope list_scope.

(** ** Bridges *)

Lemma tagtext_valid t : tagtext t <-> is_valid_tag t = true.
Proof.
  unfold tagtext, is_valid_tag. rewrite Forall_forall, forallb_forall.
  split; intros H c Hc; specialize (H c Hc); apply is_tagc_spec; exact H.
Qed.

Lemma digits_all t : digits t <-> all_digits t = true.
Proof.
  unfold digits, all_digits. rewrite Forall_forall, forallb_forall.
  split; intros H c Hc; specialize (H c Hc); apply is_digit_range; exact H.
Qed.

Lemma has_hh_count t : ~ has_hh t <-> count_hh t = 0%nat.
Proof. rewrite count_hh_zero_iff. reflexivity. Qed.

Lemma wire_frame l : l <> [] -> wire l = frame l.
Proof.
  intros N. destruct l as [|t l]; [congruence|]. unfold wire, frame. rewrite join_concat.
  reflexivity.
Qed.

Lemma white_space w : white w <-> forallb is_space w = true.
Proof. unfold white. rewrite Forall_forall, forallb_forall. reflexivity. Qed.

Lemma wiretags l : Forall wiretag l <-> valid_tags l /\ Forall (fun t => count_hh t = 0%nat) l.
Proof.
  unfold valid_tags, wiretag. rewrite !Forall_forall. split.
  - intros H. split; intros t Ht; destruct (H t Ht) as [A B]; [apply tagtext_valid, A|apply has_hh_count, B].
  - intros [H1 H2] t Ht. split; [apply tagtext_valid, H1, Ht|apply has_hh_count, H2, Ht].
Qed.

Lemma is_frame_strip s l :
  is_frame s l <-> l <> [] /\ Forall wiretag l /\ strip s = frame l.
Proof.
  unfold is_frame. split; intros (N & V & H); (split; [exact N|split; [exact V|]]).
  - destruct H as (w1 & w2 & H1 & H2 & ->). rewrite wire_frame by exact N.
    rewrite white_space in H1, H2. rewrite strip_surround; auto. apply frame_stripped.
  - destruct (strip_spec s) as (w1 & w2 & E & H1 & H2 & _).
    exists w1, w2. rewrite wire_frame by exact N. rewrite <- H, !white_space. auto.
Qed.

Lemma is_frame_unique s l1 l2 : is_frame s l1 -> is_frame s l2 -> l1 = l2.
Proof.
  rewrite !is_frame_strip. intros (N1 & V1 & E1) (N2 & V2 & E2).
  apply wiretags in V1, V2. apply frame_inj; try tauto. congruence.
Qed.

(** ** The cascade of patterns on a frame *)

Definition b_dimreq (l : list str) : bool :=
  match l with [a; _; d] => hashed a && all_digits d | _ => false end.
Definition b_dimwri (l : list str) : bool :=
  match l with a :: _ :: d :: _ => hashed a && hash_digits d | _ => false end.
Definition b_dimres (l : list str) : bool :=
  match l with a :: _ :: _ :: _ => hashed a | _ => false end.
Definition b_normal (l : list str) : bool :=
  match l with [[]; _; _] => false | [_; _; _] => true | _ => false end.
Definition b_status (l : list str) : bool :=
  match l with [a; _] => hashed a | _ => false end.
Definition b_ack (l : list str) : bool :=
  match l with [a; b] => str_eqb a (lit "#") && str_eqb b (lit "1") | _ => false end.
Definition b_nack (l : list str) : bool :=
  match l with [a; b] => str_eqb a (lit "#") && str_eqb b (lit "0") | _ => false end.

Lemma bool_iff (a b : bool) : (a = true <-> b = true) -> a = b.
Proof. destruct a, b; intuition congruence. Qed.

Lemma b_dimreq_spec l : b_dimreq l = true <-> sp_dimreq l.
Proof.
  unfold sp_dimreq. split.
  - destruct l as [|a [|b [|d [|]]]]; try discriminate. cbn [b_dimreq]. intros H.
    apply andb_true_iff in H as [H1 H2]. apply hashed_spec in H1 as (w & -> & N). exists w, b, d. auto.
  - intros (w & a & d & -> & N & D). cbn [b_dimreq]. rewrite D, andb_true_r. apply hashed_spec. eauto.
Qed.
Lemma b_dimwri_spec l : b_dimwri l = true <-> sp_dimwri l.
Proof.
  unfold sp_dimwri. split.
  - destruct l as [|a [|b [|d vs]]]; try discriminate. cbn [b_dimwri]. intros H.
    apply andb_true_iff in H as [H1 H2]. apply hashed_spec in H1 as (w & -> & N).
    apply hash_digits_spec in H2 as (e & -> & D). exists w, b, e, vs. auto.
  - intros (w & a & d & vs & -> & N & D). cbn [b_dimwri]. apply andb_true_iff.
    split; [apply hashed_spec; eauto|apply hash_digits_spec; eauto].
Qed.
Lemma b_dimres_spec l : b_dimres l = true <-> sp_dimres l.
Proof.
  unfold sp_dimres. split.
  - destruct l as [|a [|b [|d vs]]]; try discriminate. cbn [b_dimres]. intros H.
    apply hashed_spec in H as (w & -> & N). exists w, b, d, vs. auto.
  - intros (w & a & d & vs & -> & N). cbn [b_dimres]. apply hashed_spec; eauto.
Qed.
Lemma b_normal_spec l : b_normal l = true <-> sp_normal l.
Proof.
  unfold sp_normal. split.
  - destruct l as [|a [|b [|d [|]]]]; try discriminate; try (destruct a; discriminate).
    intros H. exists a, b, d. split; [reflexivity|]. intros ->. discriminate.
  - intros (w & a & d & -> & N). destruct w; [congruence|reflexivity].
Qed.
Lemma b_status_spec l : b_status l = true <-> sp_status l.
Proof.
  unfold sp_status. split.
  - destruct l as [|a [|b [|]]]; try discriminate. cbn [b_status]. intros H.
    apply hashed_spec in H as (w & -> & N). exists w, b. auto.
  - intros (w & a & -> & N). cbn [b_status]. apply hashed_spec; eauto.
Qed.
Lemma b_ack_spec l : b_ack l = true <-> l = [lit "#"; lit "1"].
Proof.
  split; [|intros ->; reflexivity].
  destruct l as [|a [|b [|]]]; try discriminate. cbn [b_ack]. intros H.
  apply andb_true_iff in H as [H1 H2]. apply str_eqb_spec in H1, H2. subst. reflexivity.
Qed.
Lemma b_nack_spec l : b_nack l = true <-> l = [lit "#"; lit "0"].
Proof.
  split; [|intros ->; reflexivity].
  destruct l as [|a [|b [|]]]; try discriminate. cbn [b_nack]. intros H.
  apply andb_true_iff in H as [H1 H2]. apply str_eqb_spec in H1, H2. subst. reflexivity.
Qed.

(** [parse_message] on a frame, as a decision on tags. *)
Definition parse_tags (l : list str) : res msg :=
  if b_ack l then Ok MAck
  else if b_dimreq l then parse_dimreq l
  else if b_dimwri l then parse_dim MDimWri l
  else if b_dimres l then parse_dim MDimRes l
  else if b_nack l then Ok MNack
  else if b_normal l then parse_normal l
  else if b_status l then parse_status l
  else Ok (MGeneric l).

Lemma parse_generic_valid l : valid_tags l -> parse_generic l = Ok (MGeneric l).
Proof.
  intros V. unfold parse_generic. replace (forallb is_valid_tag l) with true; [reflexivity|].
  symmetry. apply forallb_forall. unfold valid_tags in V. rewrite Forall_forall in V. exact V.
Qed.

Lemma dispatch_frame l :
  l <> [] -> valid_tags l -> dispatch classes (frame l) l = parse_tags l.
Proof.
  intros N V. unfold classes, parse_tags. cbn [dispatch].
  pose proof (frame_stripped l) as S.
  assert (M : forall r b, (lang r (frame l) <-> b = true) -> py_match r (frame l) = b).
  { intros r b H. apply bool_iff. rewrite py_match_stripped by exact S. exact H. }
  rewrite (M R_ack (b_ack l)) by (rewrite b_ack_spec; apply lang_frame_ack; auto).
  rewrite (M R_dimreq (b_dimreq l)) by (rewrite b_dimreq_spec; apply lang_frame_dimreq; auto).
  rewrite (M R_dimwri (b_dimwri l)) by (rewrite b_dimwri_spec; apply lang_frame_dimwri; auto).
  rewrite (M R_dimres (b_dimres l)) by (rewrite b_dimres_spec; apply lang_frame_dimres; auto).
  rewrite (M R_nack (b_nack l)) by (rewrite b_nack_spec; apply lang_frame_nack; auto).
  rewrite (M R_normal (b_normal l)) by (rewrite b_normal_spec; apply lang_frame_normal; auto).
  rewrite (M R_status (b_status l)) by (rewrite b_status_spec; apply lang_frame_status; auto).
  rewrite parse_generic_valid by exact V.
  destruct (b_ack l) eqn:Ea. { apply b_ack_spec in Ea. subst. reflexivity. }
  destruct (b_dimreq l); [reflexivity|]. destruct (b_dimwri l); [reflexivity|].
  destruct (b_dimres l); [reflexivity|].
  destruct (b_nack l) eqn:En. { apply b_nack_spec in En. subst. reflexivity. }
  reflexivity.
Qed.

(** ** The two regimes of [parse_message] *)

Lemma strip_stripped s : stripped (strip s).
Proof. destruct (strip_spec s) as (w1 & w2 & _ & _ & _ & H). exact H. Qed.

Theorem parse_message_frame s l : is_frame s l -> parse_message s = parse_tags l.
Proof.
  intros H. pose proof (proj1 (is_frame_strip s l) H) as (N & W & E).
  apply wiretags in W as [V C]. unfold parse_message.
  rewrite <- count_hh_strip, E.
  rewrite (proj2 (Nat.eqb_eq _ _) (proj2 (count_hh_frame l N) C)). cbn [negb].
  rewrite frame_tags by auto.
  assert (G : py_match R_generic (frame l) = true).
  { apply py_match_stripped; [apply frame_stripped|]. apply lang_generic. eauto. }
  rewrite G. cbn [negb]. apply dispatch_frame; auto.
Qed.

Theorem parse_message_noframe s : (forall l, ~ is_frame s l) -> parse_message s = Err InvalidMessage.
Proof.
  intros H. unfold parse_message.
  destruct (count_hh s =? 1)%nat eqn:C; cbn [negb]; [|reflexivity].
  destruct (py_match R_generic (strip s)) eqn:G; cbn [negb]; [|reflexivity].
  exfalso. apply py_match_stripped in G.
  - apply lang_generic in G as (l & N & V & E). apply (H l). apply is_frame_strip.
    split; [exact N|]. split; [|exact E]. apply wiretags. split; [exact V|].
    apply count_hh_frame; [exact N|]. rewrite <- E, count_hh_strip. apply Nat.eqb_eq, C.
  - apply strip_stripped.
Qed.

Lemma is_frame_dec s : (exists l, is_frame s l) \/ (forall l, ~ is_frame s l).
Proof.
  destruct (count_hh s =? 1)%nat eqn:C.
  - destruct (py_match R_generic (strip s)) eqn:G.
    + left. apply py_match_stripped in G; [|apply strip_stripped].
      apply lang_generic in G as (l & N & V & E). exists l. apply is_frame_strip.
      split; [exact N|]. split; [|exact E]. apply wiretags. split; [exact V|].
      apply count_hh_frame; [exact N|]. rewrite <- E, count_hh_strip. apply Nat.eqb_eq, C.
    + right. intros l H. apply is_frame_strip in H as (N & W & E). apply wiretags in W as [V _].
      rewrite E in G. enough (py_match R_generic (frame l) = true) by congruence.
      apply py_match_stripped; [apply frame_stripped|]. apply lang_generic. eauto.
  - right. intros l H. apply is_frame_strip in H as (N & W & E). apply wiretags in W as [V Z].
    apply count_hh_frame in Z; [|exact N]. rewrite <- E, count_hh_strip in Z. apply Nat.eqb_neq in C. contradiction.
Qed.

(** ** Results of the class parsers *)

Lemma mk_valid t : is_valid_tag t = true -> mk t = Ok t.
Proof. intros H. unfold mk, tag_make. cbn. rewrite H. reflexivity. Qed.

Lemma mapM_mk l : valid_tags l -> mapM mk l = Ok l.
Proof.
  intros V. induction V as [|t l Ht V IH]; [reflexivity|]. cbn [mapM]. rewrite (mk_valid _ Ht). cbn [bind].
  rewrite IH. reflexivity.
Qed.

Lemma unhash_cons w : unhash (c_hash :: w) = w.
Proof. exact (removeprefix_app [c_hash] w). Qed.

Lemma unhash_not d : (forall e, d <> c_hash :: e) -> unhash d = d.
Proof.
  intros H. apply removeprefix_not. destruct (startswith [c_hash] d) eqn:E; [|reflexivity].
  apply startswith_spec in E as (r & ->). exfalso. apply (H r). reflexivity.
Qed.

Lemma unhash_valid d : is_valid_tag d = true -> is_valid_tag (unhash d) = true.
Proof.
  intros H. destruct d as [|c d]; [exact H|].
  destruct (N.eq_dec c c_hash) as [-> | X].
  - rewrite unhash_cons. exact H.
  - rewrite unhash_not; [exact H|]. intros e E. congruence.
Qed.

Lemma who_of_cases x : (exists w, x = who_str w /\ who_of x = Ok w) \/ (~ known_who x /\ who_of x = Err ValueError).
Proof.
  destruct (who_of x) as [w|e] eqn:E.
  - left. exists w. split; [apply who_of_ok, E|reflexivity].
  - right. destruct (who_of_err _ _ E) as [-> H]. split; [|reflexivity].
    intros (w & X). exact (H w X).
Qed.

Lemma parse_dim_ok c w a d vs :
  valid_tags ((c_hash :: w) :: a :: d :: vs) ->
  parse_dim c ((c_hash :: w) :: a :: d :: vs)
  = match who_of w with Ok k => Ok (c k a (unhash d) vs) | Err e => Err e end.
Proof.
  intros V. inversion V as [|? ? V0 V1]; subst. inversion V1 as [|? ? V2 V3]; subst.
  inversion V3 as [|? ? V4 V5]; subst.
  unfold parse_dim. cbn [skipn]. rewrite (mapM_mk _ V5). cbn [bind index nth_error].
  rewrite unhash_cons. destruct (who_of w); [|reflexivity]. cbn [bind].
  rewrite (mk_valid _ V2). cbn [bind]. rewrite (mk_valid _ (unhash_valid _ V4)). reflexivity.
Qed.

Lemma parse_dimreq_ok w a d :
  valid_tags [c_hash :: w; a; d] ->
  parse_dimreq [c_hash :: w; a; d] = match who_of w with Ok k => Ok (MDimReq k a d) | Err e => Err e end.
Proof.
  intros V. inversion V as [|? ? V0 V1]; subst. inversion V1 as [|? ? V2 V3]; subst.
  inversion V3 as [|? ? V4 V5]; subst.
  unfold parse_dimreq. cbn [bind index nth_error]. rewrite unhash_cons.
  destruct (who_of w); [|reflexivity]. cbn [bind].
  rewrite (mk_valid _ V2). cbn [bind]. rewrite (mk_valid _ V4). reflexivity.
Qed.

Lemma parse_status_ok w a :
  valid_tags [c_hash :: w; a] ->
  parse_status [c_hash :: w; a] = match who_of w with Ok k => Ok (MStatus k a) | Err e => Err e end.
Proof.
  intros V. inversion V as [|? ? V0 V1]; subst. inversion V1 as [|? ? V2 V3]; subst.
  unfold parse_status. cbn [bind index nth_error]. rewrite unhash_cons.
  destruct (who_of w); [|reflexivity]. cbn [bind].
  rewrite (mk_valid _ V2). reflexivity.
Qed.

Lemma parse_normal_ok w a d :
  valid_tags [w; a; d] ->
  parse_normal [w; a; d] = match who_of w with Ok k => Ok (MNormal k a d) | Err e => Err e end.
Proof.
  intros V. inversion V as [|? ? V0 V1]; subst. inversion V1 as [|? ? V2 V3]; subst.
  inversion V3 as [|? ? V4 V5]; subst.
  unfold parse_normal. cbn [bind index nth_error].
  destruct (who_of w); [|reflexivity]. cbn [bind].
  rewrite (mk_valid _ V2). cbn [bind]. rewrite (mk_valid _ V4). reflexivity.
Qed.

(** ** Outcome of a frame *)

(** Either a message that the tags denote, of the kind of the tags; or the
    frame has a WHO text that is not a known WHO and ValueError is raised. *)
Inductive outcome (l : list str) : res msg -> Prop :=
| O_ok m : denotes l m -> kind l (msg_type m) -> outcome l (Ok m)
| O_who x : who_text l x -> ~ known_who x -> outcome l (Err ValueError).

Lemma not_hashed a : hashed a = false -> ~ hashed_tag a.
Proof. intros H X. apply hashed_spec in X. congruence. Qed.

Lemma not_all_digits d : all_digits d = false -> ~ digits d.
Proof. intros H X. apply digits_all in X. congruence. Qed.

Lemma outcome_tags l : l <> [] -> valid_tags l -> outcome l (parse_tags l).
Proof.
  intros N V. unfold parse_tags.
  destruct (b_ack l) eqn:Ea.
  { apply b_ack_spec in Ea. subst. constructor; constructor. }
  destruct (b_dimreq l) eqn:Eq.
  { apply b_dimreq_spec in Eq as (w & a & d & -> & Nw & D). rewrite parse_dimreq_ok by exact V.
    apply digits_all in D.
    destruct (who_of_cases w) as [(k & -> & ->) | [NK ->]].
    - constructor; constructor; auto using who_str_not_nil.
    - apply O_who with w; [|exact NK]. constructor; [exact Nw|discriminate]. }
  destruct (b_dimwri l) eqn:Ew.
  { apply b_dimwri_spec in Ew as (w & a & d & vs & -> & Nw & D). rewrite parse_dim_ok by exact V.
    apply digits_all in D.
    destruct (who_of_cases w) as [(k & -> & ->) | [NK ->]].
    - rewrite unhash_cons. constructor; constructor; auto using who_str_not_nil.
    - apply O_who with w; [|exact NK]. constructor; [exact Nw|discriminate]. }
  destruct (b_dimres l) eqn:Er.
  { apply b_dimres_spec in Er as (w & a & d & vs & -> & Nw). rewrite parse_dim_ok by exact V.
    assert (H1 : ~ (digits d /\ vs = [])).
    { intros [D ->]. apply digits_all in D. enough (b_dimreq [c_hash :: w; a; d] = true) by congruence.
      apply b_dimreq_spec. exists w, a, d. auto. }
    assert (H2 : ~ (exists e, d = 35 :: e /\ digits e)).
    { intros (e & -> & D). apply digits_all in D.
      enough (b_dimwri ((c_hash :: w) :: a :: (35 :: e) :: vs) = true) by congruence.
      apply b_dimwri_spec. exists w, a, e, vs. auto. }
    destruct (who_of_cases w) as [(k & -> & ->) | [NK ->]].
    - destruct d as [|c d].
      + apply O_ok; [|apply K_dimres; auto using who_str_not_nil].
        apply D_dimres; [exact H1|discriminate].
      + destruct (N.eq_dec c c_hash) as [-> | Nc].
        * rewrite unhash_cons. apply O_ok; [|apply K_dimres; auto using who_str_not_nil].
          apply D_dimres_hash. intros D. apply H2. exists d. auto.
        * rewrite unhash_not by (intros e E; congruence).
          apply O_ok; [|apply K_dimres; auto using who_str_not_nil].
          apply D_dimres; [exact H1|]. intros e E. apply Nc. injection E as -> _. reflexivity.
    - apply O_who with w; [|exact NK]. constructor; [exact Nw|discriminate]. }
  destruct (b_nack l) eqn:En.
  { apply b_nack_spec in En. subst. constructor; constructor. }
  destruct (b_normal l) eqn:Em.
  { apply b_normal_spec in Em as (w & a & b & -> & Nw). rewrite parse_normal_ok by exact V.
    assert (H : ~ hashed_tag w).
    { intros X. apply hashed_spec in X. cbn in Er. congruence. }
    destruct (who_of_cases w) as [(k & -> & ->) | [NK ->]].
    - constructor; constructor; auto using who_str_not_nil.
    - apply O_who with w; [|exact NK]. constructor. constructor; auto. }
  destruct (b_status l) eqn:Es.
  { apply b_status_spec in Es as (w & a & -> & Nw). rewrite parse_status_ok by exact V.
    destruct (who_of_cases w) as [(k & -> & ->) | [NK ->]].
    - constructor; constructor; auto using who_str_not_nil.
    - apply O_who with w; [|exact NK]. constructor; [exact Nw|discriminate]. }
  assert (K : kind l T_GENERIC).
  { destruct l as [|a [|b [|d [|e vs]]]].
    - congruence.
    - constructor.
    - apply K_generic2; [apply not_hashed, Es|]. intros [-> [-> | ->]]; discriminate.
    - destruct a; [constructor|discriminate].
    - apply K_generic4. apply not_hashed, Er. }
  constructor; [constructor|]; exact K.
Qed.

Theorem parse_outcome s l : is_frame s l -> outcome l (parse_message s).
Proof.
  intros H. rewrite (parse_message_frame _ _ H). destruct H as (N & W & _).
  apply wiretags in W as [V _]. apply outcome_tags; auto.
Qed.

(** ** The specification is functional *)

Lemma hashed_self w : w <> [] -> hashed_tag (35 :: w).
Proof. intros H. exists w. auto. Qed.

Lemma digits_nohash35 d : ~ digits (35 :: d).
Proof. intros H. inversion H as [|? ? X _]. unfold digitchar in X. lia. Qed.

Ltac kcontra :=
  repeat match goal with
  | H : ~ hashed_tag (35 :: ?w), N : ?w <> [] |- _ => exfalso; apply H, hashed_self, N
  | H : digits (35 :: _) |- _ => exfalso; exact (digits_nohash35 _ H)
  | H : [] <> [] |- _ => exfalso; apply H; reflexivity
  end.

Lemma kind_functional l k1 k2 : kind l k1 -> kind l k2 -> k1 = k2.
Proof.
  intros H1 H2; inversion H1; subst; inversion H2; subst; try reflexivity; kcontra;
  try (exfalso; match goal with
       | H : ~ (digits ?d /\ [] = []) , D : digits ?d |- _ => apply H; auto
       | H : ~ (digits ?d /\ ?vs = []) , D : digits ?d |- _ => apply H; auto
       | H : ~ (exists e, 35 :: ?d = 35 :: e /\ digits e), D : digits ?d |- _ => apply H; eauto
       | H : ~ (_ /\ (_ \/ _)) |- _ => apply H; auto
       end).
Qed.

Lemma kind_total l : l <> [] -> exists k, kind l k.
Proof.
  intros N. destruct l as [|a [|b [|d [|e vs]]]].
  - congruence.
  - eexists. constructor.
  - destruct (hashed a) eqn:E.
    + apply hashed_spec in E as (w & -> & Nw). eexists. apply K_status, Nw.
    + destruct (b_ack [a; b]) eqn:Ea; [apply b_ack_spec in Ea as [= -> ->]; eexists; constructor|].
      destruct (b_nack [a; b]) eqn:En; [apply b_nack_spec in En as [= -> ->]; eexists; constructor|].
      eexists. apply K_generic2; [apply not_hashed, E|]. intros [-> [-> | ->]]; discriminate.
  - destruct (hashed a) eqn:E.
    + apply hashed_spec in E as (w & -> & Nw).
      destruct (all_digits d) eqn:Ed; [eexists; apply K_dimreq; [exact Nw|apply digits_all, Ed]|].
      destruct (hash_digits d) eqn:Eh.
      * apply hash_digits_spec in Eh as (x & -> & D). eexists. apply K_dimwri; [exact Nw|apply digits_all, D].
      * eexists. apply K_dimres; [exact Nw| |].
        -- intros [D _]. apply not_all_digits in Ed. contradiction.
        -- intros (x & -> & D). apply digits_all in D.
           enough (hash_digits (35 :: x) = true) by congruence. apply hash_digits_spec. eauto.
    + destruct a as [|c a]; [eexists; apply K_generic3|].
      eexists. apply K_normal; [discriminate|]. apply not_hashed, E.
  - destruct (hashed a) eqn:E.
    + apply hashed_spec in E as (w & -> & Nw).
      destruct (hash_digits d) eqn:Eh.
      * apply hash_digits_spec in Eh as (x & -> & D). eexists. apply K_dimwri; [exact Nw|apply digits_all, D].
      * eexists. apply K_dimres; [exact Nw| |].
        -- intros [_ D]. discriminate.
        -- intros (x & -> & D). apply digits_all in D.
           enough (hash_digits (35 :: x) = true) by congruence. apply hash_digits_spec. eauto.
    + eexists. apply K_generic4. apply not_hashed, E.
Qed.

Lemma denotes_kind l m : denotes l m -> kind l (msg_type m).
Proof.
  intros H; inversion H; subst; cbn [msg_type].
  - constructor.
  - constructor.
  - apply K_status, who_str_not_nil.
  - apply K_dimreq; auto using who_str_not_nil.
  - apply K_dimwri; auto using who_str_not_nil.
  - apply K_dimres; auto using who_str_not_nil. intros (e & -> & _). eapply H1. reflexivity.
  - apply K_dimres; auto using who_str_not_nil.
    + intros [D _]. exact (digits_nohash35 _ D).
    + intros (e & [= ->] & D). contradiction.
  - apply K_normal; [apply who_str_not_nil|]. intros (x & E & _).
    pose proof (digits_nohash _ (who_str_digits w)) as X. rewrite E in X. apply X. left. reflexivity.
  - exact H0.
Qed.

Lemma denotes_functional l m1 m2 : denotes l m1 -> denotes l m2 -> m1 = m2.
Proof.
  intros H1 H2. pose proof (kind_functional _ _ _ (denotes_kind _ _ H1) (denotes_kind _ _ H2)) as K.
  inversion H1; subst; inversion H2; subst; cbn in K; try discriminate; try reflexivity;
  repeat match goal with H : who_str _ = who_str _ |- _ => apply who_str_inj in H; subst end; try reflexivity;
  try (exfalso; match goal with H : forall e, 35 :: _ <> 35 :: e |- _ => eapply H; reflexivity end).
Qed.

Lemma denotes_known l m x : denotes l m -> who_text l x -> known_who x.
Proof.
  intros H W. pose proof (denotes_kind _ _ H) as K.
  inversion H; subst; inversion W; subst; try (eexists; reflexivity); try congruence;
  try (match goal with
       | A : kind ?l T_GENERIC, B : kind ?l T_NORMAL |- _ =>
         pose proof (kind_functional _ _ _ A B); discriminate
       end).
  all: cbn [msg_type] in K.
  all: try (match goal with
       | E : 35 :: ?x = who_str ?w |- _ =>
         exfalso; pose proof (digits_nohash _ (who_str_digits w)) as X; rewrite <- E in X; apply X; left; reflexivity
       end).
  all: try (match goal with
       | A : kind ?l ?a, B : kind ?l ?b |- _ =>
         pose proof (kind_functional _ _ _ A B); discriminate
       end).
  all: inversion K; subst; kcontra.
Qed.

(** ** Exact characterisation of every outcome *)

Theorem parse_ok_iff s m : parse_message s = Ok m <-> exists l, is_frame s l /\ denotes l m.
Proof.
  split.
  - intros H. destruct (is_frame_dec s) as [(l & F) | NF].
    + exists l. split; [exact F|]. pose proof (parse_outcome _ _ F) as O. rewrite H in O.
      inversion O; subst; assumption.
    + rewrite (parse_message_noframe _ NF) in H. discriminate.
  - intros (l & F & D). pose proof (parse_outcome _ _ F) as O. inversion O as [m' D' K' E|x W NK E]; subst.
    + f_equal. eapply denotes_functional; eauto.
    + exfalso. apply NK. eapply denotes_known; eauto.
Qed.

Theorem parse_value_error_iff s :
  parse_message s = Err ValueError <-> exists l x, is_frame s l /\ who_text l x /\ ~ known_who x.
Proof.
  split.
  - intros H. destruct (is_frame_dec s) as [(l & F) | NF].
    + pose proof (parse_outcome _ _ F) as O. rewrite H in O. inversion O as [|x W NK]; subst. eauto.
    + rewrite (parse_message_noframe _ NF) in H. discriminate.
  - intros (l & x & F & W & NK). pose proof (parse_outcome _ _ F) as O. inversion O as [m' D' K' E|y W' NK' E]; subst.
    + exfalso. apply NK. eapply denotes_known; eauto.
    + reflexivity.
Qed.

Theorem parse_invalid_iff s :
  parse_message s = Err InvalidMessage <-> forall l, ~ is_frame s l.
Proof.
  split.
  - intros H l F. pose proof (parse_outcome _ _ F) as O. rewrite H in O. inversion O.
  - apply parse_message_noframe.
Qed.

Theorem parse_errors s e : parse_message s = Err e -> e = InvalidMessage \/ e = ValueError.
Proof.
  intros H. destruct (is_frame_dec s) as [(l & F) | NF].
  - pose proof (parse_outcome _ _ F) as O. rewrite H in O. inversion O. auto.
  - rewrite (parse_message_noframe _ NF) in H. left. congruence.
Qed.
