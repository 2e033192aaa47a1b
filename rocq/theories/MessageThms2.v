(** * Printing, round trips, equality *)
From Coq Require Import String List NArith ZArith Bool Lia.
From Verif Require Import PyStr Regex Tags Messages MessageFacts SpecMsg MessageThms.
Import ListNotations.
Open Scope N_scope.
Open Scope list_scope.

(** ** Printing as a frame of tags *)

Definition vals_tags (vs : list str) : list str := match vs with [] => [[]] | _ => vs end.

(** The tags of the frame that the printer writes. *)
Definition ptags (m : msg) : list str :=
  match m with
  | MAck => [[35]; [49]]
  | MNack => [[35]; [48]]
  | MNormal w a b => [who_str w; a; b]
  | MStatus w a => [35 :: who_str w; a]
  | MDimReq w a d => [35 :: who_str w; a; d]
  | MDimWri w a d vs => (35 :: who_str w) :: a :: (35 :: d) :: vals_tags vs
  | MDimRes w a d vs => (35 :: who_str w) :: a :: d :: vals_tags vs
  | MGeneric l => vals_tags l
  end.

Lemma ptags_not_nil m : ptags m <> [].
Proof. destruct m; cbn; try discriminate. destruct tags; discriminate. Qed.

Lemma join_vals vs : join c_star vs = join c_star (vals_tags vs).
Proof. destruct vs; reflexivity. Qed.

Lemma msg_str_frame m : msg_str m = frame (ptags m).
Proof.
  destruct m; cbn [msg_str ptags]; try reflexivity.
  - rewrite frame_3. cbn [map concat app]. reflexivity.
  - rewrite frame_2. reflexivity.
  - rewrite frame_3. cbn [map concat app]. reflexivity.
  - unfold frame. rewrite (join_vals vals). assert (N : vals_tags vals <> []) by (destruct vals; discriminate).
    rewrite !join_cons by (exact N || discriminate). cbn [app lit].
    rewrite <- ?app_assoc. cbn [app]. rewrite <- ?app_assoc. cbn [app]. rewrite <- ?app_assoc. reflexivity.
  - unfold frame. rewrite (join_vals vals). assert (N : vals_tags vals <> []) by (destruct vals; discriminate).
    rewrite !join_cons by (exact N || discriminate). cbn [app lit].
    rewrite <- ?app_assoc. cbn [app]. rewrite <- ?app_assoc. cbn [app]. rewrite <- ?app_assoc. reflexivity.
  - rewrite join_vals. reflexivity.
Qed.

Lemma msg_str_wire m : msg_str m = wire (ptags m).
Proof. rewrite wire_frame by apply ptags_not_nil. apply msg_str_frame. Qed.

(** ** Tag lemmas *)

Lemma digits_wiretag d : digits d -> wiretag d.
Proof.
  intros H. split.
  - eapply Forall_impl; [|exact H]. intros c Hc. left. exact Hc.
  - intros (u & v & ->). unfold digits in H. rewrite Forall_app in H. destruct H as [_ H].
    exact (digits_nohash35 _ H).
Qed.

Lemma who_wiretag w : wiretag (who_str w).
Proof. apply digits_wiretag, digits_all, who_str_digits. Qed.

Lemma hash_digits_wiretag d : digits d -> wiretag (35 :: d).
Proof.
  intros H. split.
  - constructor; [right; reflexivity|]. apply digits_wiretag, H.
  - intros (u & v & E). destruct u as [|x u].
    + cbn in E. injection E as ->. exact (digits_nohash35 _ H).
    + injection E as _ ->. unfold digits in H. rewrite Forall_app in H. destruct H as [_ H].
      exact (digits_nohash35 _ H).
Qed.

Lemma hash_who_wiretag w : wiretag (35 :: who_str w).
Proof. apply hash_digits_wiretag, digits_all, who_str_digits. Qed.

Lemma nil_wiretag : wiretag [].
Proof. apply digits_wiretag. constructor. Qed.

Lemma vals_wiretag vs : Forall wiretag vs -> Forall wiretag (vals_tags vs).
Proof. destruct vs; [constructor; [apply nil_wiretag|constructor]|auto]. Qed.

Lemma vals_tagtext vs : Forall tagtext vs -> Forall tagtext (vals_tags vs).
Proof. destruct vs; [constructor; [constructor|constructor]|auto]. Qed.

Lemma wiretag_tagtext t : wiretag t -> tagtext t.
Proof. intros [H _]; exact H. Qed.

Lemma built_ptags m : built m -> valid_tags (ptags m).
Proof.
  intros [H _]. apply Forall_impl with (P := tagtext); [intros t; apply tagtext_valid|].
  pose proof (fun w => wiretag_tagtext _ (who_wiretag w)) as W.
  pose proof (fun w => wiretag_tagtext _ (hash_who_wiretag w)) as WH.
  destruct m; cbn [ptags free_tags] in *.
  - repeat constructor; unfold tagchar; auto; lia.
  - repeat constructor; unfold tagchar; auto; lia.
  - constructor; auto.
  - constructor; auto.
  - constructor; auto.
  - inversion H as [|? ? H1 H2]; subst. inversion H2 as [|? ? H3 H4]; subst.
    repeat (constructor; auto using vals_tagtext); right; reflexivity.
  - inversion H as [|? ? H1 H2]; subst. inversion H2 as [|? ? H3 H4]; subst.
    repeat (constructor; auto using vals_tagtext).
  - apply vals_tagtext, H.
Qed.

(** ** Round trip, exactly *)

Lemma denotes_ptags_wf m :
  built m -> Forall wiretag (ptags m) -> denotes (ptags m) m -> wellformed m.
Proof.
  intros B W D. destruct m; cbn [ptags] in *; unfold wellformed; cbn [free_tags].
  - split; [constructor|exact I].
  - split; [constructor|exact I].
  - inversion W; subst. split; auto.
  - inversion W; subst. split; auto.
  - inversion W; subst. split; auto. inversion D; subst; auto.
  - inversion W as [|? ? _ W1]; subst. inversion W1 as [|? ? Wa W2]; subst. inversion W2 as [|? ? Wd Wv]; subst.
    inversion D; subst.
    + destruct vals; [discriminate|].
      split; [constructor; [exact Wa|constructor; [apply digits_wiretag; assumption|exact Wv]]|].
      split; [assumption|discriminate].
  - inversion W as [|? ? _ W1]; subst. inversion W1 as [|? ? Wa W2]; subst. inversion W2 as [|? ? Wd Wv]; subst.
    inversion D as [| | | | |? ? ? ? H1 H2 E| ? ? ? ? H1 E | |]; subst.
    + destruct vals; [discriminate|].
      split; [constructor; [exact Wa|constructor; [exact Wd|exact Wv]]|].
      split; [assumption|discriminate].
    + exfalso. match goal with
               | E : 35 :: ?x = ?x |- _ => apply (f_equal (@length N)) in E; cbn in E; lia
               | E : ?x = 35 :: ?x |- _ => apply (f_equal (@length N)) in E; cbn in E; lia
               end.
  - destruct B as [_ B]. destruct tags as [|t l]; [exfalso; apply (B [] eq_refl); reflexivity|].
    cbn [vals_tags] in *. split; [exact W|]. split; [discriminate|].
    exact (denotes_kind _ _ D).
Qed.

Lemma wf_built m : wellformed m -> built m.
Proof.
  intros [H S]. split.
  - eapply Forall_impl; [|exact H]. apply wiretag_tagtext.
  - intros l ->. apply S.
Qed.

Lemma wf_ptags m : wellformed m -> Forall wiretag (ptags m).
Proof.
  intros [H S]. pose proof who_wiretag as W. pose proof hash_who_wiretag as WH.
  destruct m; cbn [ptags free_tags] in *.
  - constructor; [|constructor; [|constructor]].
    + apply (hash_digits_wiretag []). constructor.
    + apply digits_wiretag. constructor; [unfold digitchar; lia|constructor].
  - constructor; [|constructor; [|constructor]].
    + apply (hash_digits_wiretag []). constructor.
    + apply digits_wiretag. constructor; [unfold digitchar; lia|constructor].
  - constructor; auto.
  - constructor; auto.
  - constructor; auto.
  - inversion H as [|? ? H1 H2]; subst. inversion H2 as [|? ? H3 H4]; subst. destruct S as [D _].
    repeat (constructor; auto using vals_wiretag, hash_digits_wiretag).
  - inversion H as [|? ? H1 H2]; subst. inversion H2 as [|? ? H3 H4]; subst.
    repeat (constructor; auto using vals_wiretag).
  - apply vals_wiretag, H.
Qed.

Lemma wf_denotes m : wellformed m -> denotes (ptags m) m.
Proof.
  intros [H S]. destruct m; cbn [ptags free_tags] in *.
  - constructor.
  - constructor.
  - constructor.
  - constructor.
  - constructor; exact S.
  - destruct S as [D N]. destruct vals; [congruence|]. constructor; exact D.
  - destruct S as [D N]. destruct vals; [congruence|]. apply D_dimres; [|exact D]. intros [_ X]. discriminate.
  - destruct S as [N K]. destruct tags; [congruence|]. constructor. exact K.
Qed.

Lemma is_frame_self l : l <> [] -> Forall wiretag l -> is_frame (wire l) l.
Proof.
  intros N W. split; [exact N|]. split; [exact W|]. exists [], []. repeat split; try constructor.
  rewrite app_nil_r. reflexivity.
Qed.

Theorem print_parse m : wellformed m -> parse_message (msg_str m) = Ok m.
Proof.
  intros H. apply parse_ok_iff. exists (ptags m). rewrite msg_str_wire. split.
  - apply is_frame_self; [apply ptags_not_nil|apply wf_ptags, H].
  - apply wf_denotes, H.
Qed.

(** The side conditions are exactly what is needed. *)
Theorem print_parse_iff m : built m -> (parse_message (msg_str m) = Ok m <-> wellformed m).
Proof.
  intros B. split; [|apply print_parse].
  intros H. apply parse_ok_iff in H as (l & F & D).
  assert (E : l = ptags m).
  { apply is_frame_strip in F as (N & W & E). rewrite msg_str_frame in E.
    rewrite strip_id in E by apply frame_stripped.
    apply frame_inj in E; auto using ptags_not_nil, built_ptags. apply wiretags in W. tauto. }
  subst l. apply denotes_ptags_wf; auto. apply F.
Qed.

Theorem print_injective m1 m2 :
  wellformed m1 -> wellformed m2 -> msg_str m1 = msg_str m2 -> m1 = m2.
Proof.
  intros H1 H2 E. apply print_parse in H1, H2. rewrite E, H2 in H1. congruence.
Qed.

(** ** Parsing, then printing *)

(** The frames that do not survive: a writing or a response without any value,
    and a response whose dimension text starts with '#'. *)
Definition lossy (l : list str) : Prop :=
  ((kind l T_DIMWRI \/ kind l T_DIMRES) /\ length l = 3%nat) \/
  (kind l T_DIMRES /\ exists a b e vs, l = a :: b :: (35 :: e) :: vs).

Lemma ptags_lossy l m : denotes l m -> (ptags m = l <-> ~ lossy l).
Proof.
  intros D. pose proof (denotes_kind _ _ D) as K.
  assert (HK : forall k, kind l k -> k = msg_type m) by (intros k Hk; eapply kind_functional; eauto).
  unfold lossy.
  inversion D; subst; cbn [ptags msg_type] in *; (split; [intros E|intros NL]).
  all: try reflexivity.
  all: try (intros [[[H'|H'] _] | [H' _]]; apply HK in H'; discriminate).
  - (* writing *) intros [[_ L] | [H' _]]; [|apply HK in H'; discriminate].
    destruct vs; [discriminate|]. cbn in L. lia.
  - destruct vs; [|reflexivity]. exfalso. apply NL. left. split; [left; exact K|reflexivity].
  - (* response *) intros [[_ L] | [_ (a' & b' & e & vs' & E')]].
    + destruct vs; [discriminate|]. cbn in L. lia.
    + injection E' as _ _ E' _. eapply H0. exact E'.
  - destruct vs; [|reflexivity]. exfalso. apply NL. left. split; [right; exact K|reflexivity].
  - (* response, '#' *) exfalso. injection E as E _. apply (f_equal (@length N)) in E. cbn in E. lia.
  - exfalso. apply NL. right. split; [exact K|]. eauto.
  - (* generic *) destruct l; [inversion H|reflexivity].
Qed.

Theorem parse_print_iff s l m :
  is_frame s l -> parse_message s = Ok m -> (msg_str m = strip s <-> ~ lossy l).
Proof.
  intros F H. apply parse_ok_iff in H as (l' & F' & D).
  rewrite (is_frame_unique _ _ _ F' F) in *. clear l' F'.
  rewrite <- (ptags_lossy _ _ D).
  pose proof (proj1 (is_frame_strip _ _) F) as (N & W & ->). rewrite msg_str_frame.
  split; [|congruence]. intros E.
  assert (B : valid_tags (ptags m)).
  { clear E. apply wiretags in W as [V _]. inversion D; subst; cbn [ptags]; auto.
    - inversion V as [|? ? V0 V1]; subst. inversion V1 as [|? ? V2 V3]; subst. inversion V3; subst.
      repeat (constructor; auto). destruct vs; auto. constructor; [reflexivity|constructor].
    - inversion V as [|? ? V0 V1]; subst. inversion V1 as [|? ? V2 V3]; subst. inversion V3; subst.
      repeat (constructor; auto). destruct vs; auto. constructor; [reflexivity|constructor].
    - inversion V as [|? ? V0 V1]; subst. inversion V1 as [|? ? V2 V3]; subst. inversion V3; subst.
      repeat (constructor; auto). destruct vs; auto. constructor; [reflexivity|constructor].
    - destruct l; auto. constructor; [reflexivity|constructor]. }
  apply wiretags in W as [V _].
  apply frame_inj in E; auto using ptags_not_nil.
Qed.

(** Every parsed message was built from valid tags and carries a wire text. *)
Lemma parse_built s m : parse_message s = Ok m -> built m.
Proof.
  intros H. apply parse_ok_iff in H as (l & (N & W & _) & D).
  assert (T : Forall tagtext l) by (eapply Forall_impl; [|exact W]; apply wiretag_tagtext).
  assert (U : forall t, tagtext (35 :: t) -> tagtext t) by (intros t Ht; inversion Ht; assumption).
  inversion D; subst; split; cbn [free_tags]; try (intros ? [=]; subst; assumption);
    repeat match goal with H : Forall tagtext (_ :: _) |- _ => inversion H; clear H; subst end;
    repeat (constructor; auto).
  - exact T.
Qed.

(** ** Same class, same text *)
Theorem print_injective_class m1 m2 :
  built m1 -> built m2 -> msg_type m1 = msg_type m2 -> msg_str m1 = msg_str m2 ->
  ptags m1 = ptags m2.
Proof.
  intros B1 B2 _ E. rewrite !msg_str_frame in E.
  apply frame_inj in E; auto using ptags_not_nil, built_ptags.
Qed.

(** ** Bytes *)

Definition wirechar (c : N) : Prop := tagchar c \/ c = 42.

Lemma wire_chars l : Forall tagtext l -> Forall wirechar (wire l).
Proof.
  intros H. unfold wire. apply Forall_app. split.
  - induction H as [|t l Ht H IH]; cbn; [constructor|]. constructor; [right; reflexivity|].
    apply Forall_app. split; [|exact IH]. eapply Forall_impl; [|exact Ht]. intros c Hc. left. exact Hc.
  - repeat constructor; left; right; reflexivity.
Qed.

Lemma encode_ok s : Forall wirechar s -> encode_ascii s = Ok s.
Proof.
  intros H. unfold encode_ascii. replace (forallb (fun c => c <? 128) s) with true; [reflexivity|].
  symmetry. apply forallb_forall. intros c Hc. rewrite Forall_forall in H. specialize (H c Hc).
  apply N.ltb_lt. unfold wirechar, tagchar in H. lia.
Qed.

Theorem bytes_ok m :
  built m ->
  msg_bytes m = Ok (msg_str m) /\ Forall wirechar (msg_str m) /\
  exists b, msg_str m = 42 :: b ++ [35; 35].
Proof.
  intros B. assert (W : Forall wirechar (msg_str m)).
  { rewrite msg_str_wire. apply wire_chars. apply built_ptags in B.
    eapply Forall_impl; [|exact B]. intros t. apply tagtext_valid. }
  split; [apply encode_ok, W|]. split; [exact W|].
  rewrite msg_str_frame. exists (join c_star (ptags m)). reflexivity.
Qed.

(** ** Equality *)

Lemma list_str_eqb_spec a b : list_str_eqb a b = true <-> a = b.
Proof.
  revert b. induction a as [|x a IH]; intros [|y b]; cbn; try (split; congruence).
  rewrite andb_true_iff, str_eqb_spec, IH. split; [intros [-> ->]; reflexivity|intros [= -> ->]; auto].
Qed.

Theorem msg_eq_spec a b : msg_eq a b = true <-> a = b.
Proof.
  unfold msg_eq. split.
  - destruct (isinstance_of (msg_type b) (msg_type a)); [|discriminate].
    intros H. apply andb_true_iff in H as [T L]. apply mtype_eqb_spec in T. apply list_str_eqb_spec in L.
    destruct a, b; cbn in T; try discriminate; cbn [msg_tags] in L; try reflexivity;
    first [injection L; intros; subst | subst];
    repeat match goal with H : who_str _ = who_str _ |- _ => apply who_str_inj in H; subst end; reflexivity.
  - intros ->. unfold isinstance_of. rewrite (proj2 (mtype_eqb_spec _ _) eq_refl). cbn.
    rewrite (proj2 (list_str_eqb_spec _ _) eq_refl). reflexivity.
Qed.
