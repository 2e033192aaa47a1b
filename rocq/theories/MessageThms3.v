(** * Corollaries used by the message properties *)
From Coq Require Import String List NArith ZArith Bool Lia.
From Verif Require Import PyStr Regex Tags Messages MessageFacts SpecMsg SpecTag MessageThms MessageThms2 TagThms.
Import ListNotations.
Open Scope N_scope.
Open Scope list_scope.

(** ** Boolean checks, to settle concrete cases by computation *)

Definition wiretagb (t : str) : bool := is_valid_tag t && (count_hh t =? 0)%nat.

Lemma wiretagb_spec t : wiretagb t = true <-> wiretag t.
Proof.
  unfold wiretagb, wiretag. rewrite andb_true_iff, tagtext_valid, has_hh_count, Nat.eqb_eq. reflexivity.
Qed.

Lemma wiretagsb l : forallb wiretagb l = true -> Forall wiretag l.
Proof. rewrite forallb_forall, Forall_forall. intros H t Ht. apply wiretagb_spec, H, Ht. Qed.

Lemma frame_example : is_frame (lit " *1*1*12## ") [lit "1"; lit "1"; lit "12"].
Proof.
  apply is_frame_strip. split; [discriminate|]. split; [apply wiretagsb; reflexivity|reflexivity].
Qed.

(** ** C07 *)

Lemma wirechar_body c : wirechar c <-> body_char c = true.
Proof.
  unfold wirechar, body_char. rewrite orb_true_iff, is_tagc_spec, N.eqb_eq. reflexivity.
Qed.

Lemma frame_chars s :
  (exists l, is_frame s l) <->
  (exists w1 body w2, white w1 /\ white w2 /\ s = w1 ++ 42 :: body ++ [35; 35] ++ w2 /\
                      Forall wirechar body /\ ~ has_hh body).
Proof.
  split.
  - intros (l & N & W & w1 & w2 & H1 & H2 & ->). exists w1, (join c_star l), w2.
    rewrite wire_frame by exact N. unfold frame.
    apply wiretags in W as [V C].
    repeat split; auto.
    + cbn [app]. rewrite <- app_assoc. reflexivity.
    + apply Forall_forall. intros c Hc. apply wirechar_body.
      pose proof (proj2 (body_tags (join c_star l))) as B. rewrite split_join in B by auto using valid_tags_nostar.
      specialize (B V). rewrite forallb_forall in B. apply B, Hc.
    + apply has_hh_count. apply count_hh_join; auto.
  - intros (w1 & b & w2 & H1 & H2 & -> & B & NH). exists (split c_star b).
    assert (N : split c_star b <> []) by apply split_not_nil.
    split; [exact N|]. split.
    + apply wiretags. split.
      * apply body_tags. apply forallb_forall. rewrite Forall_forall in B. intros c Hc. apply wirechar_body, B, Hc.
      * apply count_hh_join; [exact N|]. rewrite join_split. apply has_hh_count, NH.
    + exists w1, w2. repeat split; auto. rewrite wire_frame by exact N. unfold frame. rewrite join_split.
      cbn [app]. rewrite <- app_assoc. reflexivity.
Qed.

(** ** C08 *)

Lemma parse_kind s l m : is_frame s l -> parse_message s = Ok m -> kind l (msg_type m).
Proof.
  intros F H. apply parse_ok_iff in H as (l' & F' & D).
  rewrite (is_frame_unique _ _ _ F F'). apply denotes_kind, D.
Qed.

Lemma frame_accepted s l :
  is_frame s l -> (forall x, who_text l x -> known_who x) ->
  exists m, parse_message s = Ok m /\ kind l (msg_type m).
Proof.
  intros F H. pose proof (parse_outcome _ _ F) as O. inversion O as [m D K E|x W NK E].
  - exists m. auto.
  - exfalso. apply NK, H, W.
Qed.

(** Position of the first class with a given pattern. *)
Fixpoint before (cs : list (re * (list str -> res msg))) (a b : re) : bool :=
  match cs with
  | [] => true
  | (r, _) :: cs' => if re_eqb r b then false else if re_eqb r a then true else before cs' a b
  end.

(** A permutation of the classes keeping the overlapping pairs in order. *)
Definition good_order (cs : list (re * (list str -> res msg))) : Prop :=
  (forall p, In p cs <-> In p classes) /\
  before cs R_dimreq R_dimres = true /\ before cs R_dimwri R_dimres = true /\
  before cs R_dimreq R_normal = true /\ before cs R_dimwri R_normal = true /\
  before cs R_dimres R_normal = true.

Lemma re_eqb_refl a : re_eqb a a = true.
Proof. induction a; cbn; rewrite ?IHa, ?IHa1, ?IHa2, ?str_eqb_refl; reflexivity. Qed.

Lemma dispatch_pick cs text tags r p :
  In (r, p) cs -> py_match r text = true ->
  (forall r' p', In (r', p') cs -> py_match r' text = true ->
     (r' = r /\ p' = p) \/ before cs r r' = true) ->
  dispatch cs text tags = p tags.
Proof.
  induction cs as [|[r0 p0] cs IH]; intros Hin Hm Hb; [destruct Hin|].
  cbn [dispatch]. destruct (py_match r0 text) eqn:E.
  - destruct (Hb r0 p0 (or_introl eq_refl) E) as [[-> ->] | B]; [reflexivity|].
    cbn [before] in B. rewrite re_eqb_refl in B. discriminate.
  - destruct Hin as [[= -> ->] | Hin]; [congruence|]. apply IH; auto.
    intros r' p' Hin' Hm'. destruct (Hb r' p' (or_intror Hin') Hm') as [H|H]; [left; exact H|right].
    cbn [before] in H. destruct (re_eqb r0 r') eqn:E1; [discriminate|].
    destruct (re_eqb r0 r) eqn:E2; [|exact H]. apply re_eqb_eq in E2. congruence.
Qed.

Lemma dispatch_none cs text tags :
  (forall r p, In (r, p) cs -> py_match r text = false) -> dispatch cs text tags = parse_generic tags.
Proof.
  induction cs as [|[r p] cs IH]; intros H; [reflexivity|]. cbn [dispatch].
  rewrite (H r p (or_introl eq_refl)). apply IH. intros r' p' Hin. apply (H r' p'). right. exact Hin.
Qed.

(** The match of each pattern on a frame. *)
Lemma py_match_frame l :
  l <> [] -> valid_tags l ->
  py_match R_ack (frame l) = b_ack l /\ py_match R_dimreq (frame l) = b_dimreq l /\
  py_match R_dimwri (frame l) = b_dimwri l /\ py_match R_dimres (frame l) = b_dimres l /\
  py_match R_nack (frame l) = b_nack l /\ py_match R_normal (frame l) = b_normal l /\
  py_match R_status (frame l) = b_status l.
Proof.
  intros N V. pose proof (frame_stripped l) as S.
  assert (M : forall r b, (lang r (frame l) <-> b = true) -> py_match r (frame l) = b).
  { intros r b H. apply bool_iff. rewrite py_match_stripped by exact S. exact H. }
  repeat split; apply M.
  - rewrite b_ack_spec; apply lang_frame_ack; auto.
  - rewrite b_dimreq_spec; apply lang_frame_dimreq; auto.
  - rewrite b_dimwri_spec; apply lang_frame_dimwri; auto.
  - rewrite b_dimres_spec; apply lang_frame_dimres; auto.
  - rewrite b_nack_spec; apply lang_frame_nack; auto.
  - rewrite b_normal_spec; apply lang_frame_normal; auto.
  - rewrite b_status_spec; apply lang_frame_status; auto.
Qed.

Lemma order_irrelevant cs s l :
  is_frame s l -> good_order cs -> dispatch cs (strip s) l = parse_message s.
Proof.
  intros F (P & O1 & O2 & O3 & O4 & O5).
  rewrite (parse_message_frame _ _ F). apply is_frame_strip in F as (N & W & ->).
  apply wiretags in W as [V _].
  destruct (py_match_frame l N V) as (Ma & Mq & Mw & Mr & Mn & Mm & Ms).
  unfold parse_tags.
  assert (C : forall r p, In (r, p) classes -> In (r, p) cs) by (intros r p; apply P).
  assert (C' : forall r p, In (r, p) cs -> In (r, p) classes) by (intros r p; apply P).
  assert (LEN2 : forall a b d vs, b_status (a :: b :: d :: vs) = false /\ b_ack (a :: b :: d :: vs) = false
                 /\ b_nack (a :: b :: d :: vs) = false) by (intros; repeat split; reflexivity).
  destruct (b_ack l) eqn:Ea.
  { apply b_ack_spec in Ea. subst l. apply (dispatch_pick cs (frame [lit "#"; lit "1"]) [lit "#"; lit "1"] R_ack parse_ack).
    - apply C. cbn. tauto.
    - exact Ma.
    - intros r' p' Hin Hm. apply C' in Hin. unfold classes in Hin. cbn [In] in Hin.
      repeat destruct Hin as [[= <- <-] | Hin]; try (rewrite ?Mq, ?Mw, ?Mr, ?Mn, ?Mm, ?Ms in Hm; discriminate); auto.
      all: contradiction. }
  destruct (b_dimreq l) eqn:Eq.
  { apply b_dimreq_spec in Eq as (w & a & d & -> & Nw & D).
    apply (dispatch_pick cs _ _ R_dimreq parse_dimreq).
    - apply C. cbn. tauto.
    - exact Mq.
    - intros r' p' Hin Hm. apply C' in Hin. unfold classes in Hin. cbn [In] in Hin.
      repeat destruct Hin as [[= <- <-] | Hin]; auto; try (rewrite ?Ma, ?Mw, ?Mr, ?Mn, ?Mm, ?Ms in Hm; discriminate).
      + rewrite Mw in Hm. cbn in Hm. apply andb_true_iff in Hm as [_ Hm].
        apply hash_digits_spec in Hm as (e & -> & _). discriminate.
  }
  destruct (b_dimwri l) eqn:Ew.
  { apply b_dimwri_spec in Ew as (w & a & d & vs & -> & Nw & D).
    apply (dispatch_pick cs _ _ R_dimwri (parse_dim MDimWri)).
    - apply C. cbn. tauto.
    - exact Mw.
    - intros r' p' Hin Hm. apply C' in Hin. unfold classes in Hin. cbn [In] in Hin.
      repeat destruct Hin as [[= <- <-] | Hin]; auto; try (rewrite ?Ma, ?Mq, ?Mr, ?Mn, ?Mm, ?Ms in Hm; discriminate).
      all: contradiction. }
  destruct (b_dimres l) eqn:Er.
  { apply b_dimres_spec in Er as (w & a & d & vs & -> & Nw).
    apply (dispatch_pick cs _ _ R_dimres (parse_dim MDimRes)).
    - apply C. cbn. tauto.
    - exact Mr.
    - intros r' p' Hin Hm. apply C' in Hin. unfold classes in Hin. cbn [In] in Hin.
      repeat destruct Hin as [[= <- <-] | Hin]; auto; try (rewrite ?Ma, ?Mq, ?Mw, ?Mn, ?Mm, ?Ms in Hm; discriminate).
      all: contradiction. }
  destruct (b_nack l) eqn:En.
  { apply b_nack_spec in En. subst l. apply (dispatch_pick cs (frame [lit "#"; lit "0"]) [lit "#"; lit "0"] R_nack parse_nack).
    - apply C. cbn. tauto.
    - exact Mn.
    - intros r' p' Hin Hm. apply C' in Hin. unfold classes in Hin. cbn [In] in Hin.
      repeat destruct Hin as [[= <- <-] | Hin]; try (rewrite ?Ma, ?Mq, ?Mw, ?Mr, ?Mm, ?Ms in Hm; discriminate); auto.
      all: contradiction. }
  destruct (b_normal l) eqn:Em.
  { apply (dispatch_pick cs _ _ R_normal parse_normal).
    - apply C. cbn. tauto.
    - exact Mm.
    - apply b_normal_spec in Em as (w & a & b & -> & Nw). intros r' p' Hin Hm. apply C' in Hin. unfold classes in Hin. cbn [In] in Hin.
      repeat destruct Hin as [[= <- <-] | Hin]; try (rewrite ?Ma, ?Mq, ?Mw, ?Mr, ?Mn, ?Ms in Hm; discriminate); auto.
      all: contradiction. }
  destruct (b_status l) eqn:Es.
  { apply (dispatch_pick cs _ _ R_status parse_status).
    - apply C. cbn. tauto.
    - exact Ms.
    - intros r' p' Hin Hm. apply C' in Hin. unfold classes in Hin. cbn [In] in Hin.
      repeat destruct Hin as [[= <- <-] | Hin]; try (rewrite ?Ma, ?Mq, ?Mw, ?Mr, ?Mn, ?Mm in Hm; discriminate); auto.
      all: contradiction. }
  rewrite dispatch_none; [apply parse_generic_valid, V|].
  intros r p Hin. apply C' in Hin. unfold classes in Hin. cbn [In] in Hin.
  repeat destruct Hin as [[= <- <-] | Hin]; auto. destruct Hin.
Qed.

Lemma good_order_classes : good_order classes.
Proof. split; [reflexivity|]. vm_compute. repeat split. Qed.

(** Other orders qualify too. *)
Lemma good_order_other :
  good_order [ (R_status, parse_status); (R_nack, parse_nack); (R_dimwri, parse_dim MDimWri);
               (R_dimreq, parse_dimreq); (R_dimres, parse_dim MDimRes); (R_normal, parse_normal);
               (R_ack, parse_ack) ].
Proof. split; [intros q; unfold classes; cbn; tauto|]. vm_compute. repeat split. Qed.

(** ** C09 *)

Lemma wellformed_example : wellformed (MDimRes ENERGY_MANAGEMENT (lit "51") (lit "72#1") [lit "10"; lit "20"]).
Proof. split; [apply wiretagsb; reflexivity|]. split; discriminate. Qed.

Lemma built_example : built (MNormal LIGHTING (lit "1") (lit "12#4")).
Proof.
  split; [|discriminate]. eapply Forall_impl; [intros t; apply wiretag_tagtext|].
  apply wiretagsb. reflexivity.
Qed.

Lemma not_digits_hash d p : ~ digits (d ++ 35 :: p).
Proof.
  intros H. unfold digits in H. rewrite Forall_app in H. destruct H as [_ H]. exact (digits_nohash35 _ H).
Qed.

Lemma print_parse_failures :
  (exists m m', built m /\ parse_message (msg_str m) = Ok m' /\ msg_eq m' m = false) /\
  (forall w a p d, built (MDimReq w a (d ++ 35 :: p)) ->
     parse_message (msg_str (MDimReq w a (d ++ 35 :: p))) <> Ok (MDimReq w a (d ++ 35 :: p))) /\
  (forall w a p d vs, built (MDimWri w a (d ++ 35 :: p) vs) ->
     parse_message (msg_str (MDimWri w a (d ++ 35 :: p) vs)) <> Ok (MDimWri w a (d ++ 35 :: p) vs)) /\
  (forall w a d, built (MDimWri w a d []) ->
     parse_message (msg_str (MDimWri w a d [])) <> Ok (MDimWri w a d [])).
Proof.
  repeat split.
  - exists (MDimReq ENERGY_MANAGEMENT (lit "51") (lit "52#24#1")),
           (MDimRes ENERGY_MANAGEMENT (lit "51") (lit "52#24#1") []).
    split; [|split; reflexivity]. split; [|discriminate].
    eapply Forall_impl; [intros t; apply wiretag_tagtext|]. apply wiretagsb. reflexivity.
  - intros w a p d B H. apply print_parse_iff in H; [|exact B]. destruct H as [_ H]. exact (not_digits_hash _ _ H).
  - intros w a p d vs B H. apply print_parse_iff in H; [|exact B]. destruct H as [_ [H _]]. exact (not_digits_hash _ _ H).
  - intros w a d B H. apply print_parse_iff in H; [|exact B]. destruct H as [_ [_ H]]. apply H. reflexivity.
Qed.

(** ** C11 *)

Lemma vals_tags_eq a b : vals_tags a = vals_tags b -> a = b \/ (a = [] /\ b = [[]]) \/ (b = [] /\ a = [[]]).
Proof. destruct a, b; cbn; intros H; auto. Qed.

Lemma same_class_injective m1 m2 :
  built m1 -> built m2 -> msg_type m1 = msg_type m2 -> msg_str m1 = msg_str m2 ->
  m1 = m2 \/
  exists w a d, (m1 = MDimWri w a d [] /\ m2 = MDimWri w a d [[]]) \/
                (m2 = MDimWri w a d [] /\ m1 = MDimWri w a d [[]]) \/
                (m1 = MDimRes w a d [] /\ m2 = MDimRes w a d [[]]) \/
                (m2 = MDimRes w a d [] /\ m1 = MDimRes w a d [[]]).
Proof.
  intros B1 B2 T E. pose proof (print_injective_class _ _ B1 B2 T E) as P.
  destruct m1, m2; cbn in T; try discriminate; cbn [ptags] in P; try (left; reflexivity).
  - injection P as P1 -> ->. apply who_str_inj in P1 as ->. auto.
  - injection P as P1 ->. apply who_str_inj in P1 as ->. auto.
  - injection P as P1 -> ->. apply who_str_inj in P1 as ->. auto.
  - injection P as P1 -> -> P4. apply who_str_inj in P1 as ->.
    apply vals_tags_eq in P4 as [-> | [[-> ->] | [-> ->]]]; [auto| |]; right; repeat eexists; eauto.
  - injection P as P1 -> -> P4. apply who_str_inj in P1 as ->.
    apply vals_tags_eq in P4 as [-> | [[-> ->] | [-> ->]]]; [auto| |]; right; repeat eexists; eauto.
  - destruct B1 as [_ B1], B2 as [_ B2]. specialize (B1 _ eq_refl). specialize (B2 _ eq_refl).
    apply vals_tags_eq in P as [-> | [[-> ->] | [-> ->]]]; [auto|congruence|congruence].
Qed.

(** ** C12 *)

Lemma bytes_fail : exists m, msg_bytes m = Err UnicodeEncodeError.
Proof. exists (MGeneric [[233]]). reflexivity. Qed.

(** ** C13 *)

Lemma msg_eq_equiv :
  (forall a, msg_eq a a = true) /\
  (forall a b, msg_eq a b = msg_eq b a) /\
  (forall a b c, msg_eq a b = true -> msg_eq b c = true -> msg_eq a c = true) /\
  (forall a b, msg_eq a b = true -> msg_str a = msg_str b /\ msg_type a = msg_type b) /\
  (forall a b, msg_ne a b = true <-> a <> b).
Proof.
  split; [intros a; apply msg_eq_spec; reflexivity|]. split.
  { intros a b. apply bool_iff. rewrite !msg_eq_spec. split; congruence. }
  split. { intros a b c. rewrite !msg_eq_spec. congruence. }
  split. { intros a b H. apply msg_eq_spec in H as ->. auto. }
  intros a b. unfold msg_ne. rewrite negb_true_iff. rewrite <- (msg_eq_spec a b).
  destruct (msg_eq a b); split; congruence.
Qed.

Lemma msg_eq_hash ht hs hl a b : msg_eq a b = true -> msg_hash ht hs hl a = msg_hash ht hs hl b.
Proof. intros H. apply msg_eq_spec in H as ->. reflexivity. Qed.

Lemma msg_hashable ht hs hl m :
  (msg_hash ht hs hl m = Err TypeError <-> msg_type m = T_GENERIC) /\
  (msg_type m <> T_GENERIC -> exists h, msg_hash ht hs hl m = Ok h).
Proof. destruct m; cbn; (split; [split; congruence|]); intros H; try congruence; eexists; reflexivity. Qed.

(** ** C14 *)

Lemma frame_of_const s l :
  l <> [] -> Forall wiretag l ->
  (is_frame s l <-> exists w1 w2, white w1 /\ white w2 /\ s = w1 ++ wire l ++ w2).
Proof. intros N W. unfold is_frame. tauto. Qed.

Lemma ack_nack s :
  (parse_message s = Ok MAck <-> exists w1 w2, white w1 /\ white w2 /\ s = w1 ++ lit "*#*1##" ++ w2) /\
  (parse_message s = Ok MNack <-> exists w1 w2, white w1 /\ white w2 /\ s = w1 ++ lit "*#*0##" ++ w2).
Proof.
  rewrite !parse_ok_iff. split; split.
  - intros (l & F & D). inversion D; subst.
    change (lit "*#*1##") with (wire [[35]; [49]]). apply F.
  - intros H. exists [[35]; [49]]. split; [|constructor].
    apply frame_of_const; [discriminate|apply wiretagsb; reflexivity|exact H].
  - intros (l & F & D). inversion D; subst.
    change (lit "*#*0##") with (wire [[35]; [48]]). apply F.
  - intros H. exists [[35]; [48]]. split; [|constructor].
    apply frame_of_const; [discriminate|apply wiretagsb; reflexivity|exact H].
Qed.

(** ** C15 *)

Lemma unknown_who s l x :
  is_frame s l -> who_text l x -> ~ In x who_numbers -> parse_message s = Err ValueError.
Proof.
  intros F W N. apply parse_value_error_iff. exists l, x. repeat split; try apply F; auto.
  intros K. apply N. apply who_numbers_spec. exact K.
Qed.

Lemma generic_without_who s l t :
  is_frame s l -> parse_message s = Ok (MGeneric t) -> t = l /\ kind l T_GENERIC /\ forall x, ~ who_text l x.
Proof.
  intros F H. apply parse_ok_iff in H as (l' & F' & D). rewrite (is_frame_unique _ _ _ F' F) in D.
  assert (K : kind l T_GENERIC) by (apply denotes_kind in D; exact D).
  inversion D; subst. repeat split; auto.
  intros x W. pose proof (denotes_known _ _ _ D W) as _. inversion W as [a b w K' | w r Nw Nr]; subst.
  - pose proof (kind_functional _ _ _ K K'). discriminate.
  - inversion K; subst; kcontra.
Qed.

Lemma unknown_example : is_frame (lit "*9*1*12##") [lit "9"; lit "1"; lit "12"] /\
  who_text [lit "9"; lit "1"; lit "12"] (lit "9") /\ ~ In (lit "9") who_numbers.
Proof.
  split; [|split].
  - apply is_frame_strip. split; [discriminate|]. split; [apply wiretagsb; reflexivity|reflexivity].
  - constructor. constructor; [discriminate|]. intros (w & E & _). discriminate.
  - intros H. apply str_in_spec in H. discriminate.
Qed.
