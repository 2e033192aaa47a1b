(** * Theorems about energy items *)
From Coq Require Import String List NArith ZArith Bool Lia.
From Verif Require Import PyStr PyDate PyFloat Tags Messages SpecMsg SpecTag MessageThms TagThms MessageThms3 IO Client SpecItem Items
  HandshakeThms ItemThms ItemThms2 LightThms2 SpecGateway CalendarThms GatewayThms Energy SpecEnergy FloatThms.
Import ListNotations.
Open Scope N_scope.
Open Scope list_scope.

(** ** Addresses *)

Lemma isnumeric_spec s : isnumeric s = true <-> digits s /\ s <> [].
Proof.
  unfold isnumeric. rewrite andb_true_iff, negb_true_iff, str_eqb_neq, <- LightThms2.digits_all. tauto.
Qed.

Lemma tag_nohash_digits s : tagtext s -> nohash s -> digits s.
Proof.
  intros H N. apply Forall_forall. intros c Hc. unfold tagtext in H. rewrite Forall_forall in H. destruct (H c Hc) as [D| ->]; [exact D|].
  contradiction.
Qed.

Lemma with_params_tag t ps : tagtext (with_params t ps) -> tagtext t /\ Forall tagtext ps.
Proof.
  unfold with_params. intros H. apply Forall_app in H as [H1 H2]. split; [exact H1|].
  induction ps as [|p ps IH]; [constructor|]. cbn [map concat app] in H2. inversion H2 as [|? ? _ H3]; subst.
  apply Forall_app in H3 as [H3 H4]. constructor; auto.
Qed.

Lemma first_digit c s t : energy_class (c :: s) t -> c = 49 \/ c = 53 \/ c = 55.
Proof. intros H. inversion H; subst; auto. Qed.

Lemma get_type_other c r : c <> 49 -> c <> 53 -> c <> 55 -> get_type (c :: r) = Err InvalidTag.
Proof.
  intros H1 H2 H3. unfold get_type.
  change (startswith (lit "1") (c :: r)) with ((49 =? c) && true).
  change (startswith (lit "5") (c :: r)) with ((53 =? c) && true).
  change (startswith (lit "7") (c :: r)) with ((55 =? c) && true).
  rewrite (proj2 (N.eqb_neq 49 c)), (proj2 (N.eqb_neq 53 c)), (proj2 (N.eqb_neq 55 c)) by congruence. reflexivity.
Qed.

Lemma class_7 r t : energy_class (55 :: r) t ->
  t = ACTUATOR /\ exists n ps, with_params (55 :: n) (lit "0" :: ps) = 55 :: r /\ digits n /\ n <> [] /\ Forall digits ps.
Proof.
  intros H. remember (55 :: r) as w eqn:E. destruct H as [n H1 H2|n H1 H2|n ps H1 H2 H3]; try discriminate E.
  split; [reflexivity|]. exists n, ps. rewrite E. auto.
Qed.

Theorem type_spec whr : tagtext whr ->
  (forall t, get_type whr = Ok t <-> energy_class whr t) /\
  ((exists r, whr = 55 :: r /\ nohash r) -> get_type whr = Err IndexError) /\
  ((forall t, ~ energy_class whr t) -> ~ (exists r, whr = 55 :: r /\ nohash r) -> get_type whr = Err InvalidTag).
Proof.
  intros Ht. destruct whr as [|c r].
  { split; [|split]; [|intros (r & E & _); discriminate|reflexivity].
    intros t. split; [discriminate|]. intros H. inversion H. }
  destruct (N.eq_dec c 49) as [->|N1].
  { unfold get_type. cbn [startswith skipn lit andb]. change (startswith (lit "1") (49 :: r)) with true. cbn [andb].
    change (startswith (lit "5") (49 :: r)) with false. change (startswith (lit "7") (49 :: r)) with false. cbn [andb].
    destruct (isnumeric r) eqn:E.
    - apply isnumeric_spec in E as [E1 E2]. split; [|split].
      + intros t. split; [intros [= <-]; constructor; assumption|]. intros H. inversion H; reflexivity.
      + intros (r' & E & _). discriminate.
      + intros H. exfalso. apply (H STOP_GO). constructor; assumption.
    - split; [|split]; [|intros (r' & E' & _); discriminate|reflexivity].
      intros t. split; [discriminate|]. intros H. exfalso. inversion H; subst.
      assert (isnumeric r = true) by (apply isnumeric_spec; auto). congruence. }
  destruct (N.eq_dec c 53) as [->|N2].
  { unfold get_type. cbn [skipn]. change (startswith (lit "1") (53 :: r)) with false.
    change (startswith (lit "5") (53 :: r)) with true. change (startswith (lit "7") (53 :: r)) with false. cbn [andb].
    destruct (isnumeric r) eqn:E.
    - apply isnumeric_spec in E as [E1 E2]. split; [|split].
      + intros t. split; [intros [= <-]; constructor; assumption|]. intros H. inversion H; reflexivity.
      + intros (r' & E & _). discriminate.
      + intros H. exfalso. apply (H POWER_METER). constructor; assumption.
    - split; [|split]; [|intros (r' & E' & _); discriminate|reflexivity].
      intros t. split; [discriminate|]. intros H. exfalso. inversion H; subst.
      assert (isnumeric r = true) by (apply isnumeric_spec; auto). congruence. }
  destruct (N.eq_dec c 55) as [->|N3].
  2:{ rewrite (get_type_other c r N1 N2 N3). split; [|split]; [|intros (r' & [= -> ->] & _); congruence|reflexivity].
      intros t. split; [discriminate|]. intros H. apply first_digit in H. intuition congruence. }
  unfold get_type. change (startswith (lit "1") (55 :: r)) with false.
  change (startswith (lit "5") (55 :: r)) with false. change (startswith (lit "7") (55 :: r)) with true. cbn [andb].
  destruct (twp_spec (55 :: r)) as (E & P1 & P2).
  set (tg := twp_tag (55 :: r)) in *. set (ps := twp_parameters (55 :: r)) in *. clearbody tg ps.
  pose proof Ht as Ht'. rewrite E in Ht'. apply with_params_tag in Ht' as [T1 T2].
  destruct ps as [|p ps].
  { cbn [index nth_error bind]. unfold with_params in E. cbn [map concat] in E. rewrite app_nil_r in E. subst tg.
    assert (R : exists r', 55 :: r = 55 :: r' /\ nohash r').
    { exists r. split; [reflexivity|]. intros Hin. apply P1. right. exact Hin. }
    split; [|split]; [|reflexivity|intros _ H; contradiction].
    intros t. split; [discriminate|]. intros H. exfalso. apply class_7 in H as (_ & n & ps & H1 & _).
    apply P1. rewrite <- H1. unfold with_params. cbn [map concat]. right. apply in_or_app. right. left. reflexivity. }
  cbn [index nth_error bind].
  assert (Hh : ~ exists r', 55 :: r = 55 :: r' /\ nohash r').
  { intros (r' & [= <-] & Hn). apply Hn. unfold with_params in E. cbn [map concat app] in E.
    assert (In 35 (55 :: r)) by (rewrite E; apply in_or_app; right; left; reflexivity).
    destruct H as [H|H]; [discriminate|exact H]. }
  destruct tg as [|c tg].
  { unfold with_params in E. cbn [map concat app] in E. discriminate. }
  assert (c = 55) as -> by (unfold with_params in E; cbn [app] in E; congruence).
  cbn [skipn]. inversion T2 as [|? ? T3 T4]; subst. inversion P2 as [|? ? P3 P4]; subst.
  destruct (str_eqb p (lit "0")) eqn:Ep; cbn [andb].
  - apply str_eqb_spec in Ep. subst p. destruct (isnumeric tg) eqn:En.
    + apply isnumeric_spec in En as [En1 En2].
      assert (C : energy_class (55 :: r) ACTUATOR).
      { rewrite E. constructor; try assumption. rewrite Forall_forall in *. intros x Hx. apply tag_nohash_digits; auto. }
      split; [|split]; [|intros H; contradiction|intros H; exfalso; exact (H _ C)].
      intros t. split; [intros [= <-]; exact C|]. intros H. apply class_7 in H as [-> _]. reflexivity.
    + split; [|split]; [|intros H; contradiction|reflexivity].
      intros t. split; [discriminate|]. intros H. exfalso. apply class_7 in H as (_ & n & ps' & H1 & H2 & H3 & H4).
      rewrite <- H1 in E. apply with_params_unique in E.
      * destruct E as [[= <-] _]. assert (isnumeric n = true) by (apply isnumeric_spec; auto). congruence.
      * intros [X|X]; [discriminate|]. exact (digits_nohash35 _ H2 X).
      * constructor; [intros [X|[]]; discriminate|]. eapply Forall_impl; [|exact H4]. intros a. apply digits_nohash35.
      * assumption.
      * assumption.
  - split; [|split]; [|intros H; contradiction|reflexivity].
    intros t. split; [discriminate|]. intros H. exfalso. apply class_7 in H as (_ & n & ps' & H1 & H2 & H3 & H4).
    rewrite <- H1 in E. apply with_params_unique in E.
    + destruct E as [_ [= <- _]]. discriminate.
    + intros [X|X]; [discriminate|]. exact (digits_nohash35 _ H2 X).
    + constructor; [intros [X|[]]; discriminate|]. eapply Forall_impl; [|exact H4]. intros a. apply digits_nohash35.
    + assumption.
    + assumption.
Qed.

Lemma class_tag whr t : energy_class whr t -> tagtext whr.
Proof.
  intros H. inversion H; subst.
  - constructor; [left; unfold digitchar; lia|]. apply digits_tag. assumption.
  - constructor; [left; unfold digitchar; lia|]. apply digits_tag. assumption.
  - unfold with_params. cbn [app map concat]. constructor; [left; unfold digitchar; lia|]. apply Forall_app. split; [apply digits_tag; assumption|].
    cbn [lit]. constructor; [right; reflexivity|]. cbn [app]. constructor; [left; vm_compute; split; congruence|].
    clear -H2. induction H2; [constructor|]. cbn [map concat app]. constructor; [right; reflexivity|].
    apply Forall_app. split; [apply digits_tag; assumption|assumption].
Qed.

(** ** Construction *)

Theorem construct_spec c whr :
  (forall it, energy_management c whr = Ok it <->
     it = {| it_client := c; it_who := ENERGY_MANAGEMENT; it_where := whr |} /\ exists t, energy_class whr t) /\
  ((exists r, whr = 55 :: r /\ digits r) -> energy_management c whr = Err IndexError) /\
  ((forall t, ~ energy_class whr t) -> ~ (exists r, whr = 55 :: r /\ digits r) -> energy_management c whr = Err InvalidTag).
Proof.
  unfold energy_management. destruct (mk_cases whr) as [[-> Ht]|[-> Ht]]; cbn [bind].
  - destruct (type_spec whr Ht) as (T1 & T2 & T3).
    assert (S : forall r, whr = 55 :: r -> (digits r <-> nohash r)).
    { intros r ->. split; [apply digits_nohash35|]. apply tag_nohash_digits. inversion Ht; assumption. }
    split; [|split].
    + intros it. split.
      * destruct (get_type whr) as [t|e] eqn:E; [|discriminate]. cbn [bind]. intros [= <-]. split; [reflexivity|].
        exists t. apply T1. reflexivity.
      * intros [-> (t & H)]. apply T1 in H. rewrite H. reflexivity.
    + intros (r & E & H). rewrite T2; [reflexivity|]. exists r. split; [exact E|]. apply (S r E), H.
    + intros H1 H2. rewrite T3; [reflexivity|exact H1|]. intros (r & E & H). apply H2. exists r. split; [exact E|]. apply (S r E), H.
  - split; [|split]; [|intros (r & -> & H)|reflexivity].
    + intros it. split; [discriminate|]. intros [_ (t & H)]. exfalso. apply Ht. eapply class_tag, H.
    + exfalso. apply Ht. constructor; [left; unfold digitchar; lia|apply digits_tag, H].
Qed.

Theorem stop_go_spec c whr :
  (forall it, stop_go c whr = Ok it <->
     it = {| it_client := c; it_who := ENERGY_MANAGEMENT; it_where := whr |} /\ energy_class whr STOP_GO) /\
  ((exists r, whr = 55 :: r /\ digits r) -> stop_go c whr = Err IndexError) /\
  (~ energy_class whr STOP_GO -> ~ (exists r, whr = 55 :: r /\ digits r) -> stop_go c whr = Err InvalidTag).
Proof.
  destruct (construct_spec c whr) as (C1 & C2 & C3). unfold stop_go. split; [|split].
  - intros it. split.
    + destruct (energy_management c whr) as [it'|e] eqn:E; [|discriminate]. cbn [bind].
      destruct (proj1 (C1 it') eq_refl) as [-> (t & H)]. cbn [it_where].
      pose proof (class_tag _ _ H) as Ht. apply (type_spec whr Ht) in H as H'. rewrite H'. cbn [bind].
      destruct t; try discriminate. intros [= <-]. auto.
    + intros [-> H]. rewrite (proj2 (C1 _) (conj eq_refl (ex_intro _ _ H))). cbn [bind it_where].
      pose proof (class_tag _ _ H) as Ht. apply (type_spec whr Ht) in H. rewrite H. reflexivity.
  - intros H. rewrite (C2 H). reflexivity.
  - intros H1 H2. destruct (energy_management c whr) as [it|e] eqn:E; cbn [bind].
    + destruct (proj1 (C1 it) eq_refl) as [-> (t & H)]. cbn [it_where].
      pose proof (class_tag _ _ H) as Ht. apply (type_spec whr Ht) in H as H'. rewrite H'. cbn [bind].
      destruct t; [reflexivity|reflexivity|contradiction].
    + apply C3; [|exact H2]. intros t H. pose proof (proj2 (C1 _) (conj eq_refl (ex_intro _ _ H))). discriminate.
Qed.
