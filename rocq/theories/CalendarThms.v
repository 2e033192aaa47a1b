(** * The calendar functions are those of the calendar *)
From Coq Require Import String List NArith ZArith Bool Lia Wf_nat.
From Verif Require Import PyStr PyDate SpecMsg SpecTag SpecGateway.
Import ListNotations.
Open Scope Z_scope.
Open Scope list_scope.

Lemma mod_divide k y : 0 < k -> (y mod k =? 0) = true <-> (k | y).
Proof. intros H. rewrite Z.eqb_eq. apply Z.mod_divide. lia. Qed.

Lemma leap_spec y : is_leap y = true <-> leap_year y.
Proof.
  unfold is_leap, leap_year. rewrite andb_true_iff, orb_true_iff, negb_true_iff.
  rewrite (mod_divide 4), (mod_divide 400) by lia. split.
  - intros [H4 [H|H]]; split; auto. intros H1. apply (mod_divide 100) in H1; [congruence|lia].
  - intros [H4 H]. split; [assumption|]. destruct (y mod 100 =? 0) eqn:E; [|auto].
    right. apply H. apply (mod_divide 100); [lia|assumption].
Qed.

Lemma not_leap_spec y : is_leap y = false <-> ~ leap_year y.
Proof. rewrite <- leap_spec. destruct (is_leap y); split; congruence. Qed.

Lemma month_days_range y m n : month_days y m n -> 1 <= m <= 12 /\ 28 <= n <= 31.
Proof. intros [x H|x H|H|H]; cbn in H; lia. Qed.

Lemma month_days_fun y m n : month_days y m n <-> 1 <= m <= 12 /\ n = days_in_month y m.
Proof.
  unfold days_in_month. split.
  - intros [x H|x H|H|H].
    + cbn in H. destruct H as [<-|[<-|[<-|[<-|[]]]]]; (split; [lia|reflexivity]).
    + cbn in H. destruct H as [<-|[<-|[<-|[<-|[<-|[<-|[<-|[]]]]]]]]; (split; [lia|reflexivity]).
    + apply not_leap_spec in H. rewrite H. split; [lia|reflexivity].
    + apply leap_spec in H. rewrite H. split; [lia|reflexivity].
  - intros [H ->].
    assert (C : m = 1 \/ m = 2 \/ m = 3 \/ m = 4 \/ m = 5 \/ m = 6 \/ m = 7 \/ m = 8 \/ m = 9 \/ m = 10 \/ m = 11 \/ m = 12) by lia.
    destruct C as [->|[->|[->|[->|[->|[->|[->|[->|[->|[->|[->| ->]]]]]]]]]]];
      try (apply ThirtyOne; cbn; tauto); try (apply Thirty; cbn; tauto).
    cbn [Z.eqb Pos.eqb andb]. destruct (is_leap y) eqn:E.
    + apply FebruaryLeap, leap_spec, E.
    + apply February, not_leap_spec, E.
Qed.

Lemma date_fields_spec y m d : date_fields y m d = true <-> calendar_date (y, m, d).
Proof.
  unfold date_fields, calendar_date, maxyear. rewrite !andb_true_iff, !Z.leb_le. split.
  - intros (((((H1 & H2) & H3) & H4) & H5) & H6). split; [lia|]. exists (days_in_month y m).
    split; [apply month_days_fun; split; [lia|reflexivity]|lia].
  - intros (H1 & n & H2 & H3). apply month_days_fun in H2. destruct H2 as [H2 ->]. lia.
Qed.

(** ** Ordinals *)

Lemma div_step y k : 0 < k -> y / k = (y - 1) / k + (if y mod k =? 0 then 1 else 0).
Proof.
  intros Hk. pose proof (Z.div_mod y k ltac:(lia)) as E. pose proof (Z.mod_pos_bound y k Hk) as B.
  destruct (Z.eqb_spec (y mod k) 0) as [H|H].
  - rewrite <- (Z.div_unique_pos (y - 1) k (y / k - 1) (k - 1)); lia.
  - rewrite <- (Z.div_unique_pos (y - 1) k (y / k) (y mod k - 1)); lia.
Qed.

Lemma mod_mult_zero y a b : 0 < a -> 0 < b -> y mod (a * b) = 0 -> y mod a = 0.
Proof.
  intros Ha Hb H. apply Z.mod_divide in H; [|lia]. apply Z.mod_divide; [lia|].
  destruct H as [q ->]. exists (q * b). lia.
Qed.

Lemma before_year_step y : days_before_year (y + 1) = days_before_year y + 365 + (if is_leap y then 1 else 0).
Proof.
  unfold days_before_year, is_leap. replace (y + 1 - 1) with y by lia.
  rewrite (div_step y 4), (div_step y 100), (div_step y 400) by lia.
  pose proof (mod_mult_zero y 4 25 ltac:(lia) ltac:(lia)) as A. pose proof (mod_mult_zero y 100 4 ltac:(lia) ltac:(lia)) as B.
  cbn [Z.mul Pos.mul Pos.add] in A, B.
  destruct (Z.eqb_spec (y mod 4) 0); destruct (Z.eqb_spec (y mod 100) 0); destruct (Z.eqb_spec (y mod 400) 0); cbn [andb orb negb]; try lia.
Qed.

Lemma before_month_step y m : 1 <= m < 12 -> days_before_month y (m + 1) = days_before_month y m + days_in_month y m.
Proof.
  intros H. unfold days_before_month, days_in_month.
  assert (C : m = 1 \/ m = 2 \/ m = 3 \/ m = 4 \/ m = 5 \/ m = 6 \/ m = 7 \/ m = 8 \/ m = 9 \/ m = 10 \/ m = 11) by lia.
  destruct C as [->|[->|[->|[->|[->|[->|[->|[->|[->|[->| ->]]]]]]]]]]; destruct (is_leap y); reflexivity.
Qed.

Lemma ord_next d d' : next_day d d' -> ymd2ord d' = ymd2ord d + 1.
Proof.
  intros [y m dd n H1 H2|y m n H1 H2|y]; cbn [ymd2ord].
  - lia.
  - apply month_days_fun in H1. destruct H1 as [H1 ->]. rewrite before_month_step by lia. lia.
  - rewrite before_year_step. replace (days_before_month (y + 1) 1) with 0 by (unfold days_before_month; reflexivity). replace (days_before_month y 12) with (334 + if is_leap y then 1 else 0) by (unfold days_before_month; destruct (is_leap y); reflexivity). destruct (is_leap y); lia.
Qed.

Lemma next_valid d d' : next_day d d' -> calendar_date d -> fst (fst d') <= 9999 -> calendar_date d'.
Proof.
  intros [y m dd n H1 H2|y m n H1 H2|y]; cbn [calendar_date fst]; intros (H3 & k & H4 & H5) H6.
  - split; [lia|]. exists n. split; [assumption|lia].
  - split; [lia|]. apply month_days_fun in H1. exists (days_in_month y (m + 1)).
    assert (X : month_days y (m + 1) (days_in_month y (m + 1))) by (apply month_days_fun; lia).
    split; [assumption|]. apply month_days_range in X. lia.
  - split; [lia|]. exists 31. split; [|lia]. apply ThirtyOne. cbn. auto.
Qed.

Lemma has_previous d : calendar_date d -> d = (1, 1, 1) \/ exists d0, calendar_date d0 /\ next_day d0 d.
Proof.
  destruct d as [[y m] dd]. intros (H1 & n & H2 & H3).
  destruct (Z.eq_dec dd 1) as [->|Hd].
  - destruct (Z.eq_dec m 1) as [->|Hm].
    + destruct (Z.eq_dec y 1) as [->|Hy]; [auto|]. right. exists (y - 1, 12, 31). split.
      * split; [lia|]. exists 31. split; [apply ThirtyOne; cbn; tauto|lia].
      * replace y with (y - 1 + 1) at 2 by lia. apply Next_year.
    + right. apply month_days_range in H2.
      assert (X : month_days y (m - 1) (days_in_month y (m - 1))) by (apply month_days_fun; lia).
      pose proof (month_days_range _ _ _ X).
      exists (y, m - 1, days_in_month y (m - 1)). split.
      * split; [lia|]. eexists. split; [exact X|lia].
      * replace m with (m - 1 + 1) at 3 by lia. apply Next_month; [assumption|lia].
  - right. exists (y, m, dd - 1). split.
    + split; [lia|]. exists n. split; [assumption|lia].
    + replace dd with (dd - 1 + 1) at 2 by lia. eapply Next_day; [exact H2|lia].
Qed.

(** Ordinals of dates start at 1. *)
Lemma ord_pos d : calendar_date d -> 1 <= ymd2ord d.
Proof.
  destruct d as [[y m] dd]. intros (H1 & n & H2 & H3). unfold ymd2ord.
  assert (0 <= days_before_year y) by (unfold days_before_year; pose proof (Z.div_le_compat_l (y - 1) 4 100 ltac:(lia) ltac:(lia));
    pose proof (Z.div_pos (y - 1) 400 ltac:(lia) ltac:(lia)); lia).
  assert (0 <= days_before_month y m); [|lia].
  apply month_days_range in H2. unfold days_before_month.
  assert (C : m = 1 \/ m = 2 \/ m = 3 \/ m = 4 \/ m = 5 \/ m = 6 \/ m = 7 \/ m = 8 \/ m = 9 \/ m = 10 \/ m = 11 \/ m = 12) by lia.
  destruct C as [->|[->|[->|[->|[->|[->|[->|[->|[->|[->|[->| ->]]]]]]]]]]]; destruct (is_leap y); vm_compute; discriminate.
Qed.

(** ** The day of the week *)

(** Python counts from Monday, the gateway from Sunday. *)
Definition sunday_based (w : Z) : Z := if w =? 6 then 0 else w + 1.

Lemma sunday_based_range w : 0 <= w < 7 -> 0 <= sunday_based w < 7.
Proof. unfold sunday_based. destruct (Z.eqb_spec w 6); lia. Qed.

Lemma weekday_range d : 0 <= weekday d < 7.
Proof. unfold weekday. apply Z.mod_pos_bound. lia. Qed.

Lemma weekday_next d d' : next_day d d' -> sunday_based (weekday d') = (if sunday_based (weekday d) =? 6 then 0 else sunday_based (weekday d) + 1).
Proof.
  intros H. apply ord_next in H. unfold weekday. rewrite H.
  replace ((ymd2ord d + 1 + 6) mod 7) with (((ymd2ord d + 6) mod 7 + 1) mod 7)
    by (rewrite Zplus_mod_idemp_l; f_equal; lia).
  pose proof (Z.mod_pos_bound (ymd2ord d + 6) 7 ltac:(lia)) as B. revert B. generalize ((ymd2ord d + 6) mod 7). intros w B.
  assert (C : w = 0 \/ w = 1 \/ w = 2 \/ w = 3 \/ w = 4 \/ w = 5 \/ w = 6) by lia.
  destruct C as [->|[->|[->|[->|[->|[->| ->]]]]]]; reflexivity.
Qed.

Theorem weekday_true d w : calendar_date d -> (falls_on d w <-> w = sunday_based (weekday d)).
Proof.
  intros Hd. split.
  - clear Hd. induction 1 as [|d d' w _ IH H]; [reflexivity|]. rewrite (weekday_next _ _ H), <- IH. reflexivity.
  - intros ->. remember (Z.to_nat (ymd2ord d)) as k eqn:E. revert d E Hd.
    induction k as [k IH] using lt_wf_ind. intros d E Hd.
    destruct (has_previous d Hd) as [->|(d0 & H0 & Hn)]; [apply Falls_first|].
    rewrite (weekday_next _ _ Hn). eapply Falls_next; [|exact Hn].
    eapply IH; [|reflexivity|assumption]. pose proof (ord_next _ _ Hn). pose proof (ord_pos _ H0). lia.
Qed.
