(** * float() rounds to the nearest float *)
From Coq Require Import String List NArith ZArith Bool Lia.
From Verif Require Import PyStr PyFloat Tags SpecMsg SpecTag TagThms SpecEnergy.
Import ListNotations.
Open Scope N_scope.

Lemma size_bounds n : n <> 0 -> 2 ^ (N.size n - 1) <= n < 2 ^ N.size n.
Proof.
  intros H. rewrite N.size_log2 by assumption. replace (N.succ (N.log2 n) - 1) with (N.log2 n) by lia.
  pose proof (N.log2_spec n). lia.
Qed.

Lemma small_representable n : n < 2 ^ 53 -> representable n.
Proof. intros H. exists n, 0. split; [assumption|]. rewrite N.pow_0_r. lia. Qed.

Lemma dist_refl n : dist n n = 0.
Proof. unfold dist. lia. Qed.

Lemma nearest_self n : representable n -> nearest n n.
Proof.
  intros H. split; [exact H|]. intros y _. rewrite dist_refl. split; [lia|]. unfold dist. intros E. left. lia.
Qed.

Lemma round_nearest n : nearest n (round53 n).
Proof.
  unfold round53. destruct (N.leb_spec (N.size n) 53) as [L|L].
  - apply nearest_self, small_representable. destruct (N.eq_dec n 0) as [->|H]; [reflexivity|].
    pose proof (size_bounds n H). eapply N.lt_le_trans; [apply H0|]. apply N.pow_le_mono_r; lia.
  - assert (Hn : n <> 0) by (intros ->; cbn in L; lia).
    pose proof (size_bounds n Hn) as [B1 B2]. set (l := N.size n) in *. clearbody l.
    remember (l - 53) as k eqn:Ek. assert (Hk : 1 <= k) by lia.
    assert (P1 : 2 ^ l = 2 ^ 53 * 2 ^ k) by (rewrite <- N.pow_add_r; f_equal; lia).
    assert (P2 : 2 ^ (l - 1) = 2 ^ 52 * 2 ^ k) by (rewrite <- N.pow_add_r; f_equal; lia).
    assert (P3 : 2 ^ k = 2 * 2 ^ (k - 1)) by (rewrite <- N.pow_succ_r'; f_equal; lia).
    assert (P0 : 1 <= 2 ^ (k - 1)) by (assert (2 ^ (k - 1) <> 0) by (apply N.pow_nonzero; lia); lia).
    pose proof (N.div_mod' n (2 ^ k)) as D. pose proof (N.mod_lt n (2 ^ k) ltac:(lia)) as M.
    set (q := n / 2 ^ k) in *. set (r := n mod 2 ^ k) in *. set (h := 2 ^ (k - 1)) in *.
    set (K := 2 ^ k) in *. cbv zeta.
    assert (Q1 : 2 ^ 52 <= q) by (change (2 ^ 52) with 4503599627370496 in *; nia).
    assert (Q2 : q < 2 ^ 53) by (change (2 ^ 53) with 9007199254740992 in *; nia).
    (* every representable number is a multiple of K or below 2^52 K *)
    assert (R : forall y, representable y -> (exists j, y = j * K) \/ y < 2 ^ 52 * K).
    { intros y (m & e & Hm & ->). destruct (N.le_gt_cases k e) as [He|He].
      - left. exists (m * 2 ^ (e - k)). unfold K. rewrite <- N.mul_assoc, <- N.pow_add_r. do 2 f_equal. lia.
      - right. assert (E1 : 2 ^ e <= h) by (apply N.pow_le_mono_r; lia).
        assert (E2 : 1 <= 2 ^ e) by (assert (2 ^ e <> 0) by (apply N.pow_nonzero; lia); lia).
        assert (2 ^ 52 * K = 2 ^ 53 * h) by (rewrite P3; change (2 ^ 53) with (2 * 2 ^ 52); lia). nia. }
    clearbody q r. clear B1 B2 P1 P2 Ek L Hn.
    assert (S1 : representable (q * K)) by (exists q, k; auto).
    assert (S2 : representable ((q + 1) * K)).
    { destruct (N.eq_dec (q + 1) (2 ^ 53)) as [E|E].
      - exists (2 ^ 52), (k + 1). split; [reflexivity|]. rewrite E. unfold K. rewrite N.pow_add_r. change (2 ^ 53) with (2 ^ 52 * 2). lia.
      - exists (q + 1), k. split; [lia|reflexivity]. }
    assert (T1 : N.even q = true -> even_representable (q * K)) by (intros; exists q, k; auto).
    assert (T2 : N.odd q = true -> even_representable ((q + 1) * K)).
    { intros O. assert (Ev : N.even (q + 1) = true) by (rewrite N.even_add, <- N.negb_odd, O; reflexivity).
      destruct (N.eq_dec (q + 1) (2 ^ 53)) as [E|E].
      - exists (2 ^ 52), (k + 1). split; [reflexivity|]. split; [reflexivity|]. rewrite E. unfold K. rewrite N.pow_add_r. change (2 ^ 53) with (2 ^ 52 * 2). lia.
      - exists (q + 1), k. split; [lia|]. split; [exact Ev|reflexivity]. }
    assert (C : forall y, representable y -> y = q * K \/ y = (q + 1) * K \/ y < q * K \/ (q + 1) * K < y).
    { intros y Hy. destruct (R y Hy) as [[j ->]|Hlt].
      - destruct (N.lt_trichotomy j q) as [G|[G|G]]; [right; right; left; nia|left; subst; reflexivity|].
        destruct (N.eq_dec j (q + 1)) as [->|]; [auto|]. right. right. right. nia.
      - right. right. left. nia. }
    destruct (N.ltb_spec h r) as [U|U]; cbn [orb].
    + split; [exact S2|]. intros y Hy. unfold dist. destruct (C y Hy) as [->|[->|[G|G]]]; split; try lia; intros; try (left; reflexivity); exfalso; lia.
    + destruct (N.eqb_spec r h) as [->|V]; cbn [andb].
      * destruct (N.odd q) eqn:O.
        -- split; [exact S2|]. intros y Hy. unfold dist. destruct (C y Hy) as [->|[->|[G|G]]]; split; try lia; intros; auto.
        -- assert (Ev : N.even q = true) by (rewrite <- N.negb_odd, O; reflexivity).
           split; [exact S1|]. intros y Hy. unfold dist. destruct (C y Hy) as [->|[->|[G|G]]]; split; try lia; intros; auto.
      * split; [exact S1|]. intros y Hy. unfold dist. destruct (C y Hy) as [->|[->|[G|G]]]; split; try lia; intros; try (left; reflexivity); exfalso; lia.
Qed.

Theorem float_reads n : reads n (float_of_N n).
Proof.
  unfold float_of_N. pose proof (round_nearest n) as H. set (r := round53 n) in *. clearbody r.
  destruct (N.leb_spec (N.size r) 1024) as [L|L].
  - split; [exact H|]. destruct (N.eq_dec r 0) as [->|E]; [reflexivity|]. pose proof (size_bounds r E) as [_ B].
    eapply N.lt_le_trans; [exact B|]. apply N.pow_le_mono_r; lia.
  - exists r. split; [exact H|]. assert (E : r <> 0) by (intros ->; cbn in L; lia). pose proof (size_bounds r E) as [B _].
    eapply N.le_trans; [|exact B]. apply N.pow_le_mono_r; lia.
Qed.

Lemma float_exact n : n <= 2 ^ 53 -> float_of_N n = Fin n.
Proof.
  intros H. unfold float_of_N.
  assert (E : round53 n = n).
  { destruct (N.eq_dec n (2 ^ 53)) as [->|Hn]; [reflexivity|]. unfold round53.
    destruct (N.eq_dec n 0) as [->|Hz]; [reflexivity|].
    rewrite (proj2 (N.leb_le _ _)); [reflexivity|].
    rewrite N.size_log2 by assumption. assert (N.log2 n < 53) by (apply N.log2_lt_pow2; lia). lia. }
  cbv zeta. rewrite E. rewrite (proj2 (N.leb_le _ _)); [reflexivity|].
  destruct (N.eq_dec n 0) as [->|Hz]; [cbn; lia|]. rewrite N.size_log2 by assumption.
  assert (N.log2 n < 1024); [|lia]. apply N.log2_lt_pow2; [lia|].
  eapply N.le_lt_trans; [exact H|]. reflexivity.
Qed.

Theorem float_read d : digits d -> d <> [] -> py_float d = Ok (float_of_N (value_of 0 d)).
Proof.
  intros H Hn. unfold py_float. destruct d as [|c r]; [congruence|]. cbn [str_eqb].
  assert (all_digits (c :: r) = true) as ->.
  { apply forallb_forall. intros x Hx. apply is_digit_range. unfold digits in H. rewrite Forall_forall in H. apply H, Hx. }
  f_equal. f_equal. symmetry. apply value_of_dval.
Qed.

Theorem float_bad v : ~ (digits v /\ v <> []) -> py_float v = Err ValueError.
Proof.
  intros H. unfold py_float. destruct v as [|c r]; [reflexivity|]. cbn [str_eqb].
  destruct (all_digits (c :: r)) eqn:E; [|reflexivity]. exfalso. apply H. split; [|discriminate].
  unfold all_digits in E. rewrite forallb_forall in E. apply Forall_forall. intros x Hx. apply is_digit_range, E, Hx.
Qed.

(** The specification leaves no choice. *)
Theorem nearest_unique n x y : nearest n x -> nearest n y -> x = y.
Proof.
  assert (W : forall x y, nearest n x -> nearest n y -> x < y -> False).
  { clear. intros x y [Rx Hx] [Ry Hy] Hlt.
    destruct (Hx y Ry) as [D1 E1]. destruct (Hy x Rx) as [D2 E2].
    assert (D : dist n x = dist n y) by lia.
    destruct (E1 D) as [E|(a & e & Ha & Ea & Xa)]; [lia|].
    destruct (E2 (eq_sym D)) as [E|(b & f & Hb & Eb & Yb)]; [lia|]. clear E1 E2 D1 D2.
    apply N.even_spec in Ea as [a' ->]. apply N.even_spec in Eb as [b' ->].
    assert (G : forall u w q, 0 < q -> 2 * u * q < 2 * w * q -> 2 * w * q <= 2 * u * q + q -> False).
    { clear. intros u w q Hq H1 H2. apply N.mul_lt_mono_pos_r in H1; [|exact Hq].
      assert (H3 : (2 * u + 2) * q <= 2 * w * q) by (apply N.mul_le_mono_r; lia). lia. }
    assert (P : 2 ^ 53 = 2 * 2 ^ 52) by reflexivity.
    assert (Pe : 0 < 2 ^ e) by (apply N.neq_0_lt_0, N.pow_nonzero; discriminate).
    assert (Pf : 0 < 2 ^ f) by (apply N.neq_0_lt_0, N.pow_nonzero; discriminate).
    (* nothing representable lies strictly between *)
    assert (B : forall z, representable z -> x < z -> z < y -> False).
    { intros z Rz H1 H2. destruct (Hx z Rz) as [D1 _]. unfold dist in *. lia. }
    assert (Z1 : y <= x + 2 ^ e).
    { destruct (N.le_gt_cases y (x + 2 ^ e)) as [H|H]; [exact H|]. exfalso. apply (B (x + 2 ^ e)); try lia.
      exists (2 * a' + 1), e. split; [lia|]. rewrite Xa. ring. }
    assert (Hb' : 0 < b') by (destruct b'; [rewrite N.mul_0_r, N.mul_0_l in Yb; lia|lia]).
    assert (Z2 : y <= x + 2 ^ f).
    { destruct (N.le_gt_cases y (x + 2 ^ f)) as [H|H]; [exact H|]. exfalso.
      assert (Yf : y = (2 * b' - 1) * 2 ^ f + 2 ^ f) by (rewrite Yb; replace (2 * b') with ((2 * b' - 1) + 1) at 1 by lia; ring).
      apply (B ((2 * b' - 1) * 2 ^ f)); try lia. exists (2 * b' - 1), f. split; [lia|reflexivity]. }
    destruct (N.le_ge_cases e f) as [L|L].
    - assert (E : 2 ^ f = 2 ^ (f - e) * 2 ^ e) by (rewrite <- N.pow_add_r; f_equal; lia).
      set (k := 2 ^ (f - e)) in *. rewrite E in Yb. set (p := 2 ^ e) in *. clearbody p k.
      assert (Y' : y = 2 * (b' * k) * p) by (rewrite Yb; ring). assert (X' : x = 2 * a' * p) by (rewrite Xa; ring).
      rewrite X', Y' in Hlt, Z1. exact (G _ _ _ Pe Hlt Z1).
    - assert (E : 2 ^ e = 2 ^ (e - f) * 2 ^ f) by (rewrite <- N.pow_add_r; f_equal; lia).
      set (k := 2 ^ (e - f)) in *. rewrite E in Xa. set (p := 2 ^ f) in *. clearbody p k.
      assert (X' : x = 2 * (a' * k) * p) by (rewrite Xa; ring). assert (Y' : y = 2 * b' * p) by (rewrite Yb; ring).
      rewrite X', Y' in Hlt, Z2. exact (G _ _ _ Pf Hlt Z2). }
  intros Hx Hy. destruct (N.lt_trichotomy x y) as [H|[H|H]]; [exfalso; eauto|exact H|exfalso; eauto].
Qed.

Theorem reads_unique n f g : reads n f -> reads n g -> f = g.
Proof.
  destruct f as [x|], g as [y|]; cbn.
  - intros [H1 _] [H2 _]. f_equal. eapply nearest_unique; eassumption.
  - intros [H1 L1] (y & H2 & L2). pose proof (nearest_unique _ _ _ H1 H2). lia.
  - intros (x & H1 & L1) [H2 L2]. pose proof (nearest_unique _ _ _ H1 H2). lia.
  - reflexivity.
Qed.
