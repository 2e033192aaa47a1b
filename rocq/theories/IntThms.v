(** * What int() reads *)
From Coq Require Import String List NArith ZArith Bool Lia.
From Verif Require Import PyStr SpecInt.
Import ListNotations.
Open Scope N_scope.
Open Scope list_scope.

Lemma blank_space c : int_space c = true <-> blank c.
Proof.
  unfold int_space, is_space, blank. rewrite !andb_true_iff, !orb_true_iff, !andb_true_iff, negb_true_iff, andb_false_iff, !N.leb_le, !N.leb_gt, !N.eqb_eq. lia.
Qed.

(** ** The table *)

Lemma zeros_apart : forallb (fun z => (128 <=? z) && forallb (fun z' => (z =? z') || (z + 10 <=? z') || (z' + 10 <=? z)) other_zeros) other_zeros = true.
Proof. vm_compute. reflexivity. Qed.

Lemma zeros_dark : forallb (fun z => forallb (fun k => negb (int_space (z + k))) [0; 1; 2; 3; 4; 5; 6; 7; 8; 9]) other_zeros = true.
Proof. vm_compute. reflexivity. Qed.

Lemma small_list k : k <= 9 -> In k [0; 1; 2; 3; 4; 5; 6; 7; 8; 9].
Proof. intros H. cbn. lia. Qed.

Lemma fold_decimal c k : decimal c k -> fold_digit c = 48 + k.
Proof.
  intros [Hk [->|(z & I & ->)]]; unfold fold_digit.
  - replace (48 + k <? 128) with true by (symmetry; apply N.ltb_lt; lia). reflexivity.
  - pose proof zeros_apart as A. rewrite forallb_forall in A. specialize (A z I). apply andb_true_iff in A as [A1 A2]. apply N.leb_le in A1. rewrite forallb_forall in A2.
    replace (z + k <? 128) with false by (symmetry; apply N.ltb_ge; lia).
    destruct (find _ other_zeros) as [z'|] eqn:E.
    + apply find_some in E as [I' E]. apply andb_true_iff in E as [E1 E2]. apply N.leb_le in E1. apply N.ltb_lt in E2.
      specialize (A2 z' I'). rewrite !orb_true_iff, N.eqb_eq, !N.leb_le in A2. lia.
    + eapply find_none in E; [|exact I]. cbv beta in E. apply andb_false_iff in E. rewrite N.leb_gt, N.ltb_ge in E. lia.
Qed.

Lemma decimal_dark c k : decimal c k -> int_space c = false.
Proof.
  intros [Hk [->|(z & I & ->)]].
  - destruct (int_space (48 + k)) eqn:E; [|reflexivity]. apply blank_space in E. unfold blank in E. lia.
  - pose proof zeros_dark as A. rewrite forallb_forall in A. specialize (A z I). rewrite forallb_forall in A. apply negb_true_iff, A, small_list, Hk.
Qed.

Lemma fold_cases c : (exists k, decimal c k) \/ (fold_digit c = c /\ is_digit c = false).
Proof.
  unfold fold_digit. destruct (N.ltb_spec c 128) as [L|L].
  - destruct (is_digit c) eqn:E; [left|right; auto]. apply is_digit_range in E. exists (c - 48). split; [lia|left; lia].
  - destruct (find _ other_zeros) as [z|] eqn:E.
    + apply find_some in E as [I E]. apply andb_true_iff in E as [E1 E2]. apply N.leb_le in E1. apply N.ltb_lt in E2.
      left. exists (c - z). split; [lia|]. right. exists z. split; [exact I|lia].
    + right. split; [reflexivity|]. destruct (is_digit c) eqn:D; [apply is_digit_range in D; lia|reflexivity].
Qed.

(** ** Digits *)

Lemma digit48 k : k <= 9 -> is_digit (48 + k) = true.
Proof. intros H. apply is_digit_range. lia. Qed.

Lemma literal_us s ks : literal s ks -> forall b, digits_us b (map fold_digit s) = Some (map (N.add 48) ks).
Proof.
  induction 1 as [c k D|c k s ks D L IH|c k s ks D L IH]; intros b; cbn [map digits_us]; rewrite (fold_decimal _ _ D), digit48 by apply D.
  - reflexivity.
  - rewrite IH. reflexivity.
  - change (fold_digit 95) with 95. cbn [is_digit]. change (is_digit 95) with false. cbn [andb]. change (95 =? c_under) with true. cbn [andb]. rewrite IH. reflexivity.
Qed.

Lemma us_literal s : forall d,
  (digits_us false (map fold_digit s) = Some d -> exists ks, literal s ks /\ d = map (N.add 48) ks) /\
  (digits_us true (map fold_digit s) = Some d ->
     (s = [] /\ d = []) \/ (exists ks, literal s ks /\ d = map (N.add 48) ks) \/ exists s' ks, s = 95 :: s' /\ literal s' ks /\ d = map (N.add 48) ks).
Proof.
  induction s as [|c s IH]; intros d; cbn [map digits_us].
  - split; [discriminate|]. intros [= <-]. auto.
  - destruct (fold_cases c) as [[k D]|[E N1]].
    + rewrite (fold_decimal _ _ D), digit48 by apply D.
      assert (X : option_map (cons (48 + k)) (digits_us true (map fold_digit s)) = Some d -> exists ks, literal (c :: s) ks /\ d = map (N.add 48) ks).
      { pose proof (fun d => proj2 (IH d)) as IH2. destruct (digits_us true (map fold_digit s)) as [d'|]; [|discriminate]. intros [= <-]. destruct (IH2 d' eq_refl) as [[-> ->]|[(ks & L & ->)|(s' & ks & -> & L & ->)]].
        - exists [k]. split; [constructor; exact D|reflexivity].
        - exists (k :: ks). split; [constructor; assumption|reflexivity].
        - exists (k :: ks). split; [apply Lit_under; assumption|reflexivity]. }
      split; [exact X|]. intros Q. right. left. exact (X Q).
    + rewrite E, N1. destruct (N.eqb_spec c c_under) as [->|Nu]; cbn [andb]; [|split; discriminate].
      split; [discriminate|]. intros Q. apply IH in Q as (ks & L & ->). right. right. exists s, ks. auto.
Qed.

Lemma dval_worth ks : dval (map (N.add 48) ks) = worth ks.
Proof.
  assert (H : forall a, dval_from a (map (N.add 48) ks) = fold_left (fun a k => 10 * a + k) ks a).
  { induction ks as [|k ks IH]; intros a; [reflexivity|]. cbn [map fold_left]. rewrite <- IH. unfold dval_from. cbn [fold_left]. f_equal. lia. }
  apply H.
Qed.

(** ** Blanks *)

Lemma dropwhile_app (p : N -> bool) w x : forallb p w = true -> (match x with [] => True | c :: _ => p c = false end) -> dropwhile p (w ++ x) = x.
Proof.
  induction w as [|c w IH]; cbn [app forallb dropwhile].
  - intros _ H. destruct x; [reflexivity|]. cbn. rewrite H. reflexivity.
  - intros H Hx. apply andb_true_iff in H as [-> H]. apply IH; assumption.
Qed.

Lemma blanks w : Forall blank w <-> forallb int_space w = true.
Proof. rewrite forallb_forall, Forall_forall. split; intros H c I; apply blank_space, H, I. Qed.

Lemma int_strip_mid w1 x w2 : Forall blank w1 -> Forall blank w2 ->
  match x with [] => True | c :: _ => int_space c = false end -> match rev x with [] => True | c :: _ => int_space c = false end -> x <> [] ->
  int_strip (w1 ++ x ++ w2) = x.
Proof.
  intros H1 H2 Hx Hr Nx. unfold int_strip. rewrite (dropwhile_app _ w1) by first [apply blanks, H1|destruct x; [congruence|exact Hx]].
  rewrite rev_app_distr, (dropwhile_app _ (rev w2)); [apply rev_involutive|rewrite forallb_rev; apply blanks, H2|exact Hr].
Qed.

Lemma int_strip_parts s : exists w1 w2, s = w1 ++ int_strip s ++ w2 /\ Forall blank w1 /\ Forall blank w2.
Proof.
  destruct (dropwhile_spec int_space s) as (w1 & E1 & H1 & _). set (t := dropwhile int_space s) in *.
  destruct (dropwhile_spec int_space (rev t)) as (w2 & E2 & H2 & _). exists w1, (rev w2). split; [|split].
  - rewrite E1 at 1. apply f_equal. transitivity (rev (rev t)); [symmetry; apply rev_involutive|]. rewrite E2 at 1. rewrite rev_app_distr. reflexivity.
  - apply blanks, H1.
  - apply blanks. rewrite forallb_rev. exact H2.
Qed.

Lemma literal_head s ks : literal s ks -> exists c k r, s = c :: r /\ decimal c k.
Proof. intros [c k D|c k r ks' D _|c k r ks' D _]; [exists c, k, []|exists c, k, r|exists c, k, (95 :: r)]; auto. Qed.
Lemma literal_last s ks : literal s ks -> exists c k r, s = r ++ [c] /\ decimal c k.
Proof.
  induction 1 as [c k D|c k s ks D L (c' & k' & r & -> & D')|c k s ks D L (c' & k' & r & -> & D')].
  - exists c, k, []. auto.
  - exists c', k', (c :: r). auto.
  - exists c', k', (c :: 95 :: r). auto.
Qed.

Lemma decimal_plain c k : decimal c k -> c <> 45 /\ c <> 43.
Proof.
  intros D. pose proof (fold_decimal c k D) as E. destruct D as [Hk _]. split; intros ->; vm_compute (fold_digit _) in E; lia.
Qed.

(** ** Both directions *)

Theorem int_spelled s v : spelled s v -> py_int s = Ok v.
Proof.
  intros (w1 & sg & b & w2 & ks & -> & H1 & H2 & L & Len & Sg).
  destruct (literal_head _ _ L) as (c & k & r & Eb & D). destruct (literal_last _ _ L) as (c' & k' & r' & Eb' & D').
  assert (Str : int_strip (w1 ++ sg ++ b ++ w2) = sg ++ b).
  { rewrite (app_assoc sg). apply int_strip_mid; try assumption.
    - destruct Sg as [[[->| ->] _]|[-> _]]; cbn; [rewrite Eb; apply (decimal_dark _ _ D)|reflexivity..].
    - rewrite rev_app_distr, Eb', rev_app_distr. cbn. apply (decimal_dark _ _ D').
    - rewrite Eb. destruct sg; discriminate. }
  unfold py_int. rewrite Str, map_app.
  assert (Us : digits_us false (map fold_digit b) = Some (map (N.add 48) ks)) by (apply literal_us, L).
  assert (Small : int_max_str_digits <? slen (map (N.add 48) ks) = false).
  { apply N.ltb_ge. unfold slen, int_max_str_digits. rewrite map_length. exact Len. }
  destruct Sg as [[[->| ->] ->]|[-> ->]]; cbn [map app].
  - destruct (decimal_plain _ _ D) as [P1 P2]. rewrite Eb in *. cbn [map] in *. rewrite (fold_decimal _ _ D) in *.
    replace (48 + k =? c_minus) with false by (symmetry; apply N.eqb_neq; unfold c_minus; lia).
    replace (48 + k =? c_plus) with false by (symmetry; apply N.eqb_neq; unfold c_plus; lia).
    rewrite Us, Small, dval_worth. reflexivity.
  - change (fold_digit 43) with 43. change (43 =? c_minus) with false. change (43 =? c_plus) with true. cbn iota. rewrite Us, Small, dval_worth. reflexivity.
  - change (fold_digit 45) with 45. change (45 =? c_minus) with true. cbn iota. rewrite Us, Small, dval_worth. reflexivity.
Qed.

Lemma fold_sign c x : x = 45 \/ x = 43 -> fold_digit c = x -> c = x.
Proof.
  intros Hx E. destruct (fold_cases c) as [[k D]|[F _]]; [|congruence]. rewrite (fold_decimal _ _ D) in E. lia.
Qed.

Theorem spelled_int s v : py_int s = Ok v -> spelled s v.
Proof.
  destruct (int_strip_parts s) as (w1 & w2 & E & H1 & H2). unfold py_int. set (t := int_strip s) in *. clearbody t. subst s.
  assert (X : forall sg body neg, t = sg ++ body -> (neg = false /\ (sg = [] \/ sg = [43]) \/ neg = true /\ sg = [45]) ->
    match digits_us false (map fold_digit body) with
    | None => Err ValueError
    | Some d => if int_max_str_digits <? slen d then Err ValueError else Ok (if neg then (- Z.of_N (dval d))%Z else Z.of_N (dval d))
    end = Ok v -> spelled (w1 ++ t ++ w2) v).
  { intros sg body neg -> Sg. destruct (digits_us false (map fold_digit body)) as [d|] eqn:U; [|discriminate].
    destruct (N.ltb_spec int_max_str_digits (slen d)) as [L|L]; [discriminate|]. intros [= <-].
    apply us_literal in U as (ks & Lt & ->). exists w1, sg, body, w2, ks. split; [rewrite <- !app_assoc; reflexivity|]. split; [exact H1|]. split; [exact H2|]. split; [exact Lt|].
    unfold slen, int_max_str_digits in L. rewrite map_length in L. split; [exact L|]. rewrite dval_worth. destruct Sg as [[-> Sg]|[-> ->]]; auto. }
  destruct t as [|c r]; cbn [map].
  - apply (X [] [] false); auto.
  - destruct (N.eqb_spec (fold_digit c) c_minus) as [Em|Nm]; [|destruct (N.eqb_spec (fold_digit c) c_plus) as [Ep|Np]].
    + apply fold_sign in Em; [|auto]. apply (X [45] r true); [subst; reflexivity|auto].
    + apply fold_sign in Ep; [|auto]. apply (X [43] r false); [subst; reflexivity|auto].
    + apply (X [] (c :: r) false); auto.
Qed.

Theorem int_reads s v : py_int s = Ok v <-> spelled s v.
Proof. split; [apply spelled_int|apply int_spelled]. Qed.

Theorem int_refuses s e : py_int s = Err e <-> e = ValueError /\ forall v, ~ spelled s v.
Proof.
  split.
  - intros E. split; [|intros v H; apply int_spelled in H; congruence].
    unfold py_int in E. destruct (match map fold_digit (int_strip s) with [] => _ | _ => _ end) as [neg body].
    destruct (digits_us false body); [destruct (_ <? _)|]; congruence.
  - intros [-> N1]. destruct (py_int s) as [v|e] eqn:E; [destruct (N1 v); apply spelled_int, E|].
    unfold py_int in E. destruct (match map fold_digit (int_strip s) with [] => _ | _ => _ end) as [neg body].
    destruct (digits_us false body); [destruct (_ <? _)|]; congruence.
Qed.
