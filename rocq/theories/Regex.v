(** * Regular expressions: denotation and a verified matcher.

    The patterns of pyown/messages are transcribed as syntax trees.  Only the
    constructs they use are present: literals, classes, concatenation,
    optional, star and plus.  Capturing groups are irrelevant because the code
    only tests whether [match] returned None. *)
From Coq Require Import List NArith Bool Lia String.
From Verif Require Import PyStr.
Import ListNotations.
Open Scope N_scope.
Open Scope list_scope.

Inductive re :=
| Emp
| Eps
| Cls (l : list N)
| Cat (a b : re)
| Alt (a b : re)
| Star (a : re).

Definition Opt (a : re) := Alt a Eps.
Definition Plus (a : re) := Cat a (Star a).
Definition Chr (c : N) := Cls [c].
Fixpoint Lit (s : str) : re :=
  match s with [] => Eps | c :: r => Cat (Chr c) (Lit r) end.

(** The language of an expression (the mathematical meaning). *)
Inductive lang : re -> str -> Prop :=
| LEps : lang Eps []
| LCls l c : In c l -> lang (Cls l) [c]
| LCat a b s t : lang a s -> lang b t -> lang (Cat a b) (s ++ t)
| LAltL a b s : lang a s -> lang (Alt a b) s
| LAltR a b s : lang b s -> lang (Alt a b) s
| LStar0 a : lang (Star a) []
| LStarS a s t : lang a s -> lang (Star a) t -> lang (Star a) (s ++ t).

Fixpoint nullable (r : re) : bool :=
  match r with
  | Emp => false
  | Eps => true
  | Cls _ => false
  | Cat a b => nullable a && nullable b
  | Alt a b => nullable a || nullable b
  | Star _ => true
  end.

(** Smart constructors keep derivatives small; they do not change the language. *)
Definition sCat (a b : re) : re :=
  match a with Emp => Emp | Eps => b | _ => match b with Emp => Emp | _ => Cat a b end end.

Fixpoint re_eqb (a b : re) : bool :=
  match a, b with
  | Emp, Emp => true
  | Eps, Eps => true
  | Cls l, Cls m => str_eqb l m
  | Cat a1 a2, Cat b1 b2 => re_eqb a1 b1 && re_eqb a2 b2
  | Alt a1 a2, Alt b1 b2 => re_eqb a1 b1 && re_eqb a2 b2
  | Star a1, Star b1 => re_eqb a1 b1
  | _, _ => false
  end.

(** Membership of an alternative in a right-nested union. *)
Fixpoint alt_mem (a b : re) : bool :=
  re_eqb a b || match b with Alt b1 b2 => re_eqb a b1 || alt_mem a b2 | _ => false end.

Fixpoint sAlt (a b : re) : re :=
  match a with
  | Emp => b
  | Alt a1 a2 => sAlt a1 (sAlt a2 b)
  | _ => match b with Emp => a | _ => if alt_mem a b then b else Alt a b end
  end.

Fixpoint deriv (c : N) (r : re) : re :=
  match r with
  | Emp => Emp
  | Eps => Emp
  | Cls l => if existsb (N.eqb c) l then Eps else Emp
  | Cat a b =>
      if nullable a then sAlt (sCat (deriv c a) b) (deriv c b) else sCat (deriv c a) b
  | Alt a b => sAlt (deriv c a) (deriv c b)
  | Star a => sCat (deriv c a) (Star a)
  end.

Fixpoint matchb (r : re) (s : str) : bool :=
  match s with
  | [] => nullable r
  | c :: t => matchb (deriv c r) t
  end.

Lemma re_eqb_eq a b : re_eqb a b = true -> a = b.
Proof.
  revert b; induction a; intros [] H; cbn in H; try discriminate; auto.
  - apply str_eqb_spec in H. congruence.
  - apply andb_true_iff in H as [H1 H2]. f_equal; auto.
  - apply andb_true_iff in H as [H1 H2]. f_equal; auto.
  - f_equal; auto.
Qed.

Lemma lang_Emp s : ~ lang Emp s.
Proof. intros H. inversion H. Qed.

Lemma lang_Eps s : lang Eps s <-> s = [].
Proof. split; [intros H; now inversion H|intros ->; constructor]. Qed.

Lemma lang_Cat a b s : lang (Cat a b) s <-> exists u v, s = u ++ v /\ lang a u /\ lang b v.
Proof.
  split.
  - intros H. inversion H; subst. eauto.
  - intros (u & v & -> & Hu & Hv). now constructor.
Qed.

Lemma lang_Alt a b s : lang (Alt a b) s <-> lang a s \/ lang b s.
Proof.
  split.
  - intros H. inversion H; auto.
  - intros [H|H]; [now apply LAltL|now apply LAltR].
Qed.

Lemma lang_Cls l s : lang (Cls l) s <-> exists c, s = [c] /\ In c l.
Proof.
  split.
  - intros H. inversion H; subst. eauto.
  - intros (c & -> & H). now constructor.
Qed.

Lemma lang_sCat a b s : lang (sCat a b) s <-> lang (Cat a b) s.
Proof.
  assert (HE : forall x, lang (Cat x Emp) s <-> lang Emp s).
  { intros x. rewrite lang_Cat. split.
    - intros (u & v & _ & _ & H). destruct (lang_Emp _ H).
    - intros H. destruct (lang_Emp _ H). }
  assert (HC : forall x, lang (match b with Emp => Emp | _ => Cat x b end) s <-> lang (Cat x b) s).
  { intros x. destruct b; try reflexivity. symmetry. apply HE. }
  unfold sCat. destruct a; try apply HC.
  - rewrite lang_Cat. split.
    + intros H. destruct (lang_Emp _ H).
    + intros (u & v & _ & H & _). destruct (lang_Emp _ H).
  - rewrite lang_Cat. split.
    + intros H. exists [], s. repeat split; auto. constructor.
    + intros (u & v & -> & H & Hv). apply lang_Eps in H as ->. exact Hv.
Qed.

Lemma alt_mem_lang a b s : alt_mem a b = true -> lang a s -> lang b s.
Proof.
  revert a; induction b; intros a H Ha; cbn [alt_mem] in H; rewrite ?orb_false_r in H;
    try (apply re_eqb_eq in H as ->; exact Ha).
  rewrite !orb_true_iff in H. destruct H as [H|[H|H]].
  - apply re_eqb_eq in H as ->. exact Ha.
  - apply re_eqb_eq in H as ->. now apply LAltL.
  - apply LAltR. eapply IHb2; eauto.
Qed.

Lemma lang_sAlt a b s : lang (sAlt a b) s <-> lang (Alt a b) s.
Proof.
  assert (HB : forall x, lang (match b with Emp => x | _ => if alt_mem x b then b else Alt x b end) s
                         <-> lang (Alt x b) s).
  { intros x.
    assert (HM : lang (if alt_mem x b then b else Alt x b) s <-> lang (Alt x b) s).
    { destruct (alt_mem x b) eqn:E; [|reflexivity]. rewrite lang_Alt. split; auto.
      intros [H|H]; auto. eapply alt_mem_lang; eauto. }
    destruct b; auto. rewrite lang_Alt. split; auto.
    intros [H|H]; auto. destruct (lang_Emp _ H). }
  revert b HB; induction a; intros b HB; cbn [sAlt]; try apply HB.
  - rewrite lang_Alt. split; auto. intros [H|H]; auto. destruct (lang_Emp _ H).
  - (* Alt *)
    assert (HB' : forall b x, lang (match b with Emp => x | _ => if alt_mem x b then b else Alt x b end) s
                         <-> lang (Alt x b) s).
    { clear. intros b x.
      assert (HM : lang (if alt_mem x b then b else Alt x b) s <-> lang (Alt x b) s).
      { destruct (alt_mem x b) eqn:E; [|reflexivity]. rewrite lang_Alt. split; auto.
        intros [H|H]; auto. eapply alt_mem_lang; eauto. }
      destruct b; auto. rewrite lang_Alt. split; auto.
      intros [H|H]; auto. destruct (lang_Emp _ H). }
    rewrite IHa1 by (intros; apply HB'). rewrite !lang_Alt.
    rewrite IHa2 by (intros; apply HB'). rewrite lang_Alt. tauto.
Qed.

Lemma nullable_spec r : nullable r = true <-> lang r [].
Proof.
  induction r; cbn [nullable].
  - split; [discriminate|]. intros H. destruct (lang_Emp _ H).
  - split; [constructor|auto].
  - split; [discriminate|]. rewrite lang_Cls. intros (c & H & _). discriminate.
  - rewrite andb_true_iff, IHr1, IHr2, lang_Cat. split.
    + intros [H1 H2]. exists [], []. auto.
    + intros (u & v & H & H1 & H2). symmetry in H. apply app_eq_nil in H as [-> ->]. auto.
  - rewrite orb_true_iff, IHr1, IHr2, lang_Alt. reflexivity.
  - split; [constructor|auto].
Qed.

Lemma star_cons a c s :
  lang (Star a) (c :: s) -> exists u v, s = u ++ v /\ lang a (c :: u) /\ lang (Star a) v.
Proof.
  intros H. remember (Star a) as r eqn:Er. remember (c :: s) as t eqn:Et.
  revert a Er c s Et. induction H; intros a' Er c' s' Et; try discriminate.
  injection Er as ->. destruct s as [|d u].
  - cbn in Et. eapply IHlang2; eauto.
  - cbn in Et. injection Et as -> <-. eauto.
Qed.

Lemma deriv_spec r c s : lang (deriv c r) s <-> lang r (c :: s).
Proof.
  revert s; induction r; intros s; cbn [deriv].
  - split; intros H; inversion H.
  - split; intros H; inversion H.
  - rewrite lang_Cls. destruct (existsb (N.eqb c) l) eqn:E.
    + rewrite lang_Eps. apply existsb_exists in E as (d & Hd & E). apply N.eqb_eq in E as ->. split.
      * intros ->. eauto.
      * intros (e & H & _). now injection H as -> ->.
    + split; [intros H; destruct (lang_Emp _ H)|].
      intros (d & H & Hd). injection H as -> ->.
      assert (existsb (N.eqb d) l = true) by (apply existsb_exists; exists d; split; auto; apply N.eqb_refl).
      congruence.
  - assert (HL : lang (Cat (deriv c r1) r2) s <->
                 exists u v, s = u ++ v /\ lang r1 (c :: u) /\ lang r2 v).
    { rewrite lang_Cat. split; intros (u & v & ? & H & ?); exists u, v; repeat split; auto; now apply IHr1. }
    assert (HR : lang (Cat r1 r2) (c :: s) <->
                 (exists u v, s = u ++ v /\ lang r1 (c :: u) /\ lang r2 v)
                 \/ (lang r1 [] /\ lang r2 (c :: s))).
    { rewrite lang_Cat. split.
      - intros (u & v & H & H1 & H2). destruct u as [|d u].
        + cbn in H. subst v. auto.
        + cbn in H. injection H as -> ->. left. eauto.
      - intros [(u & v & -> & H1 & H2)|[H1 H2]].
        + exists (c :: u), v. auto.
        + exists [], (c :: s). auto. }
    rewrite HR. destruct (nullable r1) eqn:E.
    + rewrite lang_sAlt, lang_Alt, lang_sCat, HL, IHr2. apply nullable_spec in E. tauto.
    + rewrite lang_sCat, HL. split; [auto|]. intros [H|[H _]]; auto.
      apply nullable_spec in H. congruence.
  - rewrite lang_sAlt, !lang_Alt, IHr1, IHr2. reflexivity.
  - rewrite lang_sCat, lang_Cat. split.
    + intros (u & v & -> & H1 & H2). apply IHr in H1.
      change (c :: u ++ v) with ((c :: u) ++ v). now constructor.
    + intros H. apply star_cons in H as (u & v & -> & H1 & H2).
      exists u, v. repeat split; auto. now apply IHr.
Qed.

Theorem matchb_spec r s : matchb r s = true <-> lang r s.
Proof.
  revert r; induction s as [|c s IH]; intros r; cbn [matchb].
  - apply nullable_spec.
  - rewrite IH. apply deriv_spec.
Qed.

(** [re.compile("^" + r + "$").match(s) is not None]: the match is anchored at
    the start, and "$" matches at the end or just before a final newline. *)
Definition py_match (r : re) (s : str) : bool :=
  matchb r s ||
  match rev s with
  | c :: t => (c =? c_nl) && matchb r (rev t)
  | [] => false
  end.

Lemma py_match_spec r s :
  py_match r s = true <-> lang r s \/ exists t, s = t ++ [c_nl] /\ lang r t.
Proof.
  unfold py_match. rewrite orb_true_iff, matchb_spec. apply or_iff_compat_l.
  destruct (rev s) as [|c t] eqn:E.
  - split; [discriminate|]. intros (t & -> & _). rewrite rev_app_distr in E. discriminate.
  - assert (s = rev t ++ [c]) as -> by (rewrite <- (rev_involutive s), E; reflexivity).
    rewrite andb_true_iff, N.eqb_eq, matchb_spec. split.
    + intros [-> H]. eauto.
    + intros (u & H & Hu). apply app_inj_tail in H as [-> ->]. auto.
Qed.

Lemma py_match_stripped r s : stripped s -> (py_match r s = true <-> lang r s).
Proof.
  intros [_ Hs]. rewrite py_match_spec. split; auto.
  intros [H|(t & -> & _)]; auto. rewrite rev_app_distr in Hs. cbn in Hs. discriminate.
Qed.

(** ** Languages of common shapes *)

Lemma lang_Star_Cls l s : lang (Star (Cls l)) s <-> Forall (fun c => In c l) s.
Proof.
  split.
  - intros H. remember (Star (Cls l)) as r eqn:Er. induction H; try discriminate; auto.
    injection Er as ->. apply lang_Cls in H as (c & -> & Hc). cbn. constructor; auto.
  - induction 1; [constructor|].
    change (x :: l0) with ([x] ++ l0). constructor; auto. now constructor.
Qed.

Lemma lang_Lit p s : lang (Lit p) s <-> s = p.
Proof.
  revert s; induction p as [|c p IH]; intros s; cbn [Lit].
  - apply lang_Eps.
  - rewrite lang_Cat. split.
    + intros (u & v & -> & H1 & H2). apply lang_Cls in H1 as (d & -> & [->|[]]).
      apply IH in H2 as ->. reflexivity.
    + intros ->. exists [c], p. repeat split; [|now apply IH]. constructor. now left.
Qed.

Lemma lang_Chr c s : lang (Chr c) s <-> s = [c].
Proof.
  unfold Chr. rewrite lang_Cls. split.
  - intros (d & -> & [->|[]]). reflexivity.
  - intros ->. exists c. split; auto. now left.
Qed.

Lemma lang_Plus a s : lang (Plus a) s <-> exists u v, s = u ++ v /\ lang a u /\ lang (Star a) v.
Proof. apply lang_Cat. Qed.

(** Concatenation with a fixed literal in front. *)
Lemma lang_Cat_Lit p r s : lang (Cat (Lit p) r) s <-> exists v, s = p ++ v /\ lang r v.
Proof.
  rewrite lang_Cat. split.
  - intros (u & v & -> & H & Hv). apply lang_Lit in H as ->. eauto.
  - intros (v & -> & H). exists p, v. repeat split; auto. now apply lang_Lit.
Qed.
