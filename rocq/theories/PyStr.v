(** * Python strings, decimal numerals and the exceptions used by pyown.

    [str] is a list of Unicode code points.  The functions below follow the
    CPython [str] methods that the code in /repo/pyown calls; the calling
    lines are cited at each definition. *)
From Coq Require Import List NArith ZArith Bool Lia String Ascii.
From Coq Require Decimal DecimalFacts DecimalPos DecimalN.
Import ListNotations.
Open Scope N_scope.
Open Scope list_scope.

Definition str := list N.

(** Literals: ["abc"] in Coq's [string] as code points. *)
Fixpoint lit (s : string) : str :=
  match s with
  | EmptyString => []
  | String a r => N_of_ascii a :: lit r
  end.

Definition c_star : N := 42.   (* '*' *)
Definition c_hash : N := 35.   (* '#' *)
Definition c_nl   : N := 10.   (* '\n' *)
Definition c_dot  : N := 46.   (* '.' *)
Definition c_colon : N := 58.  (* ':' *)
Definition c_minus : N := 45.
Definition c_plus : N := 43.
Definition c_under : N := 95.

Definition is_digit (c : N) : bool := (48 <=? c) && (c <=? 57).

Fixpoint str_eqb (a b : str) : bool :=
  match a, b with
  | [], [] => true
  | x :: a', y :: b' => (x =? y) && str_eqb a' b'
  | _, _ => false
  end.

Lemma str_eqb_spec a b : str_eqb a b = true <-> a = b.
Proof.
  revert b; induction a as [|x a IH]; intros [|y b]; cbn [str_eqb]; split; intros H;
    try discriminate; auto.
  - apply andb_true_iff in H as [H1 H2]. apply N.eqb_eq in H1. apply IH in H2. congruence.
  - injection H as -> ->. rewrite N.eqb_refl. cbn. now apply IH.
Qed.

Lemma str_eqb_refl a : str_eqb a a = true.
Proof. now apply str_eqb_spec. Qed.

Lemma str_eqb_neq a b : str_eqb a b = false <-> a <> b.
Proof.
  rewrite <- (str_eqb_spec a b). destruct (str_eqb a b); split; congruence.
Qed.

Definition str_eq_dec (a b : str) : {a = b} + {a <> b}.
Proof. decide equality. apply N.eq_dec. Defined.

Lemma str_eqb_sym a b : str_eqb a b = str_eqb b a.
Proof.
  destruct (str_eqb a b) eqn:E.
  - apply str_eqb_spec in E as ->. symmetry. apply str_eqb_refl.
  - symmetry. apply str_eqb_neq. apply str_eqb_neq in E. congruence.
Qed.

(** [x in (a, b, ...)] for strings. *)
Definition str_in (x : str) (l : list str) : bool := existsb (str_eqb x) l.

Lemma str_in_spec x l : str_in x l = true <-> In x l.
Proof.
  unfold str_in. rewrite existsb_exists. split.
  - intros (y & Hy & E). apply str_eqb_spec in E. now subst.
  - intros H. exists x. split; auto. apply str_eqb_refl.
Qed.

(** ** Exceptions *)

(** The exceptions that can escape from the modelled functions.  The payload
    of a Python exception (its message) is not modelled. *)
Inductive exn :=
| InvalidMessage        (* pyown/exceptions.py, a ParseError *)
| InvalidTag            (* pyown/exceptions.py, a ParseError *)
| InvalidSession        (* pyown/exceptions.py *)
| InvalidAuthentication (* pyown/exceptions.py *)
| ResponseError         (* pyown/exceptions.py *)
| ValueError
| IndexError
| KeyError
| TypeError
| AttributeError
| OverflowError
| TimeoutError
| UnicodeDecodeError    (* a ValueError in Python; kept apart *)
| UnicodeEncodeError    (* a ValueError in Python; kept apart *)
| NotImplementedErr.

(** pyown/exceptions.py: InvalidMessage and InvalidTag derive from ParseError. *)
Definition is_parse_error (e : exn) : bool :=
  match e with InvalidMessage | InvalidTag => true | _ => false end.

Inductive res (A : Type) :=
| Ok (a : A)
| Err (e : exn).
Arguments Ok {A} a.
Arguments Err {A} e.

Definition bind {A B} (x : res A) (f : A -> res B) : res B :=
  match x with Ok a => f a | Err e => Err e end.
Notation "'do' x <- a ; b" := (bind a (fun x => b))
  (at level 200, x pattern, a at level 100, b at level 200, right associativity).

Definition is_ok {A} (x : res A) : bool := match x with Ok _ => true | Err _ => false end.

(** Left-to-right evaluation of a Python list comprehension with a call that
    may raise: the first exception wins. *)
Fixpoint mapM {A B} (f : A -> res B) (l : list A) : res (list B) :=
  match l with
  | [] => Ok []
  | x :: r => do y <- f x; do ys <- mapM f r; Ok (y :: ys)
  end.

Lemma mapM_ok {A B} (f : A -> res B) l ys :
  mapM f l = Ok ys <-> Forall2 (fun x y => f x = Ok y) l ys.
Proof.
  revert ys; induction l as [|x l IH]; intros ys; cbn [mapM bind].
  - split; intros H; [injection H as <-|inversion H]; auto.
  - destruct (f x) as [y|e] eqn:E; cbn [bind].
    + destruct (mapM f l) as [ys'|e] eqn:E2; cbn [bind].
      * split; intros H.
        -- injection H as <-. constructor; auto. now apply IH.
        -- inversion H as [|? ? ? ? Hx Hl]; subst. rewrite E in Hx. injection Hx as <-.
           apply IH in Hl. injection Hl as <-. reflexivity.
      * split; intros H; [discriminate|]. inversion H as [|? ? ? ? Hx Hl]; subst.
        apply IH in Hl. discriminate.
    + split; intros H; [discriminate|]. inversion H; subst. congruence.
Qed.

Lemma mapM_all_ok {A B} (f : A -> res B) (g : A -> B) l :
  (forall x, In x l -> f x = Ok (g x)) -> mapM f l = Ok (map g l).
Proof.
  intros H. apply mapM_ok. induction l; cbn; constructor; auto.
  - apply H; now left.
  - apply IHl. intros; apply H; now right.
Qed.

Lemma mapM_err {A B} (f : A -> res B) l e :
  mapM f l = Err e -> exists x, In x l /\ f x = Err e.
Proof.
  induction l as [|x l IH]; cbn [mapM bind]; intros H; [discriminate|].
  destruct (f x) as [y|e'] eqn:E; cbn [bind] in H.
  - destruct (mapM f l) as [ys|e'] eqn:E2; cbn [bind] in H; [discriminate|].
    injection H as ->. destruct IH as (z & Hz & Ez); auto. exists z; split; auto. now right.
  - injection H as ->. exists x; split; auto. now left.
Qed.

(** ** Prefixes and suffixes *)

(** [s.startswith(p)] *)
Fixpoint startswith (p s : str) : bool :=
  match p, s with
  | [], _ => true
  | x :: p', y :: s' => (x =? y) && startswith p' s'
  | _ :: _, [] => false
  end.

Definition endswith (p s : str) : bool := startswith (rev p) (rev s).

(** [s.removeprefix(p)] (tags/base.py:57, messages/base.py:202) *)
Definition removeprefix (p s : str) : str :=
  if startswith p s then skipn (List.length p) s else s.

(** [s.removesuffix(p)] (messages/base.py:203) *)
Definition removesuffix (p s : str) : str :=
  if endswith p s then firstn (List.length s - List.length p) s else s.

Lemma startswith_spec p s : startswith p s = true <-> exists r, s = p ++ r.
Proof.
  revert s; induction p as [|x p IH]; intros s; cbn [startswith].
  - split; [intros _; now exists s|auto].
  - destruct s as [|y s]; [split; [discriminate|intros (r & H); discriminate]|].
    rewrite andb_true_iff, N.eqb_eq, IH. split.
    + intros (-> & r & ->). now exists r.
    + intros (r & H). injection H as -> ->. eauto.
Qed.

Lemma endswith_spec p s : endswith p s = true <-> exists r, s = r ++ p.
Proof.
  unfold endswith. rewrite startswith_spec. split; intros (r & H).
  - exists (rev r). rewrite <- (rev_involutive s), H, rev_app_distr, rev_involutive. reflexivity.
  - exists (rev r). rewrite H, rev_app_distr. reflexivity.
Qed.

Lemma removeprefix_app p s : removeprefix p (p ++ s) = s.
Proof.
  unfold removeprefix. replace (startswith p (p ++ s)) with true.
  - rewrite skipn_app, skipn_all, Nat.sub_diag. reflexivity.
  - symmetry. apply startswith_spec. eauto.
Qed.

Lemma removesuffix_app p s : removesuffix p (s ++ p) = s.
Proof.
  unfold removesuffix. replace (endswith p (s ++ p)) with true.
  - rewrite app_length, Nat.add_sub, firstn_app, Nat.sub_diag, firstn_all.
    cbn. apply app_nil_r.
  - symmetry. apply endswith_spec. eauto.
Qed.

Lemma removeprefix_not p s : startswith p s = false -> removeprefix p s = s.
Proof. unfold removeprefix. now intros ->. Qed.

(** ** split and join *)

Definition cons_hd (c : N) (l : list str) : list str :=
  match l with
  | [] => [[c]]
  | x :: r => (c :: x) :: r
  end.

(** [s.split(sep)] for a one-character separator
    (messages/base.py:204 with "*", tags/base.py:102,108 with "#"). *)
Fixpoint split (sep : N) (s : str) : list str :=
  match s with
  | [] => [[]]
  | c :: r => if c =? sep then [] :: split sep r else cons_hd c (split sep r)
  end.

(** [sep.join(l)] for a one-character separator (messages/base.py:165). *)
Fixpoint join (sep : N) (l : list str) : str :=
  match l with
  | [] => []
  | [x] => x
  | x :: r => x ++ sep :: join sep r
  end.

Lemma split_not_nil sep s : split sep s <> [].
Proof.
  destruct s as [|c r]; cbn [split]; [discriminate|].
  destruct (c =? sep); [discriminate|]. destruct (split sep r); discriminate.
Qed.

Lemma split_length_pos sep s : (0 < List.length (split sep s))%nat.
Proof. pose proof (split_not_nil sep s). destruct (split sep s); cbn; [congruence|lia]. Qed.

Lemma join_cons sep x l : l <> [] -> join sep (x :: l) = x ++ sep :: join sep l.
Proof. destruct l; [congruence|reflexivity]. Qed.

Lemma join_cons_hd sep c l : l <> [] -> join sep (cons_hd c l) = c :: join sep l.
Proof. destruct l as [|x [|y l]]; cbn; congruence. Qed.

Lemma join_split sep s : join sep (split sep s) = s.
Proof.
  induction s as [|c r IH]; [reflexivity|]. cbn [split].
  destruct (c =? sep) eqn:E.
  - apply N.eqb_eq in E as ->. rewrite join_cons by apply split_not_nil. cbn. now rewrite IH.
  - rewrite join_cons_hd by apply split_not_nil. now rewrite IH.
Qed.

Lemma split_nosep sep s : ~ In sep s -> split sep s = [s].
Proof.
  induction s as [|c r IH]; intros H; [reflexivity|]. cbn [split].
  destruct (c =? sep) eqn:E.
  - apply N.eqb_eq in E as ->. exfalso; apply H; now left.
  - rewrite IH; [reflexivity|]. intros Hr; apply H; now right.
Qed.

Lemma split_app_sep sep x s : ~ In sep x -> split sep (x ++ sep :: s) = x :: split sep s.
Proof.
  induction x as [|c r IH]; intros H; cbn [app split].
  - now rewrite N.eqb_refl.
  - destruct (c =? sep) eqn:E.
    + apply N.eqb_eq in E as ->. exfalso; apply H; now left.
    + rewrite IH; [reflexivity|]. intros Hr; apply H; now right.
Qed.

Lemma split_join sep l :
  l <> [] -> Forall (fun x => ~ In sep x) l -> split sep (join sep l) = l.
Proof.
  induction l as [|x l IH]; intros Hne HF; [congruence|].
  inversion HF as [|? ? Hx Hl]; subst. destruct l as [|y l].
  - cbn. now apply split_nosep.
  - rewrite join_cons by discriminate. rewrite split_app_sep by auto.
    rewrite IH; auto. discriminate.
Qed.

Lemma split_no_sep_in sep s : Forall (fun x => ~ In sep x) (split sep s).
Proof.
  induction s as [|c r IH]; cbn [split].
  - constructor; auto.
  - destruct (c =? sep) eqn:E.
    + constructor; auto.
    + apply N.eqb_neq in E. destruct (split sep r) as [|x l]; cbn [cons_hd].
      * constructor; [|constructor]. intros [->|[]]; congruence.
      * inversion IH; subst. constructor; auto. intros [->|Hin]; [congruence|auto].
Qed.

Lemma in_split_in sep s x c : In x (split sep s) -> In c x -> In c s.
Proof.
  revert x; induction s as [|d r IH]; intros x; cbn [split].
  - intros [<-|[]] [].
  - destruct (d =? sep) eqn:E.
    + intros [<-|H] Hc; [inversion Hc|]. right. eauto.
    + destruct (split sep r) as [|y l]; cbn [cons_hd].
      * intros [<-|[]] [->|[]]; now left.
      * intros [<-|H] Hc.
        -- destruct Hc as [->|Hc]; [now left|]. right. apply (IH y); auto. now left.
        -- right. apply (IH x); auto. now right.
Qed.

Lemma in_join sep l c : In c (join sep l) -> c = sep \/ exists x, In x l /\ In c x.
Proof.
  induction l as [|x l IH]; [intros []|].
  destruct l as [|y l].
  - cbn [join]. intros H. right. exists x. split; auto. now left.
  - rewrite join_cons by discriminate. rewrite in_app_iff. cbn [In].
    intros [H|[<-|H]]; auto.
    + right. exists x; split; auto.
    + apply IH in H as [H|(z & Hz & Hc)]; auto. right. exists z; split; auto.
Qed.

Lemma join_inj sep l1 l2 :
  l1 <> [] -> l2 <> [] ->
  Forall (fun x => ~ In sep x) l1 -> Forall (fun x => ~ In sep x) l2 ->
  join sep l1 = join sep l2 -> l1 = l2.
Proof.
  intros H1 H2 F1 F2 E. rewrite <- (split_join sep l1), <- (split_join sep l2) by auto.
  now rewrite E.
Qed.

(** ** The two-character terminator "##" *)

(** [s.count("##")]: non-overlapping occurrences, scanning left to right
    (messages/base.py:196). *)
Fixpoint count_hh (s : str) : nat :=
  match s with
  | [] => O
  | c :: r =>
      match r with
      | [] => O
      | d :: r2 => if (c =? c_hash) && (d =? c_hash) then S (count_hh r2) else count_hh r
      end
  end.

(** [s.split("##")] (protocol/protocol.py:82). *)
Fixpoint split_hh (s : str) : list str :=
  match s with
  | [] => [[]]
  | c :: r =>
      match r with
      | [] => [[c]]
      | d :: r2 => if (c =? c_hash) && (d =? c_hash) then [] :: split_hh r2 else cons_hd c (split_hh r)
      end
  end.

Definition hh : str := [c_hash; c_hash].

(** ** Whitespace *)

(** [str.isspace] on one code point, as used by [str.strip()] without
    arguments: the Unicode White_Space property plus U+001C..U+001F. *)
Definition is_space (c : N) : bool :=
  ((9 <=? c) && (c <=? 13)) || ((28 <=? c) && (c <=? 32)) || (c =? 133) || (c =? 160)
  || (c =? 5760) || ((8192 <=? c) && (c <=? 8202)) || (c =? 8232) || (c =? 8233)
  || (c =? 8239) || (c =? 8287) || (c =? 12288).

Fixpoint dropwhile (p : N -> bool) (s : str) : str :=
  match s with
  | [] => []
  | c :: r => if p c then dropwhile p r else s
  end.

Definition lstrip (s : str) : str := dropwhile is_space s.
Definition rstrip (s : str) : str := rev (dropwhile is_space (rev s)).

(** [s.strip()] (messages/base.py:199, protocol/protocol.py:75). *)
Definition strip (s : str) : str := rstrip (lstrip s).

Lemma dropwhile_spec p s :
  exists w, s = w ++ dropwhile p s /\ forallb p w = true /\
            (match dropwhile p s with [] => True | c :: _ => p c = false end).
Proof.
  induction s as [|c r (w & E & Hw & Hh)]; cbn [dropwhile].
  - exists []; auto.
  - destruct (p c) eqn:Ec.
    + exists (c :: w). cbn [app forallb]. rewrite Ec, Hw. split; [congruence|auto].
    + exists []. cbn. auto.
Qed.

Lemma dropwhile_id p s :
  (match s with [] => True | c :: _ => p c = false end) -> dropwhile p s = s.
Proof. destruct s as [|c r]; cbn [dropwhile]; [auto|]. now intros ->. Qed.

Lemma dropwhile_all p w s : forallb p w = true -> dropwhile p (w ++ s) = dropwhile p s.
Proof.
  induction w as [|c w IH]; cbn [app forallb dropwhile]; [auto|].
  intros H. apply andb_true_iff in H as [-> H]. auto.
Qed.

(** A string is stripped when its first and last characters (if any) are not
    whitespace. *)
Definition stripped (s : str) : Prop :=
  (match s with [] => True | c :: _ => is_space c = false end) /\
  (match rev s with [] => True | c :: _ => is_space c = false end).

Lemma strip_id s : stripped s -> strip s = s.
Proof.
  intros [H1 H2]. unfold strip, lstrip, rstrip. rewrite (dropwhile_id _ s) by auto.
  rewrite dropwhile_id by auto. apply rev_involutive.
Qed.

Lemma forallb_rev {A} (p : A -> bool) l : forallb p (rev l) = forallb p l.
Proof.
  induction l; cbn; auto. rewrite forallb_app, IHl. cbn.
  rewrite andb_true_r. apply andb_comm.
Qed.

Lemma strip_spec s :
  exists w1 w2, s = w1 ++ strip s ++ w2 /\ forallb is_space w1 = true /\
                forallb is_space w2 = true /\ stripped (strip s).
Proof.
  unfold strip, rstrip, lstrip.
  destruct (dropwhile_spec is_space s) as (w1 & E1 & Hw1 & Hh1).
  set (t := dropwhile is_space s) in *.
  destruct (dropwhile_spec is_space (rev t)) as (w2 & E2 & Hw2 & Hh2).
  set (u := dropwhile is_space (rev t)) in *.
  assert (Et : t = rev u ++ rev w2)
    by (rewrite <- (rev_involutive t), E2, rev_app_distr; reflexivity).
  exists w1, (rev w2). split; [|split; [auto|split]].
  - rewrite <- Et. auto.
  - now rewrite forallb_rev.
  - split; [|now rewrite rev_involutive].
    destruct (rev u) as [|c v] eqn:Eu; [auto|]. rewrite Et in Hh1. cbn [app] in Hh1. exact Hh1.
Qed.

Lemma strip_surround w1 s w2 :
  forallb is_space w1 = true -> forallb is_space w2 = true -> stripped s ->
  strip (w1 ++ s ++ w2) = s.
Proof.
  intros H1 H2 [Hh Ht]. unfold strip, lstrip, rstrip.
  rewrite dropwhile_all by auto.
  destruct s as [|c s].
  - cbn [app]. rewrite <- (app_nil_r w2), dropwhile_all by auto. reflexivity.
  - rewrite (dropwhile_id _ ((c :: s) ++ w2)) by auto.
    rewrite rev_app_distr, dropwhile_all by (now rewrite forallb_rev).
    rewrite dropwhile_id by auto. apply rev_involutive.
Qed.

Lemma strip_idem s : strip (strip s) = strip s.
Proof. destruct (strip_spec s) as (? & ? & _ & _ & _ & H). now apply strip_id. Qed.

(** ** Decimal numerals *)

Fixpoint str_of_uint (u : Decimal.uint) : str :=
  match u with
  | Decimal.Nil => []
  | Decimal.D0 r => 48 :: str_of_uint r
  | Decimal.D1 r => 49 :: str_of_uint r
  | Decimal.D2 r => 50 :: str_of_uint r
  | Decimal.D3 r => 51 :: str_of_uint r
  | Decimal.D4 r => 52 :: str_of_uint r
  | Decimal.D5 r => 53 :: str_of_uint r
  | Decimal.D6 r => 54 :: str_of_uint r
  | Decimal.D7 r => 55 :: str_of_uint r
  | Decimal.D8 r => 56 :: str_of_uint r
  | Decimal.D9 r => 57 :: str_of_uint r
  end.

(** Canonical decimal numeral of a natural number. *)
Definition dec (n : N) : str := str_of_uint (N.to_uint n).

(** Value of a string of ASCII digits read in base 10. *)
Definition dval (s : str) : N := fold_left (fun a c => 10 * a + (c - 48)) s 0.

Definition all_digits (s : str) : bool := forallb is_digit s.

Lemma is_digit_range c : is_digit c = true <-> 48 <= c <= 57.
Proof. unfold is_digit. rewrite andb_true_iff, !N.leb_le. reflexivity. Qed.

Lemma str_of_uint_digits u : all_digits (str_of_uint u) = true.
Proof. induction u; cbn; auto. Qed.

Lemma dec_digits n : all_digits (dec n) = true.
Proof. apply str_of_uint_digits. Qed.

Lemma dec_not_nil n : dec n <> [].
Proof.
  unfold dec. destruct n as [|p]; cbn; [discriminate|].
  pose proof (DecimalPos.Unsigned.to_uint_nonnil p). destruct (Pos.to_uint p); cbn; congruence.
Qed.

Definition dval_from (a : N) (s : str) : N := fold_left (fun a c => 10 * a + (c - 48)) s a.

Lemma dval_from_app a s t : dval_from a (s ++ t) = dval_from (dval_from a s) t.
Proof. unfold dval_from. apply fold_left_app. Qed.

Lemma pos_of_uint_acc u p :
  Npos (Pos.of_uint_acc u p) = dval_from (Npos p) (str_of_uint u).
Proof.
  revert p; induction u; intros p; cbn [Pos.of_uint_acc str_of_uint dval_from fold_left];
    try reflexivity; rewrite IHu; unfold dval_from; f_equal; lia.
Qed.

Lemma pos_of_uint_dval u : Pos.of_uint u = dval (str_of_uint u).
Proof.
  induction u; cbn [Pos.of_uint str_of_uint]; try reflexivity;
    try (rewrite pos_of_uint_acc; unfold dval, dval_from; cbn [fold_left]; f_equal).
  rewrite IHu. unfold dval. cbn [fold_left]. f_equal.
Qed.

Lemma dval_dec n : dval (dec n) = n.
Proof.
  unfold dec. rewrite <- pos_of_uint_dval.
  change (Pos.of_uint (N.to_uint n)) with (N.of_uint (N.to_uint n)).
  apply DecimalN.Unsigned.of_to.
Qed.

Lemma dec_inj a b : dec a = dec b -> a = b.
Proof. intros H. rewrite <- (dval_dec a), <- (dval_dec b). now rewrite H. Qed.

(** Every digit string is the printed form of some [uint]. *)
Lemma uint_of_digits s : all_digits s = true -> exists u, str_of_uint u = s.
Proof.
  induction s as [|c s IH]; intros H.
  - now exists Decimal.Nil.
  - cbn in H. apply andb_true_iff in H as [Hc Hs]. destruct (IH Hs) as [u Hu].
    apply is_digit_range in Hc.
    assert (c = 48 \/ c = 49 \/ c = 50 \/ c = 51 \/ c = 52 \/ c = 53 \/ c = 54 \/ c = 55 \/ c = 56 \/ c = 57) as D by lia.
    destruct D as [->|[->|[->|[->|[->|[->|[->|[->|[->| ->]]]]]]]]].
    + exists (Decimal.D0 u); cbn; now rewrite Hu.
    + exists (Decimal.D1 u); cbn; now rewrite Hu.
    + exists (Decimal.D2 u); cbn; now rewrite Hu.
    + exists (Decimal.D3 u); cbn; now rewrite Hu.
    + exists (Decimal.D4 u); cbn; now rewrite Hu.
    + exists (Decimal.D5 u); cbn; now rewrite Hu.
    + exists (Decimal.D6 u); cbn; now rewrite Hu.
    + exists (Decimal.D7 u); cbn; now rewrite Hu.
    + exists (Decimal.D8 u); cbn; now rewrite Hu.
    + exists (Decimal.D9 u); cbn; now rewrite Hu.
Qed.

Lemma str_of_uint_inj u v : str_of_uint u = str_of_uint v -> u = v.
Proof.
  revert v; induction u; intros [] H; cbn in H; try discriminate; auto;
    injection H as H; f_equal; auto.
Qed.

(** A digit string without a superfluous leading zero is canonical. *)
Definition canonical (s : str) : Prop :=
  all_digits s = true /\ s <> [] /\ (forall r, s = 48 :: r -> r = []).

Lemma dec_canonical n : canonical (dec n).
Proof.
  split; [apply dec_digits|split; [apply dec_not_nil|]].
  intros r H. unfold dec in H.
  assert (Decimal.unorm (N.to_uint n) = N.to_uint n) as Hn.
  { rewrite <- DecimalN.Unsigned.to_of, DecimalN.Unsigned.of_to. reflexivity. }
  destruct (N.to_uint n) as [|u|u|u|u|u|u|u|u|u|u] eqn:E; cbn in H; try discriminate.
  injection H as H. unfold Decimal.unorm in Hn. cbn [Decimal.nzhead] in Hn.
  destruct (Decimal.nzhead u) eqn:Eh; try discriminate.
  - injection Hn as <-. cbn in H. congruence.
  - exfalso. exact (DecimalFacts.nzhead_nonzero _ _ Eh).
Qed.

Lemma dval_from_digits_pos a s : 0 < a -> 0 < dval_from a s.
Proof.
  revert a; induction s as [|c s IH]; intros a Ha; cbn [dval_from fold_left]; auto.
  apply IH. lia.
Qed.

(** Canonical digit strings are determined by their value. *)
Lemma canonical_dec s : canonical s -> s = dec (dval s).
Proof.
  intros (Hd & Hne & Hz). destruct (uint_of_digits s Hd) as [u Hu].
  unfold dec. rewrite <- Hu, <- pos_of_uint_dval.
  change (Pos.of_uint u) with (N.of_uint u).
  rewrite DecimalN.Unsigned.to_of. f_equal. unfold Decimal.unorm.
  destruct u as [|u|u|u|u|u|u|u|u|u|u]; cbn [Decimal.nzhead]; try reflexivity.
  - cbn in Hu. congruence.
  - cbn in Hu. symmetry in Hu. apply Hz in Hu. destruct u; cbn in Hu; try discriminate. reflexivity.
Qed.

Lemma dec_lt_10 n : n < 10 -> dec n = [48 + n].
Proof.
  intros H. assert (n = 0 \/ n = 1 \/ n = 2 \/ n = 3 \/ n = 4 \/ n = 5 \/ n = 6 \/ n = 7 \/ n = 8 \/ n = 9) as D by lia.
  repeat (destruct D as [->|D]; [reflexivity|]). subst; reflexivity.
Qed.

(** Length of a string as a binary number (CPython's digit limit is 4300). *)
Definition slen (s : str) : N := N.of_nat (List.length s).

Definition int_max_str_digits : N := 4300.

(** [str(n)] / [f"{n}"] for an int: ValueError above 4300 digits
    (sys.int_info.default_max_str_digits, CPython >= 3.11). *)
Definition py_str_int (z : Z) : res str :=
  let d := dec (Z.abs_N z) in
  if int_max_str_digits <? slen d then Err ValueError
  else Ok (if (z <? 0)%Z then c_minus :: d else d).

(** Digits with single underscores between digits, as accepted by [int]:
    [prev] tells whether the previous character was a digit. *)
Fixpoint digits_us (prev : bool) (s : str) : option str :=
  match s with
  | [] => if prev then Some [] else None
  | c :: r =>
      if is_digit c then option_map (cons c) (digits_us true r)
      else if (c =? c_under) && prev then digits_us false r
      else None
  end.

(** The whitespace that [int] accepts around a number (CPython's
    _PyUnicode_TransformDecimalAndSpaceToASCII and Py_ISSPACE): that of
    [str.strip()] without U+001C..U+001F. *)
Definition int_space (c : N) : bool := is_space c && negb ((28 <=? c) && (c <=? 31)).
Definition int_strip (s : str) : str := rev (dropwhile int_space (rev (dropwhile int_space s))).

Lemma int_strip_id s : stripped s -> int_strip s = s.
Proof.
  assert (H : forall c, is_space c = false -> int_space c = false) by (intros c E; unfold int_space; rewrite E; reflexivity).
  intros [H1 H2]. unfold int_strip. rewrite (dropwhile_id _ s) by (destruct s; auto).
  rewrite dropwhile_id by (destruct (rev s); auto). apply rev_involutive.
Qed.

(** The decimal digits outside ASCII, by the code point of their zero: Unicode
    14.0, that of CPython 3.11 (3.12 knows two more sets). *)
Definition other_zeros : list N :=
  [1632; 1776; 1984; 2406; 2534; 2662; 2790; 2918; 3046; 3174; 3302; 3430; 3558; 3664;
   3792; 3872; 4160; 4240; 6112; 6160; 6470; 6608; 6784; 6800; 6992; 7088; 7232; 7248;
   42528; 43216; 43264; 43472; 43504; 43600; 44016; 65296; 66720; 68912; 69734; 69872; 69942; 70096;
   70384; 70736; 70864; 71248; 71360; 71472; 71904; 72016; 72784; 73040; 73120; 92768; 92864; 93008;
   120782; 120792; 120802; 120812; 120822; 123200; 123632; 125264; 130032].
Definition fold_digit (c : N) : N :=
  if c <? 128 then c
  else match find (fun z => (z <=? c) && (c <? z + 10)) other_zeros with Some z => c - z + 48 | None => c end.

Lemma fold_ascii s : forallb (fun c => c <? 128) s = true -> map fold_digit s = s.
Proof.
  induction s as [|c s IH]; [reflexivity|]. cbn [forallb map]. intros H. apply andb_true_iff in H as [Hc H]. unfold fold_digit at 1. rewrite Hc, IH; auto.
Qed.

(** [int(s)] in base 10: surrounding whitespace, an optional sign, digits with
    single underscores, at most 4300 digits.  Every decimal digit of Unicode is
    a digit, by its value (_PyUnicode_TransformDecimalAndSpaceToASCII). *)
Definition py_int (s : str) : res Z :=
  let t := map fold_digit (int_strip s) in
  let '(neg, body) :=
    match t with
    | c :: r => if c =? c_minus then (true, r) else if c =? c_plus then (false, r) else (false, t)
    | [] => (false, t)
    end in
  match digits_us false body with
  | None => Err ValueError
  | Some d =>
      if int_max_str_digits <? slen d then Err ValueError
      else Ok (if neg then (- Z.of_N (dval d))%Z else Z.of_N (dval d))
  end.

Lemma is_digit_not_space c : is_digit c = true -> is_space c = false.
Proof.
  intros H. apply is_digit_range in H. unfold is_space.
  rewrite !orb_false_iff, !andb_false_iff, !N.leb_gt, !N.eqb_neq. lia.
Qed.

Lemma all_digits_stripped s : all_digits s = true -> stripped s.
Proof.
  intros H. split.
  - destruct s; auto. cbn in H. apply andb_true_iff in H as [H _]. now apply is_digit_not_space.
  - unfold all_digits in H. rewrite <- forallb_rev in H. destruct (rev s); auto.
    cbn in H. apply andb_true_iff in H as [H _]. now apply is_digit_not_space.
Qed.

Lemma digits_us_all s b : all_digits s = true -> (s <> [] \/ b = true) -> digits_us b s = Some s.
Proof.
  revert b; induction s as [|c s IH]; intros b H Hn; cbn [digits_us].
  - destruct Hn as [Hn| ->]; [congruence|auto].
  - cbn in H. apply andb_true_iff in H as [-> H]. rewrite IH; auto.
Qed.

Lemma all_digits_ascii s : all_digits s = true -> forallb (fun c => c <? 128) s = true.
Proof.
  unfold all_digits. intros H. apply forallb_forall. intros c I. rewrite forallb_forall in H. apply H, is_digit_range in I. apply N.ltb_lt. lia.
Qed.

Lemma py_int_digits s :
  all_digits s = true -> s <> [] -> slen s <= int_max_str_digits ->
  py_int s = Ok (Z.of_N (dval s)).
Proof.
  intros Hd Hn Hl. unfold py_int. rewrite int_strip_id by now apply all_digits_stripped.
  rewrite fold_ascii by now apply all_digits_ascii.
  destruct s as [|c r]; [congruence|].
  assert (is_digit c = true) as Hc by (cbn in Hd; now apply andb_true_iff in Hd as [? _]).
  apply is_digit_range in Hc.
  replace (c =? c_minus) with false by (symmetry; apply N.eqb_neq; unfold c_minus; lia).
  replace (c =? c_plus) with false by (symmetry; apply N.eqb_neq; unfold c_plus; lia).
  rewrite digits_us_all by (solve [auto | left; discriminate]).
  replace (int_max_str_digits <? slen (c :: r)) with false by (symmetry; now apply N.ltb_ge).
  reflexivity.
Qed.

Lemma py_int_dec n : slen (dec n) <= int_max_str_digits -> py_int (dec n) = Ok (Z.of_N n).
Proof.
  intros H. rewrite py_int_digits; auto using dec_digits, dec_not_nil. now rewrite dval_dec.
Qed.

Lemma py_int_nil : py_int [] = Err ValueError.
Proof. reflexivity. Qed.

(** [l[i]] with a non-negative index: IndexError when out of range. *)
Definition index {A} (l : list A) (i : nat) : res A :=
  match nth_error l i with Some x => Ok x | None => Err IndexError end.

(** [bytes.decode("ascii")] (protocol/protocol.py:75) on a list of byte values. *)
Definition decode_ascii (b : list N) : res str :=
  if forallb (fun c => c <? 128) b then Ok b else Err UnicodeDecodeError.

(** [str.encode("ascii")] (messages/base.py:127). *)
Definition encode_ascii (s : str) : res (list N) :=
  if forallb (fun c => c <? 128) s then Ok s else Err UnicodeEncodeError.

Lemma dval_from_ge a s : a * 10 ^ N.of_nat (List.length s) <= dval_from a s.
Proof.
  revert a. induction s as [|c s IH]; intros a; [cbn; lia|].
  unfold dval_from. cbn [fold_left List.length]. rewrite Nat2N.inj_succ, N.pow_succ_r by lia.
  specialize (IH (10 * a + (c - 48))). unfold dval_from in IH. nia.
Qed.

Lemma dec_length_bound k n : (0 < k)%nat -> n < 10 ^ N.of_nat k -> (List.length (dec n) <= k)%nat.
Proof.
  intros K H. destruct (Nat.le_gt_cases (List.length (dec n)) k) as [|G]; [assumption|]. exfalso.
  pose proof (dval_dec n) as D. pose proof (dec_canonical n) as (C1 & C2 & C3).
  destruct (dec n) as [|c s] eqn:E; [congruence|]. cbn [List.length] in G.
  cbn [all_digits forallb] in C1. apply andb_true_iff in C1 as [C1 _]. apply is_digit_range in C1.
  assert (C : c <> 48). { intros ->. rewrite (C3 s eq_refl) in G. cbn in G. lia. }
  unfold dval in D. cbn [fold_left] in D. pose proof (dval_from_ge (10 * 0 + (c - 48)) s) as X.
  unfold dval_from in X. rewrite D in X.
  assert (Y : 10 ^ N.of_nat k <= 10 ^ N.of_nat (List.length s)) by (apply N.pow_le_mono_r; lia).
  nia.
Qed.
