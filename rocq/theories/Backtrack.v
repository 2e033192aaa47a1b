(** * The cost of matching: Python's backtracking matcher

    [bt] transcribes the search order of Python's re engine (Modules/_sre/sre_lib.h,
    SRE(match)) for the constructs used: a class tests one character; in a
    sequence the rest is tried for each way the first part matches, longest
    first; an optional part is tried first with and then without; at the end of
    an iteration of a star (SRE_OP_MAX_UNTIL) one more iteration is tried unless
    the last one consumed nothing, and then the rest.  There is no memory of
    failed attempts.  The result is the number of character tests and whether
    there is a match. *)
From Coq Require Import String List NArith ZArith Bool Lia.
From Verif Require Import PyStr Regex Tags Messages MessageFacts Protocol.
Import ListNotations.
Open Scope N_scope.
Open Scope list_scope.

Definition result := (N * bool)%type.

(** Try [a]; if it fails try [b]; the tests add up. *)
Definition orelse (a : result) (b : unit -> result) : result :=
  if snd a then a else let x := b tt in (fst a + fst x, snd x).

(** An unanchored end: what is tried after the pattern. *)
Fixpoint bt (r : re) (s : str) (k : str -> result) {struct r} : result :=
  match r with
  | Emp => (0, false)
  | Eps => k s
  | Cls l => match s with
             | c :: t => if existsb (N.eqb c) l then (let x := k t in (1 + fst x, snd x)) else (1, false)
             | [] => (1, false)
             end
  | Cat a b => bt a s (fun t => bt b t k)
  | Alt a b => orelse (bt a s k) (fun _ => bt b s k)
  | Star a =>
      (fix until (fuel : nat) (last : option nat) (s : str) {struct fuel} : result :=
         match fuel with
         | O => k s
         | S fuel =>
             if match last with Some n => (n =? length s)%nat | None => false end then k s
             else orelse (bt a s (until fuel (Some (length s)))) (fun _ => k s)
         end) (S (length s)) None s
  end.

(** The loop of a star, as a definition of its own. *)
Definition until (a : re) (k : str -> result) : nat -> option nat -> str -> result :=
  fix until (fuel : nat) (last : option nat) (s : str) {struct fuel} : result :=
    match fuel with
    | O => k s
    | S fuel =>
        if match last with Some n => (n =? length s)%nat | None => false end then k s
        else orelse (bt a s (until fuel (Some (length s)))) (fun _ => k s)
    end.

Lemma until_S a k fuel last s : until a k (S fuel) last s =
  if match last with Some n => (n =? length s)%nat | None => false end then k s
  else orelse (bt a s (until a k fuel (Some (length s)))) (fun _ => k s).
Proof. reflexivity. Qed.

Lemma bt_star a s k : bt (Star a) s k = until a k (S (length s)) None s.
Proof. reflexivity. Qed.

(** [pattern.match(s)] with the final dollar: at the end, or before a final newline. *)
Definition at_end (v : str) : result := (0, match v with [] => true | [c] => c =? 10 | _ => false end).
Definition search (r : re) (s : str) : result := bt r s at_end.

(** ** The search finds a match exactly if there is one *)

Lemma orelse_true a b : snd (orelse a b) = true <-> snd a = true \/ snd (b tt) = true.
Proof. unfold orelse. destruct (snd a) eqn:E; cbn; [rewrite E; tauto|]. split; [tauto|]. intros [H|H]; [discriminate|exact H]. Qed.

Lemma star_first a u : lang (Star a) u -> u = [] \/ exists u1 u2, u = u1 ++ u2 /\ u1 <> [] /\ lang a u1 /\ lang (Star a) u2.
Proof.
  intros H. remember (Star a) as r eqn:E. induction H; try discriminate E; [left; reflexivity|].
  injection E as ->. destruct s as [|c s].
  - apply IHlang2. reflexivity.
  - right. exists (c :: s), t. split; [reflexivity|]. split; [discriminate|]. auto.
Qed.

Theorem bt_spec r : forall s k, snd (bt r s k) = true <-> exists u v, s = u ++ v /\ lang r u /\ snd (k v) = true.
Proof.
  induction r as [| |l|a IHa b IHb|a IHa b IHb|a IHa]; intros s k.
  - cbn. split; [discriminate|]. intros (u & v & _ & H & _). inversion H.
  - cbn [bt]. split; [intros H; exists [], s; repeat split; [constructor|exact H]|]. intros (u & v & -> & H & K). apply lang_Eps in H as ->. exact K.
  - cbn [bt]. destruct s as [|c t].
    + split; [discriminate|]. intros (u & v & E & H & _). apply lang_Cls in H as (c & -> & _). discriminate.
    + destruct (existsb (N.eqb c) l) eqn:I; cbn [snd].
      * split.
        -- intros H. exists [c], t. split; [reflexivity|]. split; [|exact H]. constructor. apply existsb_exists in I as (x & Hx & E). apply N.eqb_eq in E. congruence.
        -- intros (u & v & E & H & K). apply lang_Cls in H as (c' & -> & _). injection E as -> ->. exact K.
      * split; [discriminate|]. intros (u & v & E & H & K). apply lang_Cls in H as (c' & -> & Hin). injection E as -> ->.
        assert (X : existsb (N.eqb c') l = true) by (apply existsb_exists; exists c'; split; [exact Hin|apply N.eqb_refl]). congruence.
  - cbn [bt]. rewrite IHa. split.
    + intros (u & v & -> & H & K). apply IHb in K as (u' & v' & -> & H' & K'). exists (u ++ u'), v'. rewrite app_assoc. split; [reflexivity|]. split; [constructor; assumption|exact K'].
    + intros (u & v & -> & H & K). apply lang_Cat in H as (x & y & -> & Hx & Hy). exists x, (y ++ v). rewrite app_assoc. split; [reflexivity|]. split; [exact Hx|].
      apply IHb. exists y, v. auto.
  - cbn [bt]. rewrite orelse_true, IHa, IHb. split.
    + intros [(u & v & E & H & K)|(u & v & E & H & K)]; exists u, v; (split; [exact E|]); (split; [|exact K]); [apply LAltL|apply LAltR]; exact H.
    + intros (u & v & E & H & K). apply lang_Alt in H as [H|H]; [left|right]; exists u, v; auto.
  - rewrite bt_star.
    assert (Snd : forall fuel last s, snd (until a k fuel last s) = true -> exists u v, s = u ++ v /\ lang (Star a) u /\ snd (k v) = true).
    { clear s. induction fuel as [|fuel IH]; intros last s H; [|rewrite until_S in H].
      - exists [], s. repeat split; [constructor|exact H].
      - destruct (match last with Some n => (n =? length s)%nat | None => false end).
        + exists [], s. repeat split; [constructor|exact H].
        + apply orelse_true in H as [H|H].
          * apply IHa in H as (u & v & -> & Hu & Hv). apply IH in Hv as (u' & v' & -> & Hu' & Hv').
            exists (u ++ u'), v'. rewrite app_assoc. split; [reflexivity|]. split; [constructor; assumption|exact Hv'].
          * exists [], s. repeat split; [constructor|exact H]. }
    assert (Cmp : forall fuel last s u v, (length s < fuel)%nat -> match last with Some n => (length s < n)%nat | None => True end ->
              s = u ++ v -> lang (Star a) u -> snd (k v) = true -> snd (until a k fuel last s) = true).
    { clear s. induction fuel as [|fuel IH]; intros last s u v Hf Hl E H K; [lia|]. rewrite until_S.
      replace (match last with Some n => (n =? length s)%nat | None => false end) with false by (destruct last; [symmetry; apply Nat.eqb_neq; lia|reflexivity]).
      apply orelse_true. destruct (star_first a u H) as [->|(u1 & u2 & -> & Hne & H1 & H2)].
      - right. cbn in E. subst s. exact K.
      - left. apply IHa. exists u1, (u2 ++ v). split; [rewrite E, <- app_assoc; reflexivity|]. split; [exact H1|].
        assert (L : (length (u2 ++ v) < length s)%nat) by (rewrite E, !app_length; destruct u1; [congruence|cbn; lia]).
        apply (IH (Some (length s)) (u2 ++ v) u2 v); [lia|exact L|reflexivity|exact H2|exact K]. }
    split; [apply Snd|]. intros (u & v & E & H & K). eapply Cmp; [lia|exact I|exact E|exact H|exact K].
Qed.

Theorem search_spec r s : snd (search r s) = py_match r s.
Proof.
  apply eq_true_iff_eq. unfold search. rewrite bt_spec, py_match_spec. split.
  - intros (u & v & -> & H & K). destruct v as [|c [|]]; cbn in K; try discriminate.
    + left. rewrite app_nil_r. exact H.
    + right. apply N.eqb_eq in K as ->. exists u. auto.
  - intros [H|(u & -> & H)]; [exists s, []|exists u, [10]]; rewrite ?app_nil_r; auto.
Qed.

(** ** The cost of a bad frame *)

(** A failed attempt with at least [n] tests. *)
Definition fails (n : N) (x : result) : Prop := snd x = false /\ n <= fst x.

Lemma fails_orelse n m a b : fails n a -> fails m (b tt) -> fails (n + m) (orelse a b).
Proof. intros [A1 A2] [B1 B2]. unfold orelse. rewrite A1. split; [exact B1|]. cbn. lia. Qed.

Lemma fails_le n m x : m <= n -> fails n x -> fails m x.
Proof. intros H [A B]. split; [exact A|lia]. Qed.

(** Not the first character of anything in the pattern, or a digit. *)
Definition stops (s : str) : Prop := match s with c :: _ => c <> 35 /\ c <> 42 | [] => True end.

Lemma hseg_stops s k n : stops s -> fails n (k s) -> fails n (bt R_hseg s k).
Proof.
  intros S K. unfold R_hseg. rewrite bt_star. rewrite until_S. apply (fails_le (0 + n)); [lia|]. apply fails_orelse; [|exact K].
  cbn [bt Chr]. destruct s as [|c t]; [split; cbn; [reflexivity|lia]|]. cbn [stops] in S. unfold Chr, c_hash. cbn [existsb].
  destruct (N.eqb_spec c 35) as [E|E]; [destruct S; contradiction|]. cbn. split; [reflexivity|cbn; lia].
Qed.

Lemma opt_stops s k n : stops s -> fails n (k s) -> fails n (bt (Opt (Chr c_star)) s k).
Proof.
  intros S K. unfold Opt. cbn [bt Chr]. apply (fails_le (0 + n)); [lia|]. apply fails_orelse; [|exact K].
  unfold Chr. destruct s as [|c t]; [split; cbn; [reflexivity|lia]|]. cbn [stops] in S. unfold c_star. cbn [existsb].
  destruct (N.eqb_spec c 42) as [E|E]; [destruct S; contradiction|]. cbn. split; [reflexivity|cbn; lia].
Qed.

(** The sum of the costs after each way of matching digits. *)
Fixpoint sum_tails (f : nat -> N) (n : nat) : N := match n with O => f O | S m => sum_tails f m + f n end.

Lemma digits_tails f k bad : (forall d, Forall (fun c => In c digit_set) d -> fails (f (length d)) (k (d ++ bad))) ->
  match bad with c :: _ => ~ In c digit_set | [] => True end ->
  forall d fuel last, Forall (fun c => In c digit_set) d -> (length (d ++ bad) < fuel)%nat -> match last with Some n => (length (d ++ bad) < n)%nat | None => True end ->
  fails (sum_tails f (length d)) (until (Cls digit_set) k fuel last (d ++ bad)).
Proof.
  intros Hk Hb d. induction d as [|c d IH]; intros fuel last D Hf Hl.
  - destruct fuel as [|fuel]; [lia|]. rewrite until_S. cbn [app length sum_tails].
    replace (match last with Some n => (n =? length bad)%nat | None => false end) with false
      by (cbn [app] in Hl; destruct last; [symmetry; apply Nat.eqb_neq; lia|reflexivity]).
    apply (fails_le (0 + f 0%nat)); [lia|]. apply fails_orelse; [|apply (Hk [] D)].
    cbn [bt]. destruct bad as [|x bad]; [split; cbn; [reflexivity|lia]|].
    replace (existsb (N.eqb x) digit_set) with false; [split; cbn; [reflexivity|lia]|].
    symmetry. destruct (existsb (N.eqb x) digit_set) eqn:E; [|reflexivity]. exfalso. apply Hb. apply existsb_exists in E as (y & Hy & E). apply N.eqb_eq in E. congruence.
  - destruct fuel as [|fuel]; [lia|]. rewrite until_S. cbn [app length sum_tails].
    replace (match last with Some n => (n =? S (length (d ++ bad)))%nat | None => false end) with false
      by (cbn [app length] in Hl; destruct last; [symmetry; apply Nat.eqb_neq; lia|reflexivity]).
    inversion D as [|? ? Dc Dd]; subst. cbn [app length] in Hf, Hl.
    apply fails_orelse; [|exact (Hk (c :: d) D)].
    cbn [bt]. replace (existsb (N.eqb c) digit_set) with true by (symmetry; apply existsb_exists; exists c; split; [exact Dc|apply N.eqb_refl]).
    destruct (IH fuel (Some (S (length (d ++ bad)))) Dd) as [A B]; [lia|lia|]. split; [exact A|]. cbn [fst]. lia.
Qed.

Lemma pow_sum (f : nat -> N) n : (forall j, (j <= n)%nat -> 2 ^ N.of_nat j <= f j) -> 2 ^ (N.of_nat n + 1) <= sum_tails f n + 1.
Proof.
  induction n as [|n IH]; intros H; cbn [sum_tails].
  - specialize (H 0%nat ltac:(lia)). cbn in H |- *. lia.
  - assert (G : 2 ^ (N.of_nat n + 1) <= sum_tails f n + 1) by (apply IH; intros; apply H; lia).
    specialize (H (S n) ltac:(lia)). rewrite Nat2N.inj_succ, <- N.add_1_r in *.
    rewrite (N.pow_add_r 2 (N.of_nat n + 1) 1). change (2 ^ 1) with 2. lia.
Qed.

Definition R_item : re := Seq [R_digits; R_hseg; Opt (Chr c_star)].

Lemma digit_stops c : In c digit_set -> c <> 35 /\ c <> 42.
Proof. intros H. unfold digit_set, lit in H. cbn in H. repeat (destruct H as [<-|H]; [split; discriminate|]). destruct H. Qed.

Definition hopeless (bad : str) : Prop := match bad with c :: _ => c <> 35 /\ c <> 42 /\ ~ In c digit_set | [] => True end.

Lemma hopeless_stops d bad : Forall (fun c => In c digit_set) d -> hopeless bad -> stops (d ++ bad).
Proof.
  intros D H. destruct d as [|c d]; [destruct bad; cbn in *; tauto|]. inversion D; subst. cbn. apply digit_stops. assumption.
Qed.

Lemma tail_fails d bad : Forall (fun c => In c digit_set) d -> hopeless bad -> fails 1 (bt (Lit hh) (d ++ bad) at_end).
Proof.
  intros D H. pose proof (hopeless_stops d bad D H) as S. change (Lit hh) with (Cat (Chr 35) (Cat (Chr 35) Eps)). cbn [bt].
  unfold Chr. destruct (d ++ bad) as [|c t]; cbn [bt existsb] in *; [split; cbn; [reflexivity|lia]|].
  destruct (N.eqb_spec c 35) as [E|E]; [destruct S; contradiction|]. cbn. split; [reflexivity|cbn; lia].
Qed.

(** The loop over the items of the generic pattern, with [n] digits ahead. *)
Lemma loop_cost bad : hopeless bad -> forall n d fuel last, length d = n -> Forall (fun c => In c digit_set) d ->
  (length (d ++ bad) < fuel)%nat -> match last with Some m => (length (d ++ bad) < m)%nat | None => True end ->
  fails (2 ^ N.of_nat n) (until R_item (fun s => bt (Lit hh) s at_end) fuel last (d ++ bad)).
Proof.
  intros H n. induction n as [n IH] using lt_wf_ind. intros d fuel last L D Hf Hl.
  destruct fuel as [|fuel]; [lia|]. rewrite until_S.
  replace (match last with Some m => (m =? length (d ++ bad))%nat | None => false end) with false
    by (destruct last; [symmetry; apply Nat.eqb_neq; lia|reflexivity]).
  set (k := until R_item (fun s => bt (Lit hh) s at_end) fuel (Some (length (d ++ bad)))).
  assert (K : forall d', Forall (fun c => In c digit_set) d' -> (length d' <= n)%nat -> fails (if (length d' =? n)%nat then 0 else 2 ^ N.of_nat (length d')) (k (d' ++ bad))).
  { intros d' D' L'. destruct (Nat.eqb_spec (length d') n) as [E|E].
    - unfold k. destruct fuel as [|fuel]; [|rewrite until_S]; [apply (fails_le 1); [lia|]; apply tail_fails; assumption|].
      replace (length (d ++ bad) =? length (d' ++ bad))%nat with true by (symmetry; apply Nat.eqb_eq; rewrite !app_length; lia).
      apply (fails_le 1); [lia|]. apply tail_fails; assumption.
    - apply IH; [lia|reflexivity|exact D'| |]; rewrite !app_length in *; lia. }
  assert (B : fails (2 ^ N.of_nat n - 1) (bt R_item (d ++ bad) k)).
  { unfold R_item. cbn [Seq]. change (bt (Cat R_digits (Cat R_hseg (Opt (Chr c_star)))) (d ++ bad) k)
      with (bt R_digits (d ++ bad) (fun t => bt R_hseg t (fun t => bt (Opt (Chr c_star)) t k))).
    unfold R_digits. rewrite bt_star.
    set (f := fun j => if (j <? n)%nat then 2 ^ N.of_nat j else 0).
    apply (fails_le (sum_tails f (length d))).
    - rewrite L. destruct n as [|n]; [cbn; lia|]. cbn [sum_tails].
      assert (P : 2 ^ (N.of_nat n + 1) <= sum_tails f n + 1).
      { apply pow_sum. intros j Hj. unfold f. replace (j <? S n)%nat with true by (symmetry; apply Nat.ltb_lt; lia). lia. }
      rewrite Nat2N.inj_succ, <- N.add_1_r. lia.
    - assert (G : forall d', (length d' <= n)%nat -> Forall (fun c => In c digit_set) d' ->
        fails (f (length d')) (bt R_hseg (d' ++ bad) (fun t => bt (Opt (Chr c_star)) t k))).
      { intros d' L' D'. pose proof (hopeless_stops d' bad D' H) as S. apply hseg_stops; [exact S|]. apply opt_stops; [exact S|].
        eapply fails_le; [|apply K; assumption]. unfold f. destruct (Nat.ltb_spec (length d') n), (Nat.eqb_spec (length d') n); lia. }
      clear K IH. subst n.
      assert (Q : forall d', Forall (fun c => In c digit_set) d' ->
         fails (if (length d' <=? length d)%nat then f (length d') else 0) (if (length d' <=? length d)%nat then bt R_hseg (d' ++ bad) (fun t => bt (Opt (Chr c_star)) t k) else (0, false))).
      { intros d' D'. destruct (Nat.leb_spec (length d') (length d)); [apply G; assumption|split; [reflexivity|cbn; lia]]. }
      clearbody k f.
      (* the same loop over the digits that are there *)
      assert (R : forall d2 fuel last, Forall (fun c => In c digit_set) d2 -> (length d2 <= length d)%nat -> (length (d2 ++ bad) < fuel)%nat ->
        match last with Some m => (length (d2 ++ bad) < m)%nat | None => True end ->
        fails (sum_tails f (length d2)) (until (Cls digit_set) (fun t => bt R_hseg t (fun t => bt (Opt (Chr c_star)) t k)) fuel last (d2 ++ bad))).
      { clear - G H. intros d2. induction d2 as [|c d2 IH]; intros fuel last D L Hf Hl.
        - destruct fuel as [|fuel]; [lia|]. rewrite until_S. cbn [app length sum_tails].
          replace (match last with Some n => (n =? length bad)%nat | None => false end) with false
            by (cbn [app] in Hl; destruct last; [symmetry; apply Nat.eqb_neq; lia|reflexivity]).
          apply (fails_le (0 + f 0%nat)); [lia|]. apply fails_orelse; [|apply (G []); [cbn; lia|exact D]].
          cbn [bt]. destruct bad as [|x bad]; [split; cbn; [reflexivity|lia]|].
          replace (existsb (N.eqb x) digit_set) with false; [split; cbn; [reflexivity|lia]|].
          symmetry. destruct (existsb (N.eqb x) digit_set) eqn:E; [|reflexivity]. exfalso. apply H. apply existsb_exists in E as (y & Hy & E). apply N.eqb_eq in E. congruence.
        - destruct fuel as [|fuel]; [lia|]. rewrite until_S. cbn [app length sum_tails].
          replace (match last with Some n => (n =? S (length (d2 ++ bad)))%nat | None => false end) with false
            by (cbn [app length] in Hl; destruct last; [symmetry; apply Nat.eqb_neq; lia|reflexivity]).
          inversion D as [|? ? Dc Dd]; subst. cbn [app length] in Hf, Hl, L.
          apply fails_orelse; [|exact (G (c :: d2) L D)].
          cbn [bt]. replace (existsb (N.eqb c) digit_set) with true by (symmetry; apply existsb_exists; exists c; split; [exact Dc|apply N.eqb_refl]).
          destruct (IH fuel (Some (S (length (d2 ++ bad)))) Dd) as [A B]; [lia|rewrite app_length in *; lia|lia|]. split; [exact A|]. cbn [fst]. lia. }
      apply R; [exact D|lia|lia|exact I]. }
  apply (fails_le ((2 ^ N.of_nat n - 1) + 1)); [lia|].
  apply fails_orelse; [exact B|]. apply tail_fails; assumption.
Qed.

(** Rejecting a star, [n] digits and a character that occurs in no frame takes at
    least 2^n tests, whatever follows. *)
Theorem generic_cost d c t : Forall (fun c => In c digit_set) d -> c <> 35 -> c <> 42 -> ~ In c digit_set ->
  fails (2 ^ N.of_nat (length d)) (search R_generic (42 :: d ++ c :: t)).
Proof.
  intros D H1 H2 H3. assert (H : hopeless (c :: t)) by (cbn; auto).
  unfold search, R_generic. cbn [Seq].
  change (bt (Cat (Chr c_star) (Cat (Plus (Cat R_digits (Cat R_hseg (Opt (Chr c_star))))) (Lit hh))) (42 :: d ++ c :: t) at_end)
    with (let x := bt R_item (d ++ c :: t) (fun s => until R_item (fun s => bt (Lit hh) s at_end) (S (length s)) None s) in (1 + fst x, snd x)).
  cbv zeta.
  assert (L : forall d', Forall (fun c => In c digit_set) d' ->
     fails (2 ^ N.of_nat (length d')) ((fun s : str => until R_item (fun s : str => bt (Lit hh) s at_end) (S (length s)) None s) (d' ++ c :: t))).
  { intros d' D'. apply (loop_cost (c :: t) H (length d') d' _ None eq_refl D'); [lia|exact I]. }
  set (k := fun s : str => until R_item (fun s : str => bt (Lit hh) s at_end) (S (length s)) None s) in *. clearbody k.
  assert (B : fails (2 ^ N.of_nat (length d)) (bt R_item (d ++ c :: t) k)).
  { unfold R_item. cbn [Seq]. change (bt (Cat R_digits (Cat R_hseg (Opt (Chr c_star)))) (d ++ c :: t) k)
      with (bt R_digits (d ++ c :: t) (fun s => bt R_hseg s (fun s => bt (Opt (Chr c_star)) s k))).
    unfold R_digits. rewrite bt_star. apply (fails_le (sum_tails (fun j => 2 ^ N.of_nat j) (length d))).
    - pose proof (pow_sum (fun j => 2 ^ N.of_nat j) (length d) (fun j _ => N.le_refl _)) as P. rewrite N.pow_add_r in P. change (2 ^ 1) with 2 in P.
      assert (0 < 2 ^ N.of_nat (length d)) by (apply N.neq_0_lt_0, N.pow_nonzero; discriminate). lia.
    - apply digits_tails; [|exact H3|exact D|lia|exact I].
      intros d' D'. pose proof (hopeless_stops d' (c :: t) D' H) as S. apply hseg_stops; [exact S|]. apply opt_stops; [exact S|]. apply L, D'. }
  destruct B as [B1 B2]. split; [exact B1|]. cbn [fst]. lia.
Qed.

(** ** The cost of validating a packet *)

(** messages/base.py:213-220: the class patterns in turn, up to the first match. *)
Fixpoint class_cost (cs : list (re * (list str -> res msg))) (text : str) : N :=
  match cs with
  | [] => 0
  | (r, _) :: cs => let x := search r text in fst x + if snd x then 0 else class_cost cs text
  end.

(** messages/base.py:196-223 parse_message: the generic pattern, then the classes. *)
Definition parse_cost (message : str) : N :=
  if negb (count_hh message =? 1)%nat then 0
  else let x := search R_generic (strip message) in
       fst x + if snd x then class_cost classes (strip message) else 0.

(** protocol.py:75-85 data_received: the frames of a packet in turn, up to the first refused. *)
Fixpoint texts_cost (ps : list str) : N :=
  match ps with
  | [] => 0
  | p :: ps => parse_cost (p ++ hh) + match parse_message (p ++ hh) with Ok _ => texts_cost ps | Err _ => 0 end
  end.

Definition packet_cost (data : list N) : N :=
  match decode_ascii data with
  | Ok raw => texts_cost (filter nonempty (split_hh (strip raw)))
  | Err _ => 0
  end.
