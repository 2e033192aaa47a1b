(** * The cost of accepting a packet *)
From Coq Require Import String List NArith ZArith Bool Lia.
From Verif Require Import PyStr Regex Tags Messages MessageFacts Protocol SpecMsg SpecProto ProtoThms Backtrack BacktrackThms.
Import ListNotations.
Open Scope N_scope.
Open Scope list_scope.

(** The sum over the suffixes up to the first that begins with a stop. *)
Fixpoint upto (stop : N -> bool) (f : str -> N) (s : str) : N :=
  f s + match s with c :: t => if stop c then 0 else upto stop f t | [] => 0 end.

Lemma upto_head stop f s : f s <= upto stop f s.
Proof. destruct s; cbn [upto]; lia. Qed.

(** Continuations that matter at one character only. *)
Lemma upto_sep stopa stop c (B f : str -> N) p L : 0 < p -> stopa c = true -> (forall x, stop x = true -> stopa x = true) ->
  (forall s, len s <= L -> (match s with x :: _ => x <> c | [] => True end) -> B s <= 1 + f s) ->
  forall s, len s <= L -> (forall t, len (c :: t) <= len s -> B (c :: t) <= p * (len t + 2) + upto stop f (c :: t)) ->
  upto stopa B s <= p * (len s + 1) + upto stop f s.
Proof.
  intros P0 SC SS H1 s. induction s as [|x t IH]; intros HL H2.
  - cbn [upto]. specialize (H1 [] HL I). unfold len in *. cbn [length] in *. lia.
  - cbn [upto]. destruct (N.eq_dec x c) as [->|E].
    + rewrite SC. specialize (H2 t ltac:(lia)). cbn [upto] in H2. unfold len in *. cbn [length] in *. lia.
    + specialize (H1 (x :: t) HL E). destruct (stopa x) eqn:SX; [unfold len in *; lia|].
      destruct (stop x) eqn:S'; [rewrite (SS x S') in SX; discriminate|].
      assert (G : upto stopa B t <= p * (len t + 1) + upto stop f t).
      { apply IH; [unfold len in *; cbn [length] in *; lia|]. intros t' L'. apply H2. unfold len in *. cbn [length] in *. lia. }
      unfold len in *. cbn [length] in *. lia.
Qed.

Definition notin (l : list N) (c : N) : bool := negb (existsb (N.eqb c) l).

Lemma cls_cost l k : forall fuel last s, fst (until (Cls l) k fuel last s) <= (len s + 1) + upto (notin l) (fun t => fst (k t)) s.
Proof.
  induction fuel as [|fuel IH]; intros last s.
  - pose proof (upto_head (notin l) (fun t => fst (k t)) s). cbv beta in H. change (until (Cls l) k 0 last s) with (k s). lia.
  - destruct (until_any (Cls l) k fuel last s) as [->| ->]; [pose proof (upto_head (notin l) (fun t => fst (k t)) s) as H; cbv beta in H; lia|].
    unfold orelse. destruct (snd (bt (Cls l) s _)).
    + cbn [bt]. destruct s as [|c t]; [cbn [upto]; unfold len; cbn [length fst]; lia|]. cbn [upto]. unfold notin at 1.
      destruct (existsb (N.eqb c) l); cbn [negb fst]; [|unfold len; cbn [length]; lia].
      specialize (IH (Some (length (c :: t))) t). unfold len in *. cbn [length] in *. lia.
    + cbn [fst]. cbn [bt]. destruct s as [|c t]; [cbn [upto]; unfold len; cbn [length fst]; lia|]. cbn [upto]. unfold notin at 1.
      destruct (existsb (N.eqb c) l); cbn [negb fst]; [|unfold len; cbn [length]; lia].
      specialize (IH (Some (length (c :: t))) t). unfold len in *. cbn [length] in *. lia.
Qed.

(** A pattern that takes each prefix once: its own tests and the continuations. *)
Definition single (r : re) (stop : N -> bool) (L p : N) : Prop :=
  forall s k, len s <= L -> fst (bt r s k) <= p + upto stop (fun t => fst (k t)) s.

Lemma single_cls l L : single (Star (Cls l)) (notin l) L (L + 1).
Proof. intros s k H. rewrite bt_star. pose proof (cls_cost l k (S (length s)) None s). lia. Qed.

Lemma chr_cost c s k : fst (bt (Chr c) s k) <= 1 + match s with x :: t => if x =? c then fst (k t) else 0 | [] => 0 end.
Proof. unfold Chr. cbn [bt]. destruct s as [|x t]; [cbn; lia|]. cbn [existsb]. destruct (x =? c); cbn [orb fst]; lia. Qed.

Lemma sep_cost c b stopb stop L p k : single b stopb L p -> stopb c = true -> stop c = false -> (forall x, stop x = true -> stopb x = true) ->
  forall fuel last s, len s <= L -> fst (until (Cat (Chr c) b) k fuel last s) <= (p + 2) * (len s + 1) + upto stop (fun t => fst (k t)) s.
Proof.
  intros B SC SC' SS. induction fuel as [|fuel IH]; intros last s HL.
  - pose proof (upto_head stop (fun t => fst (k t)) s) as H. cbv beta in H. change (until (Cat (Chr c) b) k 0 last s) with (k s). lia.
  - pose proof (upto_head stop (fun t => fst (k t)) s) as Hd. cbv beta in Hd.
    destruct (until_any (Cat (Chr c) b) k fuel last s) as [->| ->]; [lia|].
    set (U := until (Cat (Chr c) b) k fuel (Some (length s))) in *.
    assert (X : fst (bt (Cat (Chr c) b) s U) + fst (k s) <= (p + 2) * (len s + 1) + upto stop (fun t => fst (k t)) s).
    { cbn [bt]. pose proof (chr_cost c s (fun t => bt b t U)) as C. destruct s as [|x t]; [lia|].
      destruct (N.eqb_spec x c) as [->|E]; [|unfold len in *; cbn [length] in *; lia].
      cbn [upto] in *. rewrite SC' in *.
      assert (HT : len t <= L) by (unfold len in *; cbn [length] in *; lia).
      pose proof (B t U HT) as Bt.
      assert (G : upto stopb (fun t => fst (U t)) t <= (p + 2) * (len t + 1) + upto stop (fun t => fst (k t)) t).
      { apply (upto_sep stopb stop c _ _ (p + 2) (len t) ltac:(lia) SC SS).
        - intros v Lv Hv. unfold U. destruct fuel as [|fuel']; [cbn [until]; lia|].
          match goal with |- fst (until ?a ?k ?f ?l ?s) <= _ => destruct (until_any a k fuel' l s) as [->| ->]; [lia|] end.
          unfold orelse. cbn [bt]. pose proof (chr_cost c v (fun s => bt b s (until (Cat (Chr c) b) k fuel' (Some (length v))))) as Cv.
          destruct v as [|y v]; [cbn; lia|]. destruct (N.eqb_spec y c); [contradiction|].
          unfold Chr in *. cbn [bt existsb] in *. apply N.eqb_neq in n. rewrite n in *. cbn. lia.
        - lia.
        - intros v Lv. unfold U. pose proof (IH (Some (length (c :: t))) (c :: v)) as H. 
          assert (len (c :: v) <= L) by (unfold len in *; cbn [length] in *; lia). specialize (H H0). unfold len in *. cbn [length] in *. lia. }
      unfold len in *. cbn [length] in *. lia. }
    unfold orelse. destruct (snd (bt (Cat (Chr c) b) s U)); cbn [fst]; lia.
Qed.

Lemma upto_once stop c B w M L : stop c = true ->
  (forall s, len s <= L -> (match s with x :: _ => x <> c | [] => True end) -> B s <= w) ->
  (forall t, len (c :: t) <= L -> B (c :: t) <= M) ->
  forall s, len s <= L -> upto stop B s <= w * (len s + 1) + M.
Proof.
  intros SC H1 H2 s. induction s as [|x t IH]; intros HL; cbn [upto].
  - specialize (H1 [] HL I). unfold len. cbn [length]. lia.
  - assert (HT : len t <= L) by (unfold len in *; cbn [length] in *; lia).
    destruct (N.eq_dec x c) as [->|E].
    + rewrite SC. specialize (H2 t HL). unfold len in *. cbn [length] in *. lia.
    + specialize (H1 (x :: t) HL E). specialize (IH HT). unfold len in *. cbn [length] in *. destruct (stop x); lia.
Qed.

Lemma upto_all stop B M L : (forall s, len s <= L -> B s <= M) -> forall s, len s <= L -> upto stop B s <= (len s + 1) * M.
Proof.
  intros H s. induction s as [|x t IH]; intros HL; cbn [upto].
  - specialize (H [] HL). unfold len. cbn [length]. lia.
  - assert (HT : len t <= L) by (unfold len in *; cbn [length] in *; lia). specialize (IH HT). specialize (H (x :: t) HL).
    unfold len in *. cbn [length] in *. destruct (stop x); lia.
Qed.

(** ** The parts of the class patterns *)

Definition no_digit : N -> bool := notin digit_set.
Definition no_tag : N -> bool := notin digith_set.

Lemma no_tag_no_digit x : no_tag x = true -> no_digit x = true.
Proof.
  unfold no_tag, no_digit, notin. intros H. apply negb_true_iff in H. apply negb_true_iff.
  destruct (existsb (N.eqb x) digit_set) eqn:E; [|reflexivity]. apply existsb_exists in E as (y & Hy & E).
  assert (X : existsb (N.eqb x) digith_set = true); [|congruence]. apply existsb_exists. exists y. split; [|exact E].
  cbn in Hy |- *. tauto.
Qed.

Lemma single_digits L : single R_digits no_digit L (L + 1).
Proof. apply single_cls. Qed.

Lemma hseg_here s k : match s with x :: _ => x <> 35 | [] => True end -> fst (bt R_hseg s k) <= 1 + fst (k s).
Proof.
  intros H. unfold R_hseg. rewrite bt_star, (until_far _ _ _ None s I). unfold orelse. cbn [bt].
  pose proof (cls_no [c_hash] s (fun t => bt R_digits t (until (Cat (Chr c_hash) R_digits) k (length s) (Some (length s))))) as [A B].
  - destruct s as [|x s]; [exact (fun X => X)|]. intros [X|[]]. apply H. symmetry. exact X.
  - fold (Chr c_hash) in A, B. rewrite A. cbn [fst]. lia.
Qed.

Lemma hseg_cost L s k : len s <= L -> fst (bt R_hseg s k) <= (L + 3) * (len s + 1) + upto no_tag (fun t => fst (k t)) s.
Proof.
  intros H. unfold R_hseg. rewrite bt_star. replace (L + 3) with (L + 1 + 2) by lia.
  apply (sep_cost c_hash R_digits no_digit no_tag L (L + 1) k (single_digits L)); [reflexivity|reflexivity|apply no_tag_no_digit|exact H].
Qed.

Lemma single_seg L : single R_seg no_tag L ((L + 4) * (L + 1)).
Proof.
  intros s k H. unfold R_seg. cbn [bt]. pose proof (single_digits L s (fun t => bt R_hseg t k) H) as D.
  assert (U : upto no_digit (fun t => fst (bt R_hseg t k)) s <= (L + 3) * (len s + 1) + upto no_tag (fun t => fst (k t)) s).
  { apply (upto_sep no_digit no_tag 35 _ _ (L + 3) (len s)); [lia|reflexivity|apply no_tag_no_digit|intros t _ Ht; apply hseg_here, Ht|lia|].
    intros t Ht. pose proof (hseg_cost L (35 :: t) k ltac:(lia)) as X. unfold len in *. cbn [length] in *.
    replace (N.of_nat (length t) + 2) with (N.of_nat (S (length t)) + 1) by lia. exact X. }
  assert (M : (L + 3) * (len s + 1) <= (L + 3) * (L + 1)) by (apply N.mul_le_mono_l; lia).
  cbv beta in D. lia.
Qed.

Definition no_body : N -> bool := notin (c_star :: digith_set).

Lemma no_body_no_tag x : no_body x = true -> no_tag x = true.
Proof.
  unfold no_tag, no_body, notin. intros H. apply negb_true_iff in H. apply negb_true_iff.
  destruct (existsb (N.eqb x) digith_set) eqn:E; [|reflexivity]. cbn [existsb] in H. rewrite E, orb_true_r in H. discriminate.
Qed.

Definition pvals (L : N) : N := ((L + 4) * (L + 1) + 2) * (L + 1).

Lemma single_vals L : single R_vals no_body L (pvals L).
Proof.
  intros s k H. unfold R_vals. rewrite bt_star. unfold pvals.
  pose proof (sep_cost c_star R_seg no_tag no_body L _ k (single_seg L) eq_refl eq_refl no_body_no_tag (S (length s)) None s H) as X.
  assert (M : ((L + 4) * (L + 1) + 2) * (len s + 1) <= ((L + 4) * (L + 1) + 2) * (L + 1)) by (apply N.mul_le_mono_l; lia). lia.
Qed.

Lemma vals_here s k : match s with x :: _ => x <> 42 | [] => True end -> fst (bt R_vals s k) <= 1 + fst (k s).
Proof.
  intros H. unfold R_vals. rewrite bt_star, (until_far _ _ _ None s I). unfold orelse. cbn [bt].
  pose proof (cls_no [c_star] s (fun t => bt R_seg t (until (Cat (Chr c_star) R_seg) k (length s) (Some (length s))))) as [A B].
  - destruct s as [|x s]; [exact (fun X => X)|]. intros [X|[]]. apply H. symmetry. exact X.
  - fold (Chr c_star) in A, B. rewrite A. cbn [fst]. lia.
Qed.

Lemma single_who L : single R_who no_tag L (L + 2).
Proof.
  intros s k H. change (bt R_who s k) with (bt (Cls digith_set) s (fun t => bt (Star (Cls digith_set)) t k)).
  assert (W : forall t, len t <= L -> fst (bt (Star (Cls digith_set)) t k) <= L + 1 + upto no_tag (fun t => fst (k t)) t)
    by (intros t Ht; apply single_cls; exact Ht).
  generalize dependent (Star (Cls digith_set)). intros r W.
  cbn [bt]. destruct s as [|c t]; [cbn [fst]; lia|]. cbn [upto].
  destruct (existsb (N.eqb c) digith_set) eqn:E; cbn [fst]; [|lia].
  unfold no_tag at 1, notin. rewrite E. cbn [negb].
  specialize (W t ltac:(unfold len in *; cbn [length] in *; lia)). lia.
Qed.

(** ** Composition *)

Definition costs (k : str -> result) (L M : N) : Prop := forall s, len s <= L -> fst (k s) <= M.

Lemma costs_chr c k L M : costs k L M -> costs (fun s => bt (Chr c) s k) L (1 + M).
Proof.
  intros H s HL. pose proof (chr_cost c s k) as C. destruct s as [|x t]; [lia|].
  assert (HT : len t <= L) by (unfold len in *; cbn [length] in *; lia). specialize (H t HT). destruct (x =? c); lia.
Qed.

Lemma costs_many r stop k L p M : single r stop L p -> costs k L M -> costs (fun s => bt r s k) L (p + (L + 1) * M).
Proof.
  intros S H s HL. pose proof (S s k HL) as X. pose proof (upto_all stop (fun t => fst (k t)) M L H s HL) as Y.
  assert ((len s + 1) * M <= (L + 1) * M) by (apply N.mul_le_mono_r; lia). lia.
Qed.

Lemma costs_sep r stop c k L p M : single r stop L p -> stop c = true -> costs k L M ->
  costs (fun s => bt r s (fun s => bt (Chr c) s k)) L (p + (L + 1) + (1 + M)).
Proof.
  intros S C H s HL. pose proof (S s (fun s => bt (Chr c) s k) HL) as X. cbv beta in X.
  assert (Y : upto stop (fun t => fst (bt (Chr c) t k)) s <= 1 * (len s + 1) + (1 + M)); [|cbv beta; lia].
  apply (upto_once stop c _ 1 (1 + M) L C); [|intros t Ht; exact (costs_chr c k L M H (c :: t) Ht)|exact HL].
  intros t _ Ht. pose proof (chr_cost c t k) as Z. destruct t as [|x t]; [lia|]. apply N.eqb_neq in Ht. rewrite Ht in Z. lia.
Qed.

Lemma costs_end L : costs kend L 2.
Proof.
  intros s _. unfold kend. change (bt (Lit hh) s at_end) with (bt (Chr 35) s (fun t => bt (Chr 35) t at_end)).
  pose proof (chr_cost 35 s (fun t => bt (Chr 35) t at_end)) as A. destruct s as [|x t]; [lia|]. destruct (x =? 35); [|lia].
  pose proof (chr_cost 35 t at_end) as B. destruct t as [|y u]; [lia|]. destruct (y =? 35); [|lia].
  change (fst (at_end u)) with 0 in B. lia.
Qed.

(** The values and the end, after something that cannot contain a star. *)
Lemma costs_vals r stop L p : single r stop L p -> stop 42 = true ->
  costs (fun s => bt r s (fun s => bt R_vals s kend)) L (p + 3 * (L + 1) + (pvals L + (L + 1) * 2)).
Proof.
  intros S C s HL. pose proof (S s (fun s => bt R_vals s kend) HL) as X. cbv beta in X.
  assert (Y : upto stop (fun t => fst (bt R_vals t kend)) s <= 3 * (len s + 1) + (pvals L + (L + 1) * 2)); [|cbv beta; lia].
  apply (upto_once stop 42 _ 3 _ L C); [| |exact HL].
  - intros t HT Ht. pose proof (vals_here t kend Ht). pose proof (costs_end L t HT). lia.
  - intros t Ht. exact (costs_many R_vals no_body kend L (pvals L) 2 (single_vals L) (costs_end L) (42 :: t) Ht).
Qed.

Lemma no_tag_star : no_tag c_star = true. Proof. reflexivity. Qed.

Definition pseg (L : N) : N := (L + 4) * (L + 1).

(** Every class pattern. *)
Definition cubic (L : N) : N := 3 * ((L + 3) * (L + 3) * (L + 3)).

Lemma cubic_bound L n : n <= pvals L + 2 * pseg L + 12 * (L + 3) -> n <= cubic L.
Proof.
  intros H. unfold cubic, pvals, pseg in *. 
  replace ((L + 3) * (L + 3) * (L + 3)) with (L * L * L + 9 * (L * L) + 27 * L + 27) by ring.
  replace (((L + 4) * (L + 1) + 2) * (L + 1) + 2 * ((L + 4) * (L + 1)) + 12 * (L + 3)) with (L * L * L + 8 * (L * L) + 33 * L + 50) in H by ring.
  generalize dependent (L * L * L). generalize (L * L). intros. lia.
Qed.

Definition cost (r : re) (L M : N) : Prop := costs (fun s => bt r s at_end) L M.

Lemma cost_chr c r L M : cost r L M -> cost (Cat (Chr c) r) L (1 + M).
Proof. intros H s HL. exact (costs_chr c _ L M H s HL). Qed.

Lemma cost_two c d r L M : cost r L M -> cost (Cat (Lit [c; d]) r) L (1 + (1 + M)).
Proof. intros H s HL. exact (costs_chr c _ L _ (costs_chr d _ L M H) s HL). Qed.

Lemma cost_many a stop r L p M : single a stop L p -> cost r L M -> cost (Cat a r) L (p + (L + 1) * M).
Proof. intros S H s HL. exact (costs_many a stop _ L p M S H s HL). Qed.

Lemma cost_sep a stop c r L p M : single a stop L p -> stop c = true -> cost r L M -> cost (Cat a (Cat (Chr c) r)) L (p + (L + 1) + (1 + M)).
Proof. intros S C H s HL. exact (costs_sep a stop c _ L p M S C H s HL). Qed.

Lemma cost_sep2 a stop c d r L p M : single a stop L p -> stop c = true -> cost r L M ->
  cost (Cat a (Cat (Lit [c; d]) r)) L (p + (L + 1) + (1 + (1 + M))).
Proof. intros S C H s HL. exact (costs_sep a stop c _ L p _ S C (costs_chr d _ L M H) s HL). Qed.

Lemma cost_end L : cost (Lit hh) L 2.
Proof. exact (costs_end L). Qed.

Lemma cost_vals a stop L p : single a stop L p -> stop 42 = true -> cost (Cat a (Cat R_vals (Lit hh))) L (p + 3 * (L + 1) + (pvals L + (L + 1) * 2)).
Proof. exact (costs_vals a stop L p). Qed.

Lemma cost_lit w L : cost (Lit w) L (len w).
Proof.
  induction w as [|c w IH]; intros s HL; [cbn; lia|]. pose proof (cost_chr c _ L _ IH s HL) as X.
  change (fst (bt (Lit (c :: w)) s at_end) <= 1 + len w) in X. unfold len in *. cbn [length]. lia.
Qed.

Lemma class_search r p text : In (r, p) classes -> fst (search r text) <= cubic (len text).
Proof.
  intros H. set (L := len text). assert (HL : len text <= L) by (unfold L; lia). clearbody L.
  enough (X : exists M, cost r L M /\ M <= pvals L + 2 * pseg L + 12 * (L + 3)).
  { destruct X as (M & X & B). apply cubic_bound. specialize (X text HL). cbv beta in X. unfold search. lia. }
  pose proof (single_seg L) as SS. fold (pseg L) in SS. pose proof (single_who L) as SW. pose proof (single_digits L) as SD.
  unfold classes in H.
  destruct H as [H|[H|[H|[H|[H|[H|[H|[]]]]]]]]; injection H as <- _; eexists; split.
  - apply cost_lit.
  - change (6 <= pvals L + 2 * pseg L + 12 * (L + 3)). lia.
  - unfold R_dimreq, Seq. change (lit "*#") with [42; 35].
    apply cost_two, (cost_sep R_who no_tag), (cost_sep R_seg no_tag), (cost_many R_digits no_digit); eassumption || reflexivity || apply cost_end.
  - lia.
  - unfold R_dimwri, Seq. change (lit "*#") with [42; 35].
    apply cost_two, (cost_sep R_who no_tag), (cost_sep2 R_seg no_tag), (cost_vals R_digits no_digit); eassumption || reflexivity.
  - lia.
  - unfold R_dimres, Seq. change (lit "*#") with [42; 35].
    apply cost_two, (cost_sep R_who no_tag), (cost_sep R_seg no_tag), (cost_vals R_seg no_tag); eassumption || reflexivity.
  - lia.
  - apply cost_lit.
  - change (6 <= pvals L + 2 * pseg L + 12 * (L + 3)). lia.
  - unfold R_normal, Seq. apply cost_chr, (cost_sep R_who no_tag), (cost_sep R_seg no_tag), (cost_many R_seg no_tag); eassumption || reflexivity || apply cost_end.
  - lia.
  - unfold R_status, Seq. change (lit "*#") with [42; 35].
    apply cost_two, (cost_sep R_who no_tag), (cost_many R_seg no_tag); eassumption || reflexivity || apply cost_end.
  - lia.
Qed.

Lemma classes_cost text : forall cs, (forall r p, In (r, p) cs -> In (r, p) classes) -> class_cost cs text <= N.of_nat (length cs) * cubic (len text).
Proof.
  induction cs as [|[r p] cs IH]; intros H; cbn [class_cost]; [lia|].
  pose proof (class_search r p text (H r p (or_introl eq_refl))) as C. specialize (IH (fun r' p' I => H r' p' (or_intror I))).
  cbn [length]. destruct (snd (search r text)); lia.
Qed.

(** A message that is accepted costs at most a cubic number of tests. *)
Lemma parse_cubic s m : parse_message s = Ok m -> parse_cost s <= 12 * cubic (len s).
Proof.
  unfold parse_message, parse_cost. destruct (negb (count_hh s =? 1)%nat); [discriminate|].
  destruct (py_match R_generic (strip s)) eqn:P; [|discriminate]. intros _. rewrite search_spec, P.
  apply py_match_stripped in P; [|destruct (strip_spec s) as (? & ? & _ & _ & _ & H0); exact H0].
  apply lang_generic_body in P as (b & B & E).
  pose proof (strip_len s) as L. pose proof (classes_cost (strip s) classes (fun r p H => H)) as C.
  assert (M : cubic (len (strip s)) <= cubic (len s)).
  { unfold cubic. apply N.mul_le_mono_l. assert (X : len (strip s) + 3 <= len s + 3) by lia. apply N.mul_le_mono; [apply N.mul_le_mono; exact X|exact X]. }
  assert (F : Forall frame_char b) by (rewrite forallb_forall in B; apply Forall_forall; intros c Hc; apply body_frame_char, B, Hc).
  destruct (accept_cost b F) as [_ H]. change (42 :: b ++ hh) with (c_star :: b ++ hh) in H. rewrite <- E in H.
  assert (LB : 3 * len b + 119 <= 5 * cubic (len (strip s))).
  { rewrite E. unfold len, cubic. cbn [length]. rewrite app_length. set (n := N.of_nat (S (length b + length hh)) + 3).
    assert (G : N.of_nat (length b) + 6 = n) by (unfold n; change (length hh) with 2%nat; lia).
    assert (n <= n * n * n /\ 216 <= n * n * n).
    { clearbody n. split; [nia|]. assert (36 <= n * n) by nia. nia. }
    lia. }
  change (N.of_nat (length classes)) with 7 in C. lia.
Qed.

Lemma texts_cubic L ps : (forall p, In p ps -> len p + 2 <= L) -> forall ms, mapM (fun p => parse_message (p ++ hh)) ps = Ok ms ->
  texts_cost ps <= N.of_nat (length ms) * (12 * cubic L).
Proof.
  induction ps as [|p ps IH]; intros HL ms H; cbn [mapM texts_cost] in *; [lia|].
  destruct (parse_message (p ++ hh)) as [m|] eqn:P; [|discriminate]. cbn [bind] in H.
  destruct (mapM (fun p => parse_message (p ++ hh)) ps) as [ms'|] eqn:M; [|discriminate]. cbn [bind] in H. injection H as <-.
  specialize (IH (fun p' I => HL p' (or_intror I)) ms' eq_refl). pose proof (parse_cubic _ _ P) as V.
  assert (K : cubic (len (p ++ hh)) <= cubic L).
  { unfold cubic. apply N.mul_le_mono_l. specialize (HL p (or_introl eq_refl)).
    assert (X : len (p ++ hh) + 3 <= L + 3) by (unfold len in *; rewrite app_length; change (length hh) with 2%nat; lia).
    apply N.mul_le_mono; [apply N.mul_le_mono; exact X|exact X]. }
  cbn [length]. lia.
Qed.

(** Accepting a packet is at most cubic in its length for each message in it. *)
Theorem packet_cubic data ms : packet_messages data = Ok ms -> packet_cost data <= N.of_nat (length ms) * (36 * (len data + 5) ^ 3).
Proof.
  unfold packet_messages, packet_cost. destruct (decode_ascii data) as [raw|] eqn:D; [|discriminate]. cbn [bind]. intros H.
  assert (R : raw = data) by (unfold decode_ascii in D; destruct (forallb _ data); congruence). subst raw.
  pose proof (total_cut _ _ (cut_split (strip data))) as T. pose proof (strip_len data) as S.
  assert (HL : forall p, In p (filter nonempty (split_hh (strip data))) -> len p + 2 <= len data + 2).
  { intros p I. apply filter_In in I as [I _]. enough (len p <= total (split_hh (strip data))) by lia.
    clear -I. induction (split_hh (strip data)) as [|q qs IH]; [destruct I|]. cbn [total]. destruct I as [->|I]; [lia|]. specialize (IH I). lia. }
  pose proof (texts_cubic (len data + 2) _ HL ms H) as X. unfold cubic in X. change 3 with (N.succ (N.succ (N.succ 0))) at 1.
  rewrite !N.pow_succ_r', N.pow_0_r. replace (len data + 2 + 3) with (len data + 5) in X by lia.
  set (n := len data + 5) in *. clearbody n. rewrite N.mul_1_r. replace (36 * (n * (n * n))) with (12 * (3 * (n * n * n))) by lia. exact X.
Qed.
