(** * Lemmas on the HMAC conversions *)
From Coq Require Import String List NArith ZArith Bool Lia.
From Verif Require Import PyStr Tags Messages SpecMsg AuthHmac IO Client SpecClient.
Import ListNotations.
Open Scope N_scope.
Open Scope list_scope.

Lemma hexval_lt c v : hexval c v -> v < 16.
Proof. destruct 1; lia. Qed.

(** Decides the comparisons of the goal. *)
Ltac cmp :=
  repeat match goal with
  | |- context [?a <=? ?b] => destruct (N.leb_spec a b)
  | |- context [?a <? ?b] => destruct (N.ltb_spec a b)
  | |- context [?a =? ?b] => destruct (N.eqb_spec a b)
  end; cbn [andb orb]; try lia; try (f_equal; lia).

Lemma hexval_iff c v : hexval c v <-> hex_digit c = Some v.
Proof.
  unfold hex_digit. split.
  - destruct 1 as [d Hd|d Hd|d Hd]; cmp.
  - destruct (N.leb_spec 48 c), (N.leb_spec c 57), (N.leb_spec 97 c), (N.leb_spec c 102), (N.leb_spec 65 c), (N.leb_spec c 70);
      cbn [andb]; try lia; try discriminate; intros [= <-].
    all: first
      [ replace c with (48 + (c - 48)) at 1 by lia; constructor; lia
      | replace c with (97 + (c - 97)) at 1 by lia; replace (c - 87) with (10 + (c - 97)) by lia; constructor; lia
      | replace c with (65 + (c - 65)) at 1 by lia; replace (c - 55) with (10 + (c - 65)) by lia; constructor; lia ].
Qed.

Lemma hexval_fun c v w : hexval c v -> hexval c w -> v = w.
Proof. rewrite !hexval_iff. congruence. Qed.

Lemma hexval_nib v : v < 16 -> hexval (nib v) v.
Proof.
  intros H. unfold nib. destruct (N.ltb_spec v 10); [constructor; lia|].
  replace (87 + v) with (97 + (v - 10)) by lia. replace v with (10 + (v - 10)) at 2 by lia. constructor. lia.
Qed.

Lemma hexchar_nib v : hexchar v = nib v.
Proof. unfold hexchar, nib. destruct (N.ltb_spec v 10); lia. Qed.

Lemma two_dec v : v < 16 -> dec (v / 10) ++ dec (v mod 10) = two v.
Proof.
  intros H. unfold two.
  rewrite !dec_lt_10; [reflexivity| |]; [apply N.mod_lt; lia|apply N.div_lt_upper_bound; lia].
Qed.

(** hex_to_digits on a hex string. *)
Lemma hex_to_digits_ok s vs :
  Forall2 hexval s vs -> hex_to_digits s = Ok (concat (map two vs)).
Proof.
  induction 1 as [|c v s vs Hc _ IH]; [reflexivity|].
  cbn [hex_to_digits map concat]. unfold int16. rewrite (proj1 (hexval_iff _ _) Hc). cbn [bind].
  rewrite IH. cbn [bind]. rewrite app_assoc, two_dec by (eapply hexval_lt; eassumption). reflexivity.
Qed.

Lemma hex_to_digits_inv s out :
  hex_to_digits s = Ok out -> exists vs, Forall2 hexval s vs /\ out = concat (map two vs).
Proof.
  revert out. induction s as [|c s IH]; cbn [hex_to_digits]; intros out H.
  - exists []. split; [apply Forall2_nil|injection H as <-; reflexivity].
  - unfold int16 in H. destruct (hex_digit c) as [v|] eqn:Ec; cbn [bind] in H; [|discriminate].
    destruct (hex_to_digits s) as [o|]; cbn [bind] in H; [|discriminate].
    destruct (IH o eq_refl) as [vs [H1 ->]]. injection H as <-. apply hexval_iff in Ec.
    exists (v :: vs). split; [constructor; assumption|].
    cbn [map concat]. rewrite app_assoc, two_dec by (eapply hexval_lt; eassumption). reflexivity.
Qed.

Lemma hex_to_digits_err s :
  (exists c, In c s /\ forall v, ~ hexval c v) <-> hex_to_digits s = Err ValueError.
Proof.
  induction s as [|c s IH]; cbn [hex_to_digits].
  - split; [intros [c [[] _]]|discriminate].
  - unfold int16. destruct (hex_digit c) as [v|] eqn:Ec; cbn [bind].
    + apply hexval_iff in Ec. split.
      * intros [d [[<-|Hd] Hn]]; [exfalso; eapply Hn; eassumption|].
        rewrite (proj1 IH) by eauto. reflexivity.
      * intros H. destruct (hex_to_digits s) as [o|e] eqn:Es; cbn [bind] in H; [discriminate|].
        destruct (proj2 IH H) as [d [Hd Hn]]. exists d. split; [right|]; assumption.
    + split; [reflexivity|]. intros _. exists c. split; [left; reflexivity|].
      intros v Hv. apply hexval_iff in Hv. congruence.
Qed.

Lemma hex_to_digits_cases s : (exists o, hex_to_digits s = Ok o) \/ hex_to_digits s = Err ValueError.
Proof.
  induction s as [|c s IH]; cbn [hex_to_digits]; [left; eauto|].
  unfold int16. destruct (hex_digit c); cbn [bind]; [|right; reflexivity].
  destruct IH as [[o ->]| ->]; cbn [bind]; eauto.
Qed.

(** ... its output is decimal digits, twice as many. *)
Lemma two_digits v : v < 16 -> Forall digitchar (two v).
Proof.
  intros H. unfold two, digitchar. pose proof (N.mod_lt v 10 ltac:(lia)).
  assert (v / 10 < 10) by (apply N.div_lt_upper_bound; lia).
  generalize dependent (v / 10). generalize dependent (v mod 10). intros q Hq p Hp.
  repeat (apply Forall_cons; [lia|]). apply Forall_nil.
Qed.

Lemma pairs_digits vs : Forall (fun v => v < 16) vs -> Forall digitchar (concat (map two vs)).
Proof.
  induction 1 as [|v vs Hv _ IH]; cbn [map concat]; [constructor|].
  apply Forall_app. split; [apply two_digits|]; assumption.
Qed.

Lemma Forall2_hexval_lt s vs : Forall2 hexval s vs -> Forall (fun v => v < 16) vs.
Proof. induction 1; constructor; [eapply hexval_lt|]; eassumption. Qed.

Lemma concat_two_length vs : List.length (concat (map two vs)) = (2 * List.length vs)%nat.
Proof. induction vs as [|v vs IH]; cbn [map concat List.length]; [reflexivity|]. rewrite app_length, IH. cbn. lia. Qed.

(** digits_to_hex inverts. *)
Lemma hex_tail_nib v : v < 16 -> hex_tail v = [nib v].
Proof. intros H. unfold hex_tail. cmp. Qed.

Lemma split10 v : v < 16 -> exists q m, v / 10 = q /\ v mod 10 = m /\ q < 10 /\ m < 10 /\ q * 10 + m = v.
Proof.
  intros H. exists (v / 10), (v mod 10). pose proof (N.mod_lt v 10 ltac:(lia)).
  assert (v / 10 < 10) by (apply N.div_lt_upper_bound; lia).
  pose proof (N.div_mod v 10 ltac:(lia)). repeat split; try assumption. lia.
Qed.

Lemma is_digit_48 d : d < 10 -> is_digit (48 + d) = true.
Proof. intros H. apply is_digit_range. lia. Qed.

Lemma digits_to_hex_two v r o :
  v < 16 -> digits_to_hex r = Ok o -> digits_to_hex (two v ++ r) = Ok (nib v :: o).
Proof.
  intros Hv Hr. unfold two. destruct (split10 v Hv) as [q [m [-> [-> [Hq [Hm E]]]]]].
  cbn [app digits_to_hex]. unfold int10. rewrite !is_digit_48 by assumption. cbn [bind]. rewrite Hr. cbn [bind].
  replace ((48 + q - 48) * 10 + (48 + m - 48)) with v by lia.
  rewrite hex_tail_nib by assumption. reflexivity.
Qed.

Lemma digits_to_hex_pairs vs :
  Forall (fun v => v < 16) vs -> digits_to_hex (concat (map two vs)) = Ok (map nib vs).
Proof.
  induction 1 as [|v vs Hv _ IH]; cbn [map concat]; [reflexivity|].
  apply digits_to_hex_two; assumption.
Qed.

(** Lower case of an ASCII letter. *)
Definition lower (c : N) : N := if (65 <=? c) && (c <=? 90) then c + 32 else c.

Lemma hexval_lower c v : hexval c v -> lower c = nib v.
Proof. unfold lower, nib. destruct 1 as [d Hd|d Hd|d Hd]; cmp. Qed.

Lemma lower_nibs s vs : Forall2 hexval s vs -> map lower s = map nib vs.
Proof. induction 1; cbn [map]; [reflexivity|]. f_equal; [apply hexval_lower|]; assumption. Qed.

Lemma round_trip s d : hex_to_digits s = Ok d -> digits_to_hex d = Ok (map lower s).
Proof.
  intros H. destruct (hex_to_digits_inv _ _ H) as [vs [H1 ->]].
  rewrite digits_to_hex_pairs by (eapply Forall2_hexval_lt; eassumption).
  f_equal. symmetry. apply lower_nibs. assumption.
Qed.

Lemma Forall2_len {A B} (R : A -> B -> Prop) l r : Forall2 R l r -> List.length l = List.length r.
Proof. induction 1; cbn; congruence. Qed.

Lemma hex_to_digits_shape s d :
  hex_to_digits s = Ok d -> digits d /\ List.length d = (2 * List.length s)%nat.
Proof.
  intros H. destruct (hex_to_digits_inv _ _ H) as [vs [H1 ->]]. split.
  - apply pairs_digits. eapply Forall2_hexval_lt; eassumption.
  - rewrite concat_two_length. f_equal. symmetry. eapply Forall2_len; eassumption.
Qed.

Lemma digits_to_hex_odd d :
  digits d -> Nat.Odd (List.length d) -> digits_to_hex d = Err IndexError.
Proof.
  intros Hd Ho. remember (List.length d) as n eqn:En. assert (Hn : (List.length d <= n)%nat) by lia.
  revert d Hd Ho En Hn. induction n as [n IH] using (well_founded_induction Wf_nat.lt_wf).
  intros d Hd Ho En _. destruct d as [|a [|b r]].
  - subst. destruct Ho as [k Hk]. cbn in Hk. lia.
  - cbn [digits_to_hex]. unfold int10. inversion Hd as [|? ? Ha _]; subst.
    rewrite (proj2 (is_digit_range _) Ha). reflexivity.
  - inversion Hd as [|? ? Ha Hd1]; subst. inversion Hd1 as [|? ? Hb Hr]; subst.
    cbn [digits_to_hex]. unfold int10. rewrite (proj2 (is_digit_range _) Ha), (proj2 (is_digit_range _) Hb).
    cbn [bind]. rewrite (IH (List.length r)); [reflexivity|cbn; lia|assumption| |reflexivity|lia].
    destruct Ho as [k Hk]. cbn [List.length] in Hk. exists (k - 1)%nat. lia.
Qed.

(** Encoding of byte strings. *)
Lemma byte_nibs b : b < 256 -> b / 16 < 16 /\ b / 16 mod 16 = b / 16 /\ b mod 16 < 16.
Proof.
  intros H. assert (b / 16 < 16) by (apply N.div_lt_upper_bound; lia).
  split; [assumption|]. split; [apply N.mod_small; assumption|apply N.mod_lt; lia].
Qed.

Lemma hexs_text l : bytes l -> hexs l = hextext l.
Proof.
  unfold hexs, hextext. induction 1 as [|b l Hb _ IH]; cbn [map concat]; [reflexivity|].
  destruct (byte_nibs b Hb) as [H1 [H2 H3]]. rewrite H2, IH, !hexchar_nib. reflexivity.
Qed.

Lemma hexs_vals l :
  bytes l -> Forall2 hexval (hexs l) (concat (map (fun b => [b / 16; b mod 16]) l)).
Proof.
  unfold hexs. induction 1 as [|b l Hb _ IH]; cbn [map concat]; [constructor|].
  destruct (byte_nibs b Hb) as [H1 [H2 H3]]. rewrite H2. cbn [app].
  repeat constructor; try apply hexval_nib; assumption.
Qed.

Lemma hexs_pairs l : bytes l -> hex_to_digits (hexs l) = Ok (pairs l).
Proof.
  intros H. rewrite (hex_to_digits_ok _ _ (hexs_vals l H)). f_equal.
  clear H. unfold pairs. induction l as [|b l IH]; cbn [map concat]; [reflexivity|].
  cbn [app map concat]. rewrite IH. unfold four. rewrite app_assoc. reflexivity.
Qed.

(** What the client makes of a proof. *)
Lemma fromhex_two v r o :
  v < 16 -> fromhex r = Ok o -> fromhex (two v ++ r) = Ok (v / 10 * 16 + v mod 10 :: o).
Proof.
  intros Hv Hr. unfold two. destruct (split10 v Hv) as [q [m [-> [-> [Hq [Hm E]]]]]]. cbn [app].
  assert (Hh : forall d, d < 10 -> hex_digit (48 + d) = Some d) by (intros d Hd; apply hexval_iff; constructor; assumption).
  cbn [fromhex]. unfold hex_space.
  replace ((48 + q =? 32) || (9 <=? 48 + q) && (48 + q <=? 13)) with false by (symmetry; cmp).
  rewrite !Hh by assumption. rewrite Hr. reflexivity.
Qed.

Lemma proof_decode t :
  (exists b, proof_bytes t b /\ (exists h, hex_to_digits t = Ok h /\ fromhex h = Ok b)) \/
  ((~ exists b, proof_bytes t b) /\ hex_to_digits t = Err ValueError).
Proof.
  destruct (hex_to_digits_cases t) as [[h Hh]|Hh].
  - left. destruct (hex_to_digits_inv _ _ Hh) as [vs [Hv E]].
    exists (map (fun v => v / 10 * 16 + v mod 10) vs). split.
    + unfold proof_bytes. clear Hh E. induction Hv as [|c v t vs Hc _ IH]; cbn [map]; constructor; [|exact IH].
      exists v. split; [assumption|reflexivity].
    + exists h. split; [assumption|]. subst h. clear Hh.
      induction Hv as [|c v t vs Hc _ IH]; cbn [map concat]; [reflexivity|].
      apply fromhex_two; [eapply hexval_lt; eassumption|assumption].
  - right. split; [|assumption]. intros [b Hb].
    destruct (proj2 (hex_to_digits_err t) Hh) as [c [Hc Hn]].
    unfold proof_bytes in Hb. clear Hh. induction Hb as [|c' x t b [v [Hv _]] _ IH]; [destruct Hc|].
    destruct Hc as [<-|Hc]; [exact (Hn _ Hv)|exact (IH Hc)].
Qed.

Lemma proof_bytes_fun t a b : proof_bytes t a -> proof_bytes t b -> a = b.
Proof.
  intros H. revert b. induction H as [|c x t a [v [Hv Hx]] _ IH]; intros b Hb; inversion Hb as [|? y ? b' [w [Hw Hy]] Hb']; subst; [reflexivity|].
  rewrite (hexval_fun _ _ _ Hv Hw). f_equal. apply IH. assumption.
Qed.

(** Only bytes made of two decimal nibbles with value at most 15 can be reached. *)
Lemma proof_bytes_range t b :
  proof_bytes t b -> Forall (fun x => x <= 9 \/ 16 <= x <= 21) b /\ List.length b = List.length t.
Proof.
  induction 1 as [|c x t b [v [Hv ->]] _ [IH1 IH2]]; [split; constructor|].
  split; [constructor; [|assumption]|cbn; congruence].
  pose proof (hexval_lt _ _ Hv).
  assert (v / 10 = 0 /\ v mod 10 = v /\ v < 10 \/ v / 10 = 1 /\ v mod 10 = v - 10 /\ 10 <= v) as [[-> [-> ?]]|[-> [-> ?]]].
  { destruct (N.ltb_spec v 10) as [Hl|Hl].
    - left. repeat split; [apply N.div_small|apply N.mod_small|]; assumption.
    - right. assert (v / 10 = 1) by (symmetry; apply (N.div_unique v 10 1 (v - 10)); lia).
      repeat split; [assumption| |assumption]. symmetry. apply (N.mod_unique v 10 1 (v - 10)); lia. }
  all: cbv beta; lia.
Qed.

(** digits_to_hex of any pairs of digits. *)
Lemma nib_low v : v < 16 -> low_hex (nib v) v.
Proof.
  intros H. split; [apply hexval_nib, H|]. unfold nib. destruct (N.ltb_spec v 10); lia.
Qed.

Lemma digits_to_hex_any ps : Forall (fun p => fst p < 10 /\ snd p < 10) ps -> exists ts,
  digits_to_hex (concat (map (fun p => [48 + fst p; 48 + snd p]) ps)) = Ok (concat ts) /\
  Forall2 (fun p t => hex_numeral (10 * fst p + snd p) t) ps ts.
Proof.
  induction 1 as [|[a b] ps [Ha Hb] _ (ts & E & F)]; [exists []; split; [reflexivity|constructor]|]. cbn [fst snd] in *.
  exists (hex_tail (a * 10 + b) :: ts). cbn [map concat app digits_to_hex fst snd]. unfold int10. rewrite !is_digit_48 by assumption. cbn [bind].
  rewrite E. cbn [bind]. replace (48 + a - 48) with a by lia. replace (48 + b - 48) with b by lia. split; [reflexivity|]. constructor; [|exact F].
  cbn [fst snd]. replace (10 * a + b) with (a * 10 + b) by lia. assert (L : a * 10 + b < 100) by lia. generalize dependent (a * 10 + b). intros v L.
  unfold hex_tail. destruct (N.ltb_spec v 16) as [H|H].
  - left. split; [exact H|]. exists (nib v). split; [reflexivity|apply nib_low, H].
  - right. split; [exact H|]. exists (nib (v / 16)), (nib (v mod 16)), (v / 16), (v mod 16). split; [reflexivity|].
    split; [apply nib_low, N.div_lt_upper_bound; lia|]. split; [apply nib_low, N.mod_lt; lia|apply N.div_mod; lia].
Qed.

Lemma digits_to_hex_pair a b : a < 10 -> b < 10 -> digits_to_hex [48 + a; 48 + b] = Ok (hex_tail (a * 10 + b)).
Proof.
  intros A B. cbn [digits_to_hex]. unfold int10. rewrite !is_digit_48 by assumption. cbn [bind].
  replace (48 + a - 48) with a by lia. replace (48 + b - 48) with b by lia. rewrite app_nil_r. reflexivity.
Qed.

Lemma digits_to_hex_ambiguous v : 16 <= v -> v < 100 ->
  digits_to_hex [48 + v / 10; 48 + v mod 10] = digits_to_hex (two (v / 16) ++ two (v mod 16)) /\
  is_ok (digits_to_hex [48 + v / 10; 48 + v mod 10]) = true.
Proof.
  intros H L. assert (A : v / 10 < 10) by (apply N.div_lt_upper_bound; lia). assert (B : v mod 10 < 10) by (apply N.mod_lt; lia).
  assert (C : v / 16 < 16) by (apply N.div_lt_upper_bound; lia). assert (D : v mod 16 < 16) by (apply N.mod_lt; lia).
  rewrite (digits_to_hex_two _ (two (v mod 16)) [nib (v mod 16)] C), (digits_to_hex_pair _ _ A B).
  - assert (E : v / 10 * 10 + v mod 10 = v) by (pose proof (N.div_mod v 10); lia). rewrite E.
    unfold hex_tail. destruct (N.ltb_spec v 16); [lia|]. split; reflexivity.
  - pose proof (digits_to_hex_two (v mod 16) [] [] D eq_refl) as X. rewrite app_nil_r in X. exact X.
Qed.

Lemma not_digits d : Forall (fun c => c < 128) d -> (digits_to_hex d = Err ValueError <-> ~ digits d).
Proof.
  intros _. unfold digits.
  assert (D : forall c, is_digit c = true <-> digitchar c) by (intros c; apply is_digit_range).
  assert (X : forall n d, (length d <= n)%nat -> (digits_to_hex d = Err ValueError <-> ~ Forall digitchar d)).
  { induction n as [|n IH]; intros [|a [|b r]] L; cbn [length] in L; try lia; cbn [digits_to_hex]; unfold int10.
    1, 2: split; [discriminate|intros H; destruct H; constructor].
    - destruct (is_digit a) eqn:A; cbn [bind]; split; try discriminate; try reflexivity.
      + intros H. destruct H. constructor; [apply D, A|constructor].
      + intros _ H. inversion H as [|? ? Y]; subst. apply D in Y. congruence.
    - destruct (is_digit a) eqn:A; cbn [bind]; [|split; [intros _ H; inversion H as [|? ? Y]; subst; apply D in Y; congruence|reflexivity]].
      destruct (is_digit b) eqn:B; cbn [bind]; [|split; [intros _ H; inversion H as [|? ? _ Y]; subst; inversion Y as [|? ? Z]; subst; apply D in Z; congruence|reflexivity]].
      assert (L' : (length r <= n)%nat) by lia. specialize (IH r L'). destruct (digits_to_hex r) as [o|e]; cbn [bind].
      + split; [discriminate|]. intros H. assert (F : ~ Forall digitchar r) by (intros F; apply H; constructor; [apply D, A|constructor; [apply D, B|exact F]]).
        apply IH in F. discriminate F.
      + destruct IH as (I1 & I2). split.
        * intros E. injection E as ->. intros F. apply (I1 eq_refl). inversion F as [|? ? _ Y]; inversion Y; assumption.
        * intros H. assert (F : ~ Forall digitchar r) by (intros F; apply H; constructor; [apply D, A|constructor; [apply D, B|exact F]]).
          apply I2 in F. injection F as ->. reflexivity. }
  apply (X (length d)). lia.
Qed.
