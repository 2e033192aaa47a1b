(** * Theorems about tags *)
From Coq Require Import String List NArith ZArith Bool Lia.
From Verif Require Import PyStr Tags Messages SpecMsg MessageFacts MessageThms SpecTag.
Import ListNotations.
Open Scope N_scope.
Open Scope list_scope.

Lemma value_of_dval a s : value_of a s = dval_from a s.
Proof. revert a. induction s as [|c s IH]; intros a; [reflexivity|]. cbn [value_of]. rewrite IH. reflexivity. Qed.

Lemma numeral_dec n s : numeral n s <-> s = dec n.
Proof.
  unfold numeral. rewrite value_of_dval. change (dval_from 0 s) with (dval s). split.
  - intros (D & N & Z & E). subst n. apply canonical_dec. apply digits_all in D.
    unfold canonical. auto.
  - intros ->. pose proof (dec_canonical n) as (A & B & C). repeat split; auto.
    + apply digits_all, A.
    + apply dval_dec.
Qed.

Lemma printable_dec n : printable_int n <-> slen (dec n) <= int_max_str_digits.
Proof.
  unfold printable_int, slen, int_max_str_digits. split.
  - intros H. apply H. apply numeral_dec. reflexivity.
  - intros H s E. apply numeral_dec in E. subst. exact H.
Qed.

(** ** C01 *)

Lemma tag_str s r :
  tag_make (AStr s) = r <-> (tagtext s /\ r = Ok s) \/ (~ tagtext s /\ r = Err InvalidTag).
Proof.
  unfold tag_make. cbn [py_str bind]. rewrite tagtext_valid.
  destruct (is_valid_tag s); intuition (try congruence).
Qed.

Lemma minus_invalid d : is_valid_tag (c_minus :: d) = false.
Proof. reflexivity. Qed.

Lemma tag_int z :
  (forall s, tag_make (AInt z) = Ok s <->
     (0 <= z)%Z /\ numeral (Z.to_N z) s /\ N.of_nat (length s) <= 4300) /\
  (forall e, tag_make (AInt z) = Err e ->
     (e = InvalidTag /\ (z < 0)%Z) \/ (e = ValueError /\ ~ printable_int (Z.abs_N z))).
Proof.
  unfold tag_make. cbn [py_str]. unfold py_str_int.
  destruct (int_max_str_digits <? slen (dec (Z.abs_N z))) eqn:L; cbn [bind].
  - apply N.ltb_lt in L. split.
    + intros s. split; [discriminate|]. intros (Hz & E & Hl). exfalso. apply numeral_dec in E. subst s.
      replace (Z.abs_N z) with (Z.to_N z) in L by lia. unfold slen, int_max_str_digits in L. lia.
    + intros e [= <-]. right. split; [reflexivity|]. rewrite printable_dec. lia.
  - apply N.ltb_ge in L. destruct (z <? 0)%Z eqn:S.
    + rewrite minus_invalid. apply Z.ltb_lt in S. split.
      * intros s. split; [discriminate|]. intros (Hz & _). lia.
      * intros e [= <-]. left. auto.
    + apply Z.ltb_ge in S. rewrite dec_valid. split; [|discriminate].
      replace (Z.abs_N z) with (Z.to_N z) in * by lia. intros s. rewrite numeral_dec. split.
      * intros [= <-]. auto.
      * intros (_ & -> & _). reflexivity.
Qed.

Lemma tag_bool b : tag_make (ABool b) = Err InvalidTag.
Proof. destruct b; reflexivity. Qed.

(** ** C02 *)

Lemma twp_spec s :
  s = with_params (twp_tag s) (twp_parameters s) /\
  nohash (twp_tag s) /\ Forall nohash (twp_parameters s).
Proof.
  split; [apply twp_recompose|]. apply twp_nohash.
Qed.

Lemma with_params_unique t1 p1 t2 p2 :
  nohash t1 -> Forall nohash p1 -> nohash t2 -> Forall nohash p2 ->
  with_params t1 p1 = with_params t2 p2 -> t1 = t2 /\ p1 = p2.
Proof.
  intros H1 H2 H3 H4 E. unfold with_params in E.
  change 35 with c_hash in E. rewrite <- !join_concat in E.
  assert (X : t1 :: p1 = t2 :: p2).
  { apply (join_inj c_hash); auto; try discriminate; constructor; auto. }
  injection X; auto.
Qed.

(** A legal parameter: a non-negative int or a string of digits. *)
Definition param_text (p : pyarg) (t : str) : Prop :=
  match p with
  | AStr s => digits s /\ t = s
  | AInt z => (0 <= z)%Z /\ printable_int (Z.to_N z) /\ numeral (Z.to_N z) t
  | ABool _ => False
  end.

(** A chain of with_parameter calls. *)
Fixpoint with_all (s : str) (ps : list pyarg) : res str :=
  match ps with [] => Ok s | p :: r => do t <- with_parameter s p; with_all t r end.

Lemma param_ok p t : param_text p t -> py_str p = Ok t /\ digits t.
Proof.
  destruct p as [s|z|b]; cbn [param_text py_str].
  - intros [D ->]. auto.
  - intros (Hz & P & E). apply printable_dec in P. apply numeral_dec in E. subst t.
    unfold py_str_int. replace (Z.abs_N z) with (Z.to_N z) by lia.
    rewrite (proj2 (N.ltb_ge _ _) P). rewrite (proj2 (Z.ltb_ge _ _) Hz).
    split; [reflexivity|]. apply digits_all, dec_digits.
  - intros [].
Qed.

Lemma digits_nohash' t : digits t -> nohash t.
Proof. intros D. apply digits_all in D. exact (digits_nohash _ D). Qed.

Lemma with_parameter_ok s p t :
  tagtext s -> param_text p t ->
  with_parameter s p = Ok (s ++ 35 :: t) /\ tagtext (s ++ 35 :: t).
Proof.
  intros Hs Hp. apply param_ok in Hp as [E D]. unfold with_parameter. rewrite E. cbn [bind].
  assert (T : tagtext (s ++ 35 :: t)).
  { apply Forall_app. split; [exact Hs|]. constructor; [right; reflexivity|].
    eapply Forall_impl; [|exact D]. intros c Hc. left. exact Hc. }
  split; [|exact T]. apply tag_str. left. auto.
Qed.

Lemma with_all_ok s ps ts :
  tagtext s -> Forall2 param_text ps ts ->
  exists s', with_all s ps = Ok s' /\ tagtext s' /\
             twp_tag s' = twp_tag s /\ twp_parameters s' = twp_parameters s ++ ts.
Proof.
  intros Hs H. revert s Hs. induction H as [|p t ps ts Hp H IH]; intros s Hs.
  - exists s. cbn. rewrite app_nil_r. auto.
  - destruct (with_parameter_ok s p t Hs Hp) as [E T]. cbn [with_all]. rewrite E. cbn [bind].
    destruct (IH _ T) as (s' & E' & T' & A & B). exists s'. split; [exact E'|]. split; [exact T'|].
    pose proof (param_ok _ _ Hp) as [_ D]. destruct (twp_with s t (digits_nohash' _ D)) as [C1 C2].
    change c_hash with 35 in C1, C2. rewrite A, B, C1, C2, <- app_assoc. auto.
Qed.

(** ** C03 *)

Definition no_int (v : pyval) : Prop := match v with PInt _ => False | _ => True end.

Lemma eq_reflexive a : no_int a -> py_eq a a = Ok true.
Proof. destruct a; cbn; intros H; try tauto; rewrite str_eqb_refl; reflexivity. Qed.

Lemma eq_symmetric a b r : py_eq a b = Ok r -> py_eq b a = Ok r.
Proof.
  destruct a, b; cbn; try (rewrite str_eqb_sym; auto); auto.
  intros <-. f_equal. apply Z.eqb_sym.
Qed.

Lemma eq_transitive a b c :
  no_int a -> no_int b -> no_int c ->
  py_eq a b = Ok true -> py_eq b c = Ok true -> py_eq a c = Ok true.
Proof.
  destruct a, b, c; cbn; try tauto; intros _ _ _ [= H1] [= H2];
  apply str_eqb_spec in H1, H2; subst; rewrite str_eqb_refl; reflexivity.
Qed.

Lemma eq_hash hs hi a b :
  no_int a -> no_int b -> py_eq a b = Ok true -> py_hash hs hi a = py_hash hs hi b.
Proof.
  destruct a, b; cbn; try tauto; intros _ _ [= H]; apply str_eqb_spec in H; subst; reflexivity.
Qed.

(** With ints the contract is equivalent to a coincidence of two unrelated
    hash functions. *)
Lemma eq_hash_int hs hi :
  (forall a b, py_eq a b = Ok true -> py_hash hs hi a = py_hash hs hi b) <->
  (forall z s, py_str_int z = Ok s -> hs s = hi z).
Proof.
  split.
  - intros H z s E. apply (H (PTag s) (PInt z)). cbn. rewrite E. cbn. rewrite str_eqb_refl. reflexivity.
  - intros H a b. destruct a, b; cbn.
    + intros [= E]. apply str_eqb_spec in E. subst; reflexivity.
    + intros [= E]. apply str_eqb_spec in E. subst; reflexivity.
    + destruct (py_str_int z) eqn:E; cbn; [|discriminate]. intros [= X]. apply str_eqb_spec in X. subst. auto.
    + intros [= E]. apply str_eqb_spec in E. subst; reflexivity.
    + intros [= E]. apply str_eqb_spec in E. subst; reflexivity.
    + discriminate.
    + destruct (py_str_int z) eqn:E; cbn; [|discriminate]. intros [= X]. apply str_eqb_spec in X. subst.
      symmetry. auto.
    + discriminate.
    + intros [= E]. apply Z.eqb_eq in E. subst. reflexivity.
Qed.

Lemma eq_not_transitive :
  exists a b c, py_eq a b = Ok true /\ py_eq b c = Ok true /\ py_eq a c = Ok false.
Proof. exists (PStr (lit "5")), (PTag (lit "5")), (PInt 5%Z). repeat split. Qed.

(** ** C04 *)

Lemma sw1 c p s : startswith [c] (p :: s) = (p =? c).
Proof. cbn. rewrite N.eqb_sym. destruct (c =? p) eqn:E; rewrite ?andb_true_r; auto. Qed.

Lemma twp_hash r : twp_tag (35 :: r) = [] /\ twp_parameters (35 :: r) = split c_hash r.
Proof. split; reflexivity. Qed.

Lemma split_one s a : split c_hash s = [a] -> s = a /\ nohash s.
Proof.
  intros E. pose proof (join_split c_hash s) as J. pose proof (split_no_sep_in c_hash s) as H.
  rewrite E in *. cbn in J. inversion H; subst. auto.
Qed.

Lemma split_two s a b : split c_hash s = [a; b] -> s = a ++ 35 :: b /\ nohash a /\ nohash b.
Proof.
  intros E. pose proof (join_split c_hash s) as J. pose proof (split_no_sep_in c_hash s) as H.
  rewrite E in *. inversion H as [|? ? H1 H2]. inversion H2. cbn in J. auto.
Qed.

Lemma digit_cases c :
  48 <= c <= 57 ->
  c = 48 \/ c = 49 \/ c = 50 \/ c = 51 \/ c = 52 \/ c = 53 \/ c = 54 \/ c = 55 \/ c = 56 \/ c = 57.
Proof. lia. Qed.

Lemma where_sound s t : where_class s t -> where_type s = Ok t.
Proof.
  intros H. inversion H as [ | c Hc | | | c r Hc N X | c r Hc X | g G | a b A B ]; subst.
  - reflexivity.
  - assert (c = 49 \/ c = 50 \/ c = 51 \/ c = 52 \/ c = 53 \/ c = 54 \/ c = 55 \/ c = 56 \/ c = 57) as D by lia.
    repeat destruct D as [-> | D]; subst; reflexivity.
  - reflexivity.
  - reflexivity.
  - destruct r as [|d r]; [congruence|].
    assert (c = 49 \/ c = 50 \/ c = 51 \/ c = 52 \/ c = 53 \/ c = 54 \/ c = 55 \/ c = 56 \/ c = 57) as D by lia.
    unfold where_type.
    assert (E100 : str_in (c :: d :: r) (map lit ["00"; "100"]%string) = false).
    { destruct (str_in (c :: d :: r) (map lit ["00"; "100"]%string)) eqn:E; [|reflexivity].
      apply str_in_spec in E. cbn in E. destruct E as [E|[E|[]]]; injection E; intros; subst; [lia|congruence]. }
    rewrite E100. clear E100.
    assert (E1 : startswith_any (map lit ["1"; "2"; "3"; "4"; "5"; "6"; "7"; "8"; "9"]%string) (c :: d :: r) = true)
      by (repeat destruct D as [-> | D]; subst; reflexivity).
    assert (E0 : str_eqb (c :: d :: r) (lit "0") = false) by (apply str_eqb_neq; discriminate).
    assert (E2 : str_in (c :: d :: r) (map lit ["1"; "2"; "3"; "4"; "5"; "6"; "7"; "8"; "9"]%string) = false)
      by (repeat destruct D as [-> | D]; subst; reflexivity).
    rewrite E0, E1, E2.
    destruct (startswith_any (map lit ["00"; "10"]%string) (c :: d :: r)); reflexivity.
  - unfold where_type.
    assert (E00 : str_in (48 :: c :: r) (map lit ["00"; "100"]%string) = false).
    { destruct (str_in (48 :: c :: r) (map lit ["00"; "100"]%string)) eqn:E; [|reflexivity].
      apply str_in_spec in E. cbn in E. destruct E as [E|[E|[]]]; [congruence|discriminate]. }
    rewrite E00. destruct (digit_cases c Hc) as [-> | D];
    [|repeat destruct D as [-> | D]; subst]; cbn; reflexivity.
  - unfold where_type. destruct (twp_hash g) as [-> ->].
    rewrite (split_nosep c_hash g G). reflexivity.
  - unfold where_type. destruct (twp_hash (a ++ 35 :: b)) as [-> ->].
    change 35 with c_hash. rewrite split_app_sep by exact A. rewrite (split_nosep c_hash b B). reflexivity.
Qed.

Lemma where_complete s t : tagtext s -> where_type s = Ok t -> where_class s t.
Proof.
  intros T H. unfold where_type in H.
  destruct (str_eqb s (lit "0")) eqn:E0.
  { injection H as <-. apply str_eqb_spec in E0. subst. constructor. }
  destruct (str_in s (map lit ["1"; "2"; "3"; "4"; "5"; "6"; "7"; "8"; "9"]%string)) eqn:E1.
  { injection H as <-. apply str_in_spec in E1. cbn in E1.
    repeat destruct E1 as [<- | E1]; try (constructor; lia). destruct E1. }
  destruct (str_in s (map lit ["00"; "100"]%string)) eqn:E2.
  { injection H as <-. apply str_in_spec in E2. cbn in E2.
    repeat destruct E2 as [<- | E2]; try constructor. destruct E2. }
  assert (N100 : s <> [49; 48; 48] /\ s <> [48; 48]).
  { split; intros ->; discriminate. }
  destruct s as [|c s].
  { discriminate. }
  inversion T as [|? ? Tc Ts]; subst. destruct Tc as [Tc | ->].
  - (* a digit first *)
    destruct (N.eq_dec c 48) as [-> | Nc].
    + destruct s as [|d s]; [discriminate|]. inversion Ts as [|? ? Td Ts']; subst.
      destruct Td as [Td | ->].
      * assert (W : where_class (48 :: d :: s) LIGHT_POINT) by (apply WC_point0; [exact Td|tauto]).
        apply where_sound in W. unfold where_type in W. rewrite E0, E1, E2 in W. rewrite H in W.
        injection W as ->. apply WC_point0; [exact Td|tauto].
      * cbn in H. discriminate.
    + assert (Nn : s <> []).
      { intros ->. assert (W : where_class [c] AMBIENT) by (apply WC_ambient; lia).
        assert (X : c = 49 \/ c = 50 \/ c = 51 \/ c = 52 \/ c = 53 \/ c = 54 \/ c = 55 \/ c = 56 \/ c = 57) by lia.
        repeat destruct X as [-> | X]; subst; discriminate. }
      assert (W : where_class (c :: s) LIGHT_POINT) by (apply WC_point; [lia|exact Nn|tauto]).
      pose proof W as W'. apply where_sound in W'. unfold where_type in W'. rewrite E0, E1, E2 in W'. rewrite H in W'.
      injection W' as ->. exact W.
  - (* '#' first *)
    destruct (twp_hash s) as [A B].
    replace (startswith_any (map lit ["00"; "10"]%string) (35 :: s)) with false in H by reflexivity.
    replace (startswith_any (map lit ["1"; "2"; "3"; "4"; "5"; "6"; "7"; "8"; "9"]%string) (35 :: s)) with false in H by reflexivity.
    replace (startswith_any (map lit ["01"; "02"; "03"; "04"; "05"; "06"; "07"; "08"; "09"]%string) (35 :: s)) with false in H by reflexivity.
    rewrite A, B in H. cbn [str_eqb andb] in H.
    destruct (split c_hash s) as [|x [|y [|z q]]] eqn:E; cbn in H; try discriminate.
    + injection H as <-. apply split_one in E as [-> Hn]. constructor. exact Hn.
    + injection H as <-. apply split_two in E as (-> & Ha & Hb). constructor; assumption.
Qed.

Lemma where_err s e : where_type s = Err e -> e = ValueError.
Proof.
  unfold where_type. repeat match goal with |- context [if ?b then _ else _] => destruct b end; congruence.
Qed.

Lemma where_iff s :
  tagtext s ->
  (forall t, where_type s = Ok t <-> where_class s t) /\ (forall e, where_type s = Err e <-> e = ValueError /\ forall t, ~ where_class s t).
Proof.
  intros T. split.
  - intros t. split; [apply where_complete, T|apply where_sound].
  - intros e. split.
    + intros H. split; [eapply where_err; eauto|]. intros t W. apply where_sound in W. congruence.
    + intros [-> N]. destruct (where_type s) as [t|e] eqn:E.
      * exfalso. apply (N t). apply where_complete; auto.
      * f_equal. eapply where_err; eauto.
Qed.

(** ** C05 *)

Lemma who_numbers_spec s : In s who_numbers <-> exists w, s = who_str w.
Proof.
  split.
  - intros H. unfold who_numbers in H. cbn [map] in H.
    repeat (destruct H as [<- | H]; [first
      [ exists SCENE; reflexivity | exists LIGHTING; reflexivity | exists AUTOMATION; reflexivity
      | exists LOAD_CONTROL; reflexivity | exists THERMOREGULATION; reflexivity | exists BURGLAR_ALARM; reflexivity
      | exists DOOR_ENTRY_SYSTEM; reflexivity | exists VIDEO_DOOR_ENTRY; reflexivity | exists AUXILIARY; reflexivity
      | exists GATEWAY; reflexivity | exists ACTUATORS_LOCKS; reflexivity | exists CEN_1; reflexivity
      | exists SOUND_DIFFUSION_1; reflexivity | exists MH200N_SCENE; reflexivity | exists ENERGY_MANAGEMENT; reflexivity
      | exists SOUND_DIFFUSION_2; reflexivity | exists LIGHTING_MANAGEMENT; reflexivity | exists CEN_2; reflexivity
      | exists AUTOMATION_DIAGNOSTICS; reflexivity | exists THERMOREGULATION_DIAGNOSTICS; reflexivity
      | exists DEVICE_DIAGNOSTICS; reflexivity | exists ENERGY_DIAGNOSTICS; reflexivity ] |]).
    destruct H.
  - intros (w & ->). apply str_in_spec. destruct w; reflexivity.
Qed.

Lemma who_lookup s :
  (forall w, who_of s = Ok w -> who_str w = s /\ In s who_numbers) /\
  (In s who_numbers -> exists w, who_of s = Ok w) /\
  (~ In s who_numbers -> who_of s = Err ValueError).
Proof.
  repeat split.
  - intros. apply who_of_ok in H. auto.
  - apply who_of_ok in H. apply who_numbers_spec. eauto.
  - intros H. apply who_numbers_spec in H as (w & ->). exists w. apply who_of_str.
  - intros H. destruct (who_of s) as [w|e] eqn:E.
    + exfalso. apply H, who_numbers_spec. exists w. apply who_of_ok, E.
    + apply who_of_err in E as [-> _]. reflexivity.
Qed.

Lemma who_name_inj w w' n : who_name w = Ok n -> who_name w' = Ok n -> w = w'.
Proof.
  intros H H'. assert (E : (match who_name w, who_name w' with Ok a, Ok b => str_eqb a b | _, _ => false end) = true) by (rewrite H, H'; apply str_eqb_refl).
  clear H H'. destruct w, w'; first [reflexivity|vm_compute in E; discriminate E].
Qed.

Lemma who_name_diagnostics w n : who_name w = Ok n -> ((exists x, n = x ++ lit " diagnostics") <-> length (who_str w) = 4%nat).
Proof.
  assert (X : forall n b : str, endswith b n = true -> exists x, n = x ++ b).
  { intros a b H. apply endswith_spec in H. exact H. }
  destruct w; vm_compute; intros [= <-]; split; try discriminate; try reflexivity.
  all: try (intros _; apply X; reflexivity).
  all: intros [x E]; apply (f_equal (@rev N)) in E; rewrite rev_app_distr in E; discriminate E.
Qed.

Lemma who_name_spec w :
  (who_name w = Err KeyError <->
   In w [DOOR_ENTRY_SYSTEM; AUXILIARY; ACTUATORS_LOCKS; LIGHTING_MANAGEMENT; ENERGY_DIAGNOSTICS]) /\
  (forall e, who_name w = Err e -> e = KeyError) /\
  (forall n, who_name w = Ok n -> n <> []).
Proof.
  destruct w; cbn; (split; [split; [try discriminate; auto 10|intuition (try discriminate)]|]); split; intros ? [= <-]; try discriminate; reflexivity.
Qed.

Lemma who_name_member w n : who_name w = Ok n -> capitals n = member_name w \/
  (w = GATEWAY /\ capitals n = member_name w ++ lit "_MANAGEMENT") \/ (In w [CEN_1; CEN_2] /\ startswith (lit "CEN") n = true).
Proof.
  intros H. assert (E : (match who_name w with Ok a => str_eqb (capitals a) (member_name w) || (who_eqb w GATEWAY && str_eqb (capitals a) (member_name w ++ lit "_MANAGEMENT"))
    || ((who_eqb w CEN_1 || who_eqb w CEN_2) && startswith (lit "CEN") a) | _ => true end) = true) by (destruct w; vm_compute; reflexivity).
  rewrite H in E. apply orb_true_iff in E as [E|E]; [apply orb_true_iff in E as [E|E]; [left; apply str_eqb_spec, E|right; left]|right; right]; apply andb_true_iff in E as (E1 & E2).
  - split; [destruct w; try discriminate E1; reflexivity|apply str_eqb_spec, E2].
  - split; [destruct w; try discriminate E1; cbn; auto|exact E2].
Qed.
