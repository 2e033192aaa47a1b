(** * Documented answers: the table *)
From Coq Require Import String List NArith ZArith Bool Lia.
From Verif Require Import PyStr PyDate PyFloat Tags Messages SpecMsg SpecTag TagThms MessageFacts MessageThms MessageThms2 MessageThms3 ProtoThms LightThms HandshakeThms
  Protocol IO Client Items SpecItem ItemThms LightThms2 Lighting SpecLight SpecGateway Gateway CalendarThms GatewayThms GatewayThms2 PropGateway
  Energy SpecEnergy FloatThms EnergyThms EnergyThms2 EnergyThms3 SpecDocs DocsThms SpecTalk TalkThms.
Import ListNotations.
Open Scope N_scope.
Open Scope list_scope.

Lemma dec_number n : n <= 65535 -> number (dec n) n.
Proof.
  intros L. split; [apply digits_all, dec_digits|]. split; [apply dec_not_nil|]. split; [rewrite value_of_dval; apply dval_dec|].
  apply (small_len n). lia.
Qed.

Ltac alldec := repeat first [apply Forall_nil | apply Forall_cons]; first [assumption | apply dec_num | eapply fixed_num; eassumption | idtac].

Lemma zone_num z k : zone z k -> num z.
Proof.
  intros [s h [(D & _ & N & _) _]|s h [(D & _ & N & _) _]]; (split; [constructor; [unfold digitchar; lia|exact D]|discriminate]).
Qed.

Lemma fixed_field k s n : (0 < k)%nat -> fixed k s n -> field 1 s n.
Proof. intros K [(A & B & C & D) E]. repeat split; try assumption. lia. Qed.

Lemma fixed_number k s n : (k <= 4300)%nat -> fixed k s n -> number s (Z.to_N n) /\ (0 <= n)%Z.
Proof.
  intros K [(A & B & C & D) E]. split; [|lia]. split; [exact A|]. split; [exact C|]. split; [rewrite D, N2Z.id; reflexivity|]. lia.
Qed.

Lemma fixed2_small s n : fixed 2 s n -> (0 <= n < 100)%Z.
Proof.
  intros [(A & _ & _ & ->) L]. destruct s as [|a [|b [|]]]; try discriminate. inversion A as [|? ? H1 A']; subst. inversion A' as [|? ? H2 _]; subst.
  unfold digitchar in *. cbn [value_of]. lia.
Qed.

Lemma asks_energy {A} it dim d (decode : list str -> res A) whr d' vs r : ready it -> placed it -> dim = Ok d -> tagtext d ->
  meter whr -> groups d' -> (exists c x, d' = c :: x /\ c <> 35) -> vs <> [] -> Forall num vs -> decode vs = r ->
  hears (Y:=Empty_set) (ask_energy it dim decode) [value ENERGY_MANAGEMENT whr d' vs; ack] [] r [].
Proof.
  intros Hr Hp E T M G St N F D. eapply hears_one.
  - apply value_spoken; try assumption. apply groups_wiretag, meter_groups, M.
  - intros rest. eexists. eapply (asked_energy it dim d decode vs); try eassumption. apply one_answer.
Qed.

Lemma netinfo_hears it a b c d a' b' c' d' p : ready it -> placed it -> octets a b c d -> octets a' b' c' d' -> netmask (address a' b' c' d') p ->
  hears (Y:=Empty_set) (get_netinfo it)
    [value GATEWAY [] (lit "10") [dec a; dec b; dec c; dec d]; ack; value GATEWAY [] (lit "11") [dec a'; dec b'; dec c'; dec d']; ack] []
    (Ok (address a b c d / 2 ^ (32 - p) * 2 ^ (32 - p), p)) [].
Proof.
  intros Hr Hp O1 O2 M rest.
  exists [MDimRes GATEWAY [] (lit "10") [dec a; dec b; dec c; dec d]; MAck; MDimRes GATEWAY [] (lit "11") [dec a'; dec b'; dec c'; dec d']; MAck], [].
  assert (W : wiretag []) by (apply wiretagb_spec; reflexivity).
  assert (D : forall s : string, all_digits (lit s) = true -> lit s <> [] -> num (lit s)) by (intros; apply lit_num; assumption).
  split. { constructor; [apply num_value; [exact W|apply D; [reflexivity|discriminate]|discriminate|alldec]|].
    constructor; [exact ack_spoken|]. constructor; [apply num_value; [exact W|apply D; [reflexivity|discriminate]|discriminate|alldec]|].
    constructor; [exact ack_spoken|constructor]. }
  split; [constructor|]. split; [apply no_yields|].
  destruct (C56_netinfo it [dec a; dec b; dec c; dec d] [dec a'; dec b'; dec c'; dec d'] a b c d a' b' c' d' p
    (map Some [MDimRes GATEWAY [] (lit "10") [dec a; dec b; dec c; dec d]; MAck; MDimRes GATEWAY [] (lit "11") [dec a'; dec b'; dec c'; dec d']; MAck] ++ rest)
    (Some (MDimRes GATEWAY [] (lit "11") [dec a'; dec b'; dec c'; dec d']) :: Some MAck :: rest) rest Hr Hp) as (_ & R & E & _); try assumption.
  - repeat eexists; apply dec_number; unfold octets in O1; lia.
  - repeat eexists; apply dec_number; unfold octets in O2; lia.
  - exists GATEWAY, [], (lit "10"), []. split; [constructor|reflexivity].
  - apply one_answer.
  - split; [apply E; left; exact M|exact R].
Qed.

Lemma float_is v f : num v -> reads (value_of 0 v) f -> float0 [v] = Ok f.
Proof.
  intros [D N] R. unfold float0. cbn [index nth_error bind]. rewrite (float_read v D N). f_equal.
  apply (reads_unique (value_of 0 v)); [apply float_reads|exact R].
Qed.

Lemma amount_ask it x d : amount it x d ->
  exists dim, x = ask_energy it dim float0 /\ dim = Ok d /\ tagtext d /\ groups d /\ exists c r, d = c :: r /\ c <> 35.
Proof.
  assert (S : forall s : string, all_digits (lit s) = true -> lit s <> [] -> groups (lit s) /\ exists c r, lit s = c :: r /\ c <> 35).
  { intros s D N. assert (X : num (lit s)) by (apply lit_num; assumption). split; [apply num_groups, X|apply num_start, X]. }
  intros [| | | |y m n1 n2 ys ms Sy Sm].
  - eexists. split; [reflexivity|]. split; [reflexivity|]. split; [apply (de_tag ACTIVE_POWER)|]. apply S; [reflexivity|discriminate].
  - eexists. split; [reflexivity|]. split; [reflexivity|]. split; [apply (de_tag ENERGY_UNIT_TOTALIZER)|]. apply S; [reflexivity|discriminate].
  - eexists. split; [reflexivity|]. split; [reflexivity|]. split; [apply (de_tag PARTIAL_TOTALIZER_CURRENT_MONTH)|]. apply S; [reflexivity|discriminate].
  - eexists. split; [reflexivity|]. split; [reflexivity|]. split; [apply (de_tag PARTIAL_TOTALIZER_CURRENT_DAY)|]. apply S; [reflexivity|discriminate].
  - assert (FD : float_dim (R_per_month (Some (Z.of_N m)) (Some (Z.of_N y)) n1 n2) (lit "52#" ++ ys ++ lit "#" ++ ms)).
    { econstructor; [constructor|constructor|exact Sm|exact Sy]. }
    destruct (run_float_ask (Y:=Empty_set) it _ _ FD) as (dim & E & E1 & E2). exists dim. split; [exact E|]. split; [exact E1|]. split; [exact E2|].
    assert (K : forall n t, shown n t -> num t) by (intros n t [Nm _]; apply numeral_dec in Nm; subst; apply dec_num).
    split; [|exists 53, (50 :: 35 :: ys ++ lit "#" ++ ms); split; [reflexivity|discriminate]].
    exists (lit "52"), [ys; ms]. split.
    + unfold with_params. cbn. rewrite ?app_nil_r. reflexivity.
    + split; [apply digits_all; reflexivity|]. split; [|discriminate]. constructor; [eapply K, Sy|constructor; [eapply K, Sm|constructor]].
Qed.
