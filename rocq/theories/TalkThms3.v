(** * Documented answers: every row of the table *)
From Coq Require Import String List NArith ZArith Bool Lia.
From Verif Require Import PyStr PyDate PyFloat Tags Messages SpecMsg SpecTag TagThms MessageFacts MessageThms MessageThms2 MessageThms3 ProtoThms LightThms HandshakeThms
  Protocol IO Client Items SpecItem ItemThms LightThms2 Lighting SpecLight SpecGateway Gateway CalendarThms GatewayThms GatewayThms2 PropGateway
  Energy SpecEnergy FloatThms EnergyThms EnergyThms2 EnergyThms3 PropEnergy SpecDocs DocsThms SpecTalk TalkThms TalkThms2.
Import ListNotations.
Open Scope N_scope.
Open Scope list_scope.

Lemma bit_number b : number (bit b) (if b then 1 else 0).
Proof. destruct b; (split; [apply digits_all; reflexivity|]; split; [discriminate|]; split; [reflexivity|cbn; lia]). Qed.

Lemma bits_digits bs : digits (concat (map bit bs)).
Proof. induction bs as [|[] bs IH]; cbn; [constructor|constructor; [unfold digitchar; lia|exact IH]|constructor; [unfold digitchar; lia|exact IH]]. Qed.

Lemma bits_length bs : length (concat (map bit bs)) = length bs.
Proof. induction bs as [|[] bs IH]; cbn; [reflexivity| |]; rewrite IH; reflexivity. Qed.

Lemma lit_groups (s : string) : all_digits (lit s) = true -> lit s <> [] -> groups (lit s) /\ exists c r, lit s = c :: r /\ c <> 35.
Proof. intros D N. assert (X : num (lit s)) by (apply lit_num; assumption). split; [apply num_groups, X|apply num_start, X]. Qed.

Lemma bit_spoken whr i b : meter whr -> spoken (value ENERGY_MANAGEMENT whr (dec (251 + i)) [bit b]) (MDimRes ENERGY_MANAGEMENT whr (dec (251 + i)) [bit b]).
Proof.
  intros M. apply num_value; [apply groups_wiretag, meter_groups, M|apply dec_num|discriminate|]. constructor; [|constructor].
  eapply number_num, bit_number.
Qed.

Lemma stop_go_hears it whr bs : ready it -> placed it -> meter whr -> length bs = 13%nat ->
  hears (Y:=Empty_set) (request_status it STATUS_STOP_GO_GENERAL)
    (value ENERGY_MANAGEMENT whr (lit "250") [concat (map bit (rev bs))]
     :: map (fun p => value ENERGY_MANAGEMENT whr (dec (251 + fst (fst p))) [bit (snd p)]) (combine bits bs) ++ [ack]) [] (Ok (map Some bs)) [].
Proof.
  intros Hr Hp M L rest.
  set (ms := MDimRes ENERGY_MANAGEMENT whr (lit "250") [concat (map bit (rev bs))]
     :: map (fun p => MDimRes ENERGY_MANAGEMENT whr (dec (251 + fst (fst p))) [bit (snd p)]) (combine bits bs)).
  assert (N13 : num (concat (map bit (rev bs)))).
  { split; [apply bits_digits|]. intros E. apply (f_equal (@length N)) in E. rewrite bits_length, rev_length, L in E. discriminate. }
  exists (ms ++ [MAck]), []. split; [|split; [constructor|split; [apply no_yields|]]].
  - subst ms. cbn [app]. constructor.
    + apply num_value; [apply groups_wiretag, meter_groups, M|apply lit_num; [reflexivity|discriminate]|discriminate|]. constructor; [exact N13|constructor].
    + apply spoken_ack. generalize (combine bits bs). intros l. induction l as [|[[i d] b] l IH]; cbn [map]; constructor; [|exact IH].
      apply bit_spoken, M.
  - rewrite stream_map.
    destruct (C60_general_answer it ms [(lit "250", value_of 0 (concat (map bit (rev bs))))] bs rest Hr Hp L) as (_ & R & E); [|split; [exact E|exact R]].
    subst ms. cbn [app]. constructor.
    + exists ENERGY_MANAGEMENT, whr, (concat (map bit (rev bs))), []. split; [reflexivity|]. split; [|left; reflexivity].
      destruct N13 as [D N]. split; [exact D|]. split; [exact N|]. split; [reflexivity|]. rewrite bits_length, rev_length, L. lia.
    + destruct bs as [|b0 [|b1 [|b2 [|b3 [|b4 [|b5 [|b6 [|b7 [|b8 [|b9 [|b10 [|b11 [|b12 [|]]]]]]]]]]]]]]; try discriminate L.
      unfold all_bits, bits. cbn [combine map fst snd].
      repeat (constructor; [eexists; eexists; eexists; eexists; split; [reflexivity|]; split; [apply bit_number|right; eexists; split; [|reflexivity]; lia]|]).
      constructor.
Qed.

Lemma bit_hears it whr i d b : ready it -> placed it -> In (i, d) bits -> meter whr ->
  hears (Y:=Empty_set) (request_status it d) [value ENERGY_MANAGEMENT whr (dec (251 + i)) [bit b]; ack] [] (Ok (only i b)) [].
Proof.
  intros Hr Hp I M. assert (B : i < 13).
  { unfold bits in I. cbn [In] in I. repeat (destruct I as [I|I]; [injection I as <- <-; lia|]). destruct I. }
  eapply hears_one; [apply bit_spoken, M|]. intros rest. eexists.
  destruct (request_status_ok (Y:=Empty_set) it d [MDimRes ENERGY_MANAGEMENT whr (dec (251 + i)) [bit b]] [(bit_dim i, if b then 1 else 0)] rest Hr Hp) as (st & G & Ls & F).
  { constructor; [|constructor]. eexists; eexists; eexists; eexists. split; [reflexivity|]. split; [apply bit_number|right; exists i; split; [exact B|reflexivity]]. }
  cbn [map app] in G. replace (only i b) with st; [exact G|].
  assert (K : forall k, (k < 13)%nat -> nth_error st k = nth_error (only i b) k).
  { intros k Hk. destruct (F (N.of_nat k)) as (x & X1 & X2); [lia|]. rewrite Nnat.Nat2N.id in X1. rewrite X1.
    assert (E : nth_error (only i b) k = Some (if N.of_nat k =? i then Some b else None)).
    { unfold only, bits. do 13 (destruct k as [|k]; [reflexivity|]). lia. }
    rewrite E. f_equal. eapply field_unique; [exact X2|]. destruct (N.eqb_spec (N.of_nat k) i) as [->|Hne].
    - pose proof (FA_own i [] (if b then 1 else 0)) as Y. destruct b; exact Y.
    - apply (FA_other (N.of_nat k) [] i _ None); [congruence|exact B|constructor]. }
  clear - K Ls. assert (L2 : length (only i b) = 13%nat) by reflexivity. apply nth_ext with (d := None) (d' := None); [congruence|].
  intros k Hk. specialize (K k ltac:(lia)). rewrite (nth_error_nth' st None Hk), (nth_error_nth' (only i b) None) in K by lia. injection K as K. exact K.
Qed.

Lemma totalizer_dim n : 1 <= n <= 2 -> param (de_str TOTALIZERS) (Z.of_N n) = Ok (lit "72#" ++ dec n) /\ tagtext (lit "72#" ++ dec n).
Proof. intros B. assert (n = 1 \/ n = 2) as [-> | ->] by lia; (split; [reflexivity|apply (proj1 (mk_ok _)); reflexivity]). Qed.

Lemma number_field s n : number s n -> field 1 s (Z.of_N n) /\ (length s <= 4300)%nat /\ num s.
Proof.
  intros (D & N & V & L). split; [|split; [lia|split; assumption]]. unfold field. split; [exact D|].
  split; [destruct s; [contradiction|cbn; lia]|]. split; [exact N|]. rewrite V. reflexivity.
Qed.

Theorem exchanged it Y A x fs ys r left : ready it -> placed it -> exchange it (it_who it) Y A x fs ys r left -> hears x fs ys r left.
Proof.
  intros Hr Hp H. destruct H.
  - apply light_hears; assumption.
  - apply dimmer_hears; assumption.
  - destruct H; apply quiet_hears; try assumption; apply (proj1 (mk_ok _)); reflexivity.
  - apply quiet_hears; try assumption; apply (proj1 (mk_ok _)); reflexivity.
  - apply on_hears; try assumption; apply (proj1 (mk_ok _)); reflexivity.
  - apply shutter_hears; assumption.
  - apply asks; try assumption; try discriminate; [apply lit_num; [reflexivity|discriminate]| |apply time_read; assumption].
    alldec. eapply zone_num; eassumption.
  - apply asks; try assumption; try discriminate; [apply lit_num; [reflexivity|discriminate]|alldec|].
    apply date_read; try assumption; try (eapply fixed_field; [|eassumption]; lia);
      match goal with H : fixed _ ?s _ |- (length ?s <= _)%nat => destruct H as [_ ->]; lia end.
  - apply asks; try assumption; try discriminate; [apply lit_num; [reflexivity|discriminate]|alldec|].
    unfold octets in *. apply ip_read; try (apply dec_number; lia). assumption.
  - apply asks; try assumption; try discriminate; [apply lit_num; [reflexivity|discriminate]|alldec|].
    unfold octets in *. apply netmask_read; apply dec_number; lia.
  - apply netinfo_hears; assumption.
  - apply asks; try assumption; try discriminate; [apply lit_num; [reflexivity|discriminate]|alldec|apply mac_read].
  - apply asks; try assumption; try discriminate; [apply lit_num; [reflexivity|discriminate]| |].
    + constructor; [|constructor]. destruct H as [<-|[<-|[<-|[]]]]; apply lit_num; try reflexivity; discriminate.
    + apply model_read. destruct H as [<-|[<-|[<-|[]]]]; constructor.
  - apply asks; try assumption; try discriminate; [apply lit_num; [reflexivity|discriminate]| |].
    + constructor; [|constructor]. apply lit_num; [reflexivity|discriminate].
    + reflexivity.
  - apply asks; try assumption; try discriminate; [apply lit_num; [reflexivity|discriminate]|apply version_read].
  - apply asks; try assumption; try discriminate; [apply lit_num; [reflexivity|discriminate]|apply version_read].
  - apply asks; try assumption; try discriminate; [apply lit_num; [reflexivity|discriminate]|apply version_read].
  - apply asks; try assumption; try discriminate; [apply lit_num; [reflexivity|discriminate]|alldec|].
    destruct (fixed_number 2 ds d ltac:(lia) H) as [A1 B1]. destruct (fixed_number 2 hs h ltac:(lia) H0) as [A2 B2].
    destruct (fixed_number 2 ms m ltac:(lia) H1) as [A3 B3]. destruct (fixed_number 2 ss s ltac:(lia) H2) as [A4 B4].
    pose proof (fixed2_small _ _ H). pose proof (fixed2_small _ _ H0). pose proof (fixed2_small _ _ H1). pose proof (fixed2_small _ _ H2).
    rewrite (uptime_read _ _ _ _ _ _ _ _ [] A1 A2 A3 A4). rewrite !Z2N.id by assumption.
    destruct (Z.ltb_spec (86400 * d + 3600 * h + 60 * m + s) (86400 * 1000000000)); [reflexivity|lia].
  - apply asks; try assumption; try discriminate; [apply lit_num; [reflexivity|discriminate]| |apply datetime_read; assumption].
    alldec. eapply zone_num; eassumption.
  - destruct (amount_ask _ _ _ H) as (dim & -> & E & T & G & S). eapply asks_energy; try eassumption; [discriminate|constructor; [assumption|constructor]|].
    apply float_is; assumption.
  - apply (asks_energy it _ (lit "71")); try assumption; try reflexivity; try discriminate; try (apply lit_groups; [reflexivity|discriminate]).
    + apply (de_tag ACTUATORS_INFO).
    + repeat match goal with H : Forall _ (_ :: _) |- _ => inversion H; clear H; subst end.
      repeat (apply Forall_cons; [split; [constructor; [assumption|constructor]|discriminate]|]). constructor.
    + inversion H0; subst. apply actuator_documented_fails; [reflexivity|constructor; [assumption|constructor]].
  - destruct (totalizer_dim n H) as [E T]. pose proof H1 as [D1 N1].
    destruct (number_field _ _ H6) as (F1 & L1 & M1). destruct (number_field _ _ H7) as (F2 & L2 & M2). destruct (number_field _ _ H8) as (F3 & L3 & M3).
    destruct (number_field _ _ H9) as (F4 & L4 & M4). destruct (number_field _ _ H10) as (F5 & L5 & M5).
    eapply asks_energy; try eassumption; [|exists 55, (50 :: 35 :: dec n); split; [reflexivity|discriminate]|discriminate| |].
    + exists (lit "72"), [dec n]. split; [unfold with_params; cbn; rewrite ?app_nil_r; reflexivity|].
      split; [apply digits_all; reflexivity|]. split; [|discriminate]. constructor; [apply dec_num|constructor].
    + alldec.
    + rewrite (totalizer_read e ds ms ys hs mis [] (Z.of_N y) (Z.of_N mo) (Z.of_N d) (Z.of_N h) (Z.of_N mi)); try assumption; try lia.
      * repeat f_equal. eapply reads_unique; [apply float_reads|eassumption].
      * repeat (constructor; [assumption|]). constructor.
  - apply (asks_energy it _ (lit "73")); try assumption; try reflexivity; try discriminate; try (apply lit_groups; [reflexivity|discriminate]).
    + apply (de_tag DIFFERENTIAL_CURRENT_LEVEL).
    + alldec.
    + unfold int0. cbn [index nth_error bind]. apply number_int, dec_number. lia.
  - apply stop_go_hears; assumption.
  - apply bit_hears; assumption.
Qed.
