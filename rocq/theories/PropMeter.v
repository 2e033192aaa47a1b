(** * Property C108: sessions with the gateway's own data and energy meters *)
From Coq Require Import String List NArith ZArith Bool Lia.
From Verif Require Import PyStr PyDate PyFloat Tags Messages SpecMsg SpecTag MessageThms3 IO Client SpecItem Items Lighting SpecLight ItemThms LightThms2 SpecGateway CalendarThms GatewayThms
  Energy SpecEnergy FloatThms SpecHouse HouseThms HouseThms2 PropHouse SpecMeter MeterThms MeterThms2.
Import ListNotations.
Open Scope N_scope.
Open Scope list_scope.

(** Every sequence of calls, now also of the gateway item and of energy items:
    each does to the house what it stands for and returns what the first point
    aimed at that has the dimension says. *)
Theorem C108_story : forall gw h gs s log evs h' out',
  ggateway_ok gw -> ghouse_ok h -> Forall gcall_ok gs -> gsession gw h [] gs s log evs h' out' ->
  gstory gw h gs log evs h' /\ out' = [] /\ ghouse_ok h'.
Proof. intros gw h gs s log evs h' out' G H F S. exact (gsession_story gw h [] gs s log evs h' out' S G H F eq_refl). Qed.
Print Assumptions C108_story.

Theorem C108_possible : forall gw, ggateway_ok gw -> forall gs h, ghouse_ok h -> Forall gcall_ok gs ->
  exists ms log evs h', gsession gw h [] gs (map Some ms) log evs h' [].
Proof. exact gsession_exists. Qed.
Print Assumptions C108_possible.

(** What becomes of each point is decided by the calls that are aimed at it. *)
Theorem C108_points : forall gw h gs s log evs h' out',
  ggateway_ok gw -> ghouse_ok h -> Forall gcall_ok gs -> gsession gw h [] gs s log evs h' out' ->
  exists os, Forall2 gstands gs os /\ h' = map (life gw os) h.
Proof. intros. eapply gstory_lives, C108_story; eassumption. Qed.
Print Assumptions C108_points.

(** The date that was set is the date that is read, whatever else is done. *)
Theorem C108_date_back : forall gw h before it d between it' s log evs h' out',
  ggateway_ok gw -> ghouse_ok h -> Forall gcall_ok (before ++ GSetDate it d :: between ++ [GAsk it' QDate]) ->
  gsession gw h [] (before ++ GSetDate it d :: between ++ [GAsk it' QDate]) s log evs h' out' ->
  existsb (aimed gw GATEWAY (it_where it')) h = true ->
  (forall p, In p h -> aimed gw GATEWAY (it_where it') p = true -> aimed gw GATEWAY (it_where it) p = true) ->
  Forall no_set_date between ->
  last log ([], Ok ANothing) = ([], Ok (ADate d)).
Proof.
  intros gw h before it d between it' s log evs h' out' G H F S X C N.
  eapply (date_back gw h before it d between it'); [eapply C108_story; eassumption| |eassumption..].
  apply Forall_app in F as (_ & F). inversion F as [|? ? (_ & _ & _ & o & Ho) _]; subst. eauto.
Qed.
Print Assumptions C108_date_back.

(** The time as well, but for the time zone (C54). *)
Theorem C108_time_back : forall gw h before it hh m x us between it' s log evs h' out',
  ggateway_ok gw -> ghouse_ok h -> Forall gcall_ok (before ++ GSetTime it hh m x us :: between ++ [GAsk it' QTime]) ->
  gsession gw h [] (before ++ GSetTime it hh m x us :: between ++ [GAsk it' QTime]) s log evs h' out' ->
  existsb (aimed gw GATEWAY (it_where it')) h = true ->
  (forall p, In p h -> aimed gw GATEWAY (it_where it') p = true -> aimed gw GATEWAY (it_where it) p = true) ->
  Forall no_set_time between ->
  last log ([], Ok ANothing) = ([], Ok (ATime (the_time hh m x (zone_back us)))).
Proof.
  intros gw h before it hh m x us between it' s log evs h' out' G H F S X C N.
  eapply (time_back gw h before it hh m x us between it'); [eapply C108_story; eassumption| |eassumption..].
  apply Forall_app in F as (_ & F). inversion F as [|? ? (_ & _ & _ & o & Ho) _]; subst. eauto.
Qed.
Print Assumptions C108_time_back.

(** ** A house with its gateway and a meter *)

Definition own : point := {| p_who := GATEWAY; p_where := []; p_state := lit "0";
  p_dims := fun d => if str_eqb d (lit "1") then Some [lit "05"; lit "31"; lit "12"; lit "1999"]
                     else if str_eqb d (lit "10") then Some [lit "192"; lit "168"; lit "1"; lit "35"] else None |}.
Definition meter51 : point := {| p_who := ENERGY_MANAGEMENT; p_where := lit "51"; p_state := lit "0";
  p_dims := fun d => if str_eqb d (lit "113") then Some [lit "2500"] else None |}.
Definition house1 : house := [lamp11; own; meter51].

Lemma fixed_ex k (s : str) n : forallb is_digit s = true -> length s = k -> s <> [] -> n = Z.of_N (value_of 0 s) -> fixed k s n.
Proof. intros D L N V. split; [|exact L]. split; [apply digits_all, D|]. split; [lia|]. split; assumption. Qed.
Lemma number_ex (s : str) n : forallb is_digit s = true -> s <> [] -> value_of 0 s = n -> (length s <= 4300)%nat -> number s n.
Proof. intros D N V L. split; [apply digits_all, D|]. split; [exact N|]. split; [exact V|]. lia. Qed.

Lemma gw0_gok : ggateway_ok gw0.
Proof. split; [exact gw0_ok|]. intros what st W _. exact W. Qed.
Lemma house1_ok : ghouse_ok house1.
Proof.
  assert (N : forall d, d = lit "51" \/ d = [] -> ~ SpecProto.ends_hash d).
  { intros d [->| ->] (u & X); [|destruct u; discriminate]. apply (f_equal (fun l => last l 0)) in X. cbv beta in X. rewrite last_last in X. discriminate X. }
  unfold house1. apply Forall_cons; [|apply Forall_cons; [|apply Forall_cons; [|apply Forall_nil]]].
  - split; [exact (proj1 (proj1 (Forall_cons_iff _ _ _) house0_ok) : point_ok lamp11)|]. intros q vs _ E. discriminate E.
  - split.
    + split; [apply (wiretagb_spec []); reflexivity|]. split; [apply N; auto|]. split; [apply wiretagb_spec; reflexivity|]. split; discriminate.
    + intros q vs Eq E. unfold own in E. cbn [p_dims] in E. destruct (str_eqb (q_dim q) (lit "1")) eqn:E1.
      * injection E as <-. assert (q = QDate) as -> by (destruct q; try discriminate E1; reflexivity).
        split; [repeat (apply Forall_cons; [apply wiretagb_spec; reflexivity|]); apply Forall_nil|].
        exists (ADate (1999, 12, 31)%Z). apply Says_date.
        -- split; [lia|]. exists 31%Z. split; [apply ThirtyOne; cbn; tauto|lia].
        -- apply (fixed_short 2); [lia|]. apply fixed_ex; try reflexivity; discriminate.
        -- apply (fixed_short 2); [lia|]. apply fixed_ex; try reflexivity; discriminate.
        -- apply (fixed_short 4); [lia|]. apply fixed_ex; try reflexivity; discriminate.
      * destruct (str_eqb (q_dim q) (lit "10")) eqn:E2; [|discriminate]. injection E as <-. assert (q = QIp) as -> by (destruct q; try discriminate E2; reflexivity).
        split; [repeat (apply Forall_cons; [apply wiretagb_spec; reflexivity|]); apply Forall_nil|].
        exists (AIp (address 192 168 1 35)). apply Says_ip; try (apply number_ex; [reflexivity|discriminate|reflexivity|cbn; lia]). unfold octets. lia.
  - split.
    + split; [apply wiretagb_spec; reflexivity|]. split; [apply N; auto|]. split; [apply wiretagb_spec; reflexivity|]. split; discriminate.
    + intros q vs Eq E. unfold meter51 in E. cbn [p_dims] in E. destruct (str_eqb (q_dim q) (lit "113")) eqn:E1; [|discriminate].
      injection E as <-. assert (q = QPower) as -> by (destruct q; try discriminate E1; reflexivity).
      split; [repeat (apply Forall_cons; [apply wiretagb_spec; reflexivity|]); apply Forall_nil|].
      exists (AFloat (float_of_N 2500)). apply Says_float; [left; reflexivity|apply (digits_all (lit "2500")); reflexivity|discriminate|]. apply (float_reads 2500).
Qed.

Definition g_item : item := {| it_client := h_client; it_who := GATEWAY; it_where := [] |}.
Definition m_item : item := h_item ENERGY_MANAGEMENT "51".
Definition calls1 : list gcall :=
  [GSetDate g_item (2026, 11, 16)%Z; GCall (CLight (h_item LIGHTING "11") (LBase turn_on)); GAsk m_item QPower; GAsk g_item QIp;
   GEnergy m_item (reset_totalizers 1); GAsk m_item QLevel; GAsk g_item QDate].
Lemma calls1_ok : Forall gcall_ok calls1.
Proof.
  assert (R : ready g_item /\ ready m_item /\ ready (h_item LIGHTING "11")) by (repeat split; discriminate).
  destruct R as (R1 & R2 & R3).
  assert (W1 : wiretag (it_where g_item)) by (apply (wiretagb_spec []); reflexivity).
  assert (W2 : wiretag (it_where m_item)) by (apply (wiretagb_spec (lit "51")); reflexivity).
  assert (W3 : wiretag (it_where (h_item LIGHTING "11"))) by (apply (wiretagb_spec (lit "11")); reflexivity).
  apply Forall_cons; [|apply Forall_cons; [|apply Forall_cons; [|apply Forall_cons; [|apply Forall_cons; [|apply Forall_cons; [|apply Forall_cons; [|apply Forall_nil]]]]]]].
  - split; [exact R1|]. split; [exact W1|]. split; [reflexivity|].
    assert (C : calendar_date (2026, 11, 16)%Z) by (split; [lia|]; exists 30%Z; split; [apply Thirty; cbn; tauto|lia]).
    eexists. apply (G_date g_item 2026 11 16 1 (lit "01") (lit "16") (lit "11") (lit "2026")); [exact C| | | | |].
    + apply weekday_true; [exact C|]. vm_compute. reflexivity.
    + apply fixed_ex; try reflexivity; discriminate.
    + apply fixed_ex; try reflexivity; discriminate.
    + apply fixed_ex; try reflexivity; discriminate.
    + apply TagThms.numeral_dec. vm_compute. reflexivity.
  - split; [exact R3|]. split; [exact W3|]. split; [reflexivity|]. eexists. apply G_call. apply (F_light _ _ 1). reflexivity.
  - split; [exact R2|]. split; [exact W2|]. split; [reflexivity|]. eexists. apply G_ask.
  - split; [exact R1|]. split; [exact W1|]. split; [reflexivity|]. eexists. apply G_ask.
  - split; [exact R2|]. split; [exact W2|]. split; [reflexivity|]. eexists. apply G_energy; [|reflexivity]. apply (Doc_reset 1 (lit "1")).
    split; [apply TagThms.numeral_dec; reflexivity|]. cbn. lia.
  - split; [exact R2|]. split; [exact W2|]. split; [reflexivity|]. eexists. apply G_ask.
  - split; [exact R1|]. split; [exact W1|]. split; [reflexivity|]. eexists. apply G_ask.
Qed.

(** Such a session exists, and the date at its end is the one that was set. *)
Example C108_ex : exists ms log evs h', gsession gw0 house1 [] calls1 (map Some ms) log evs h' [] /\
  last log ([], Ok ANothing) = ([], Ok (ADate (2026, 11, 16)%Z)).
Proof.
  destruct (C108_possible gw0 gw0_gok calls1 house1 house1_ok calls1_ok) as (ms & log & evs & h' & S).
  exists ms, log, evs, h'. split; [exact S|].
  apply (C108_date_back gw0 house1 [] g_item (2026, 11, 16)%Z
    [GCall (CLight (h_item LIGHTING "11") (LBase turn_on)); GAsk m_item QPower; GAsk g_item QIp; GEnergy m_item (reset_totalizers 1); GAsk m_item QLevel]
    g_item (map Some ms) log evs h' [] gw0_gok house1_ok calls1_ok S); [reflexivity|auto|].
  repeat (apply Forall_cons; [intros it d; discriminate|]). apply Forall_nil.
Qed.

(** The programs themselves: power, and an hour that comes back without its
    zone. *)
Example C108_power_ex :
  gprogram (GAsk m_item QPower) [Some (MDimRes ENERGY_MANAGEMENT (lit "51") (lit "113") [lit "2500"]); Some MAck] =
    ([Sent (lit "*#18*51*113##"); Got (MDimRes ENERGY_MANAGEMENT (lit "51") (lit "113") [lit "2500"]); Got MAck], [], Ok (AFloat (Fin 2500))).
Proof. vm_compute. reflexivity. Qed.
Example C108_zone_ex : zone_back (3600 * 1000000) = 0%Z /\ zone_back (- 5 * 3600 * 1000000) = (-1)%Z.
Proof. split; reflexivity. Qed.
