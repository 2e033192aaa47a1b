(** * The exceptions of each method: no others, the methods *)
From Coq Require Import String List NArith ZArith Bool Lia.
From Verif Require Import PyStr Tags Messages SpecMsg SpecTag MessageFacts MessageThms MessageThms2 TagThms IO Client Items ItemThms LightThms Lighting PyDate SpecGateway Gateway
  GatewayThms PyFloat Energy SpecEnergy EnergyThms EnergyThms2 SpecRaise RaiseThms.
Import ListNotations.
Open Scope N_scope.
Open Scope list_scope.

Ltac inc := intros ? HH; cbn [app In common raises] in *; tauto.

Lemma incl_common k : incl common (raises k).
Proof. intros e H. apply in_or_app. left. exact H. Qed.

Lemma bad_time es vs : In ValueError es -> In OverflowError es -> bad es (time_of vs).
Proof.
  intros V O. unfold time_of. destruct vs as [|a [|b [|c [|d [|]]]]]; try (apply bad_err, V).
  repeat (apply bad_bind; [apply bad_int, V|intros ? _]). apply bad_bind; [apply bad_zone, V|intros ? _].
  unfold mk_time. apply bad_bind; [apply bad_c_ints, O|intros ? _]. apply bad_if; [apply bad_ok|apply bad_err, V].
Qed.
Lemma bad_date es vs : In ValueError es -> In OverflowError es -> bad es (date_of vs).
Proof.
  intros V O. unfold date_of. destruct vs as [|a [|b [|c [|d [|]]]]]; try (apply bad_err, V).
  repeat (apply bad_bind; [apply bad_int, V|intros ? _]).
  unfold mk_date. apply bad_bind; [apply bad_c_ints, O|intros ? _]. apply bad_if; [apply bad_ok|apply bad_err, V].
Qed.
Lemma bad_mk_datetime es y mo d h m s off : In ValueError es -> In OverflowError es -> bad es (mk_datetime y mo d h m s off).
Proof.
  intros V O. unfold mk_datetime. apply bad_bind; [apply bad_c_ints, O|intros ? _]. apply bad_if; [|apply bad_err, V]. apply bad_if; [apply bad_ok|apply bad_err, V].
Qed.
Lemma bad_nth_int es (vs : list str) i : In ValueError es -> In IndexError es -> bad es (bind (index vs i) py_int).
Proof. intros V X. apply bad_bind; [apply bad_index, X|intros ? _; apply bad_int, V]. Qed.
Lemma bad_datetime es vs : In ValueError es -> In OverflowError es -> In IndexError es -> bad es (datetime_of vs).
Proof.
  intros V O X. unfold datetime_of. do 3 (apply bad_bind; [apply bad_nth_int; assumption|intros ? _]). apply bad_bind; [apply bad_index, X|intros ? _].
  do 3 (apply bad_bind; [apply bad_nth_int; assumption|intros ? _]). apply bad_bind; [apply bad_zone, V|intros ? _]. apply bad_mk_datetime; assumption.
Qed.
Lemma bad_uptime es vs : In ValueError es -> In OverflowError es -> In IndexError es -> bad es (uptime_of vs).
Proof.
  intros V O X. unfold uptime_of, mk_timedelta. do 4 (apply bad_bind; [apply bad_nth_int; assumption|intros ? _]). apply bad_if; [apply bad_ok|apply bad_err, O].
Qed.
Lemma bad_dotted es vs : In ValueError es -> bad es (dotted_of vs).
Proof.
  intros V. unfold dotted_of. destruct vs as [|a [|b [|c [|d [|]]]]]; try (apply bad_err, V).
  do 4 (apply bad_bind; [apply bad_int, V|intros ? _]). do 4 (apply bad_bind; [apply bad_str_int, V|intros ? _]). apply bad_ok.
Qed.
Lemma bad_mac es vs : In ValueError es -> bad es (mac_of vs).
Proof. intros V. unfold mac_of. destruct vs as [|a [|b [|c [|d [|e [|f [|]]]]]]]; try (apply bad_err, V). apply bad_ok. Qed.
Lemma bad_version es vs : In IndexError es -> bad es (version_of vs).
Proof. intros X. unfold version_of. do 3 (apply bad_bind; [apply bad_index, X|intros ? _]). apply bad_ok. Qed.
Lemma bad_float0 es vs : In IndexError es -> In ValueError es -> bad es (float0 vs).
Proof. intros X V. unfold float0. apply bad_bind; [apply bad_index, X|intros ? _; apply bad_float, V]. Qed.
Lemma bad_int0 es vs : In IndexError es -> In ValueError es -> bad es (int0 vs).
Proof. intros X V. unfold int0. apply bad_bind; [apply bad_index, X|intros ? _; apply bad_int, V]. Qed.
Lemma bad_char0 es vs i : In IndexError es -> In ValueError es -> bad es (char0 vs i).
Proof. intros X V. unfold char0. do 2 (apply bad_bind; [apply bad_index, X|intros ? _]). apply bad_int, V. Qed.
Lemma bad_flag0 es vs i : In IndexError es -> In ValueError es -> bad es (flag0 vs i).
Proof. intros X V. unfold flag0. apply bad_bind; [apply bad_char0; assumption|intros ? _; apply bad_ok]. Qed.
Lemma bad_actuator es vs : In IndexError es -> In ValueError es -> bad es (actuator_of vs).
Proof.
  intros X V. unfold actuator_of. do 5 (apply bad_bind; [apply bad_flag0; assumption|intros ? _]). apply bad_bind; [apply bad_char0; assumption|intros ? _]. apply bad_ok.
Qed.
Lemma bad_totalizer es vs : In IndexError es -> In ValueError es -> In OverflowError es -> bad es (totalizer_of vs).
Proof.
  intros X V O. unfold totalizer_of. apply bad_bind; [apply bad_float0; assumption|intros ? _]. do 5 (apply bad_bind; [apply bad_index, X|intros ? _]).
  do 5 (apply bad_bind; [apply bad_int, V|intros ? _]). apply bad_bind; [apply bad_mk_datetime; assumption|intros ? _]. apply bad_ok.
Qed.
Lemma bad_update es d z st : In InvalidMessage es -> bad es (status_update d z st).
Proof. intros M. unfold status_update. repeat (apply bad_if; [apply bad_ok|]). apply bad_err, M. Qed.
Lemma bad_updates es us st : In InvalidMessage es -> bad es st ->
  bad es (fold_left (fun s u => do st <- s; status_update (fst u) (snd u) st) us st).
Proof.
  intros M. revert st. induction us as [|u us IH]; intros st B; [exact B|]. cbn [fold_left]. apply IH. apply bad_bind; [exact B|intros ? _; apply bad_update, M].
Qed.

(** ** Bodies of loops *)

Lemma bad_ints es n m : In IndexError es -> In ValueError es -> is_dimres m = true -> bad es (ints_body n m).
Proof.
  intros X V E. destruct (dimres_values m E) as (w & a & d & vs & ->). unfold ints_body. cbn [get_values get_where msg_where bind].
  apply bad_bind; [|intros ? _; apply bad_ok]. apply bad_mapM. intros i. unfold int_value. apply bad_bind; [apply bad_index, X|intros ? _; apply bad_int, V].
Qed.
Lemma normal_fields m : is_normal m = true -> exists w a b, m = MNormal w a b.
Proof. destruct m; try discriminate. intros _. repeat eexists. Qed.

(** ** Tags *)

Lemma de_tagtext d : tagtext (de_str d).
Proof. apply (proj1 (mk_ok _)). destruct d; reflexivity. Qed.
Lemma we_tagtext w : tagtext (we_str w).
Proof. apply (proj1 (mk_ok _)). destruct w; reflexivity. Qed.

Lemma make_tag a t : tag_make a = Ok t -> tagtext t.
Proof.
  unfold tag_make. destruct (py_str a) as [s|]; [|discriminate]. cbn [bind]. destruct (is_valid_tag s) eqn:V; [|discriminate]. intros [= <-]. apply tagtext_valid, V.
Qed.
Lemma param_tag s p t : with_parameter s p = Ok t -> tagtext t.
Proof. unfold with_parameter. destruct (py_str p); [|discriminate]. cbn [bind]. apply make_tag. Qed.
Lemma enum_tag s vs t : enum_of vs s = Ok t -> Forall tagtext vs -> tagtext t.
Proof.
  unfold enum_of. destruct (str_in s vs) eqn:E; [|discriminate]. intros [= <-] F. rewrite Forall_forall in F. apply F, str_in_spec, E.
Qed.
Lemma light_values : Forall tagtext what_light_values.
Proof. unfold what_light_values. cbn [map]. repeat (apply Forall_cons; [apply (proj1 (mk_ok _)); reflexivity|]). apply Forall_nil. Qed.
Lemma enum_param_tag s p t : enum_with_parameter what_light_values s p = Ok t -> tagtext t.
Proof. unfold enum_with_parameter. destruct (py_str_int p); [|discriminate]. cbn [bind]. intros H. eapply enum_tag; [exact H|apply light_values]. Qed.
Lemma bad_enum_param es s p : In ValueError es -> bad es (enum_with_parameter what_light_values s p).
Proof. intros V. unfold enum_with_parameter. apply bad_bind; [apply bad_str_int, V|intros ? _; apply bad_enum, V]. Qed.

Lemma tagtext_lit (s : string) : mk (lit s) = Ok (lit s) -> tagtext (lit s).
Proof. apply mk_ok. Qed.

(** [Value(n)] of a number that is not negative and not too long. *)
Lemma bad_value es z : (0 <= z)%Z -> In ValueError es -> bad es (value_int z).
Proof.
  intros P V. unfold value_int, tag_make. apply bad_bind; [apply bad_str_int, V|]. intros s E. cbn [py_str] in E. unfold py_str_int in E.
  destruct (_ <? _); [discriminate|]. replace (z <? 0)%Z with false in E by lia. injection E as <-.
  assert (T : tagtext (dec (Z.abs_N z))) by (eapply Forall_impl; [|apply digits_all, dec_digits]; intros c H; left; exact H).
  apply tagtext_valid in T. rewrite T. apply bad_ok.
Qed.

Ltac lits := apply (proj1 (mk_ok _)); reflexivity.
Ltac member := cbn [app In common raises]; tauto.

Section All.
Context {Y : Type} (it : item) (Hp : placed it).

Lemma may_speed es w v : incl common es -> In ValueError es -> tagtext w -> may (Y:=Y) es (fun _ => True) (dimmer_speed it w v).
Proof.
  intros C V T. unfold dimmer_speed. destruct v as [v|]; [|apply may_normal; auto].
  destruct (_ || _); [apply may_raise, V|]. eapply may_bind; [apply may_lift, bad_enum_param, V|]. intros t E. cbn beta in E.
  apply may_normal; try assumption. right. eapply enum_param_tag, E.
Qed.
Lemma may_step es w v sp : incl common es -> In ValueError es -> tagtext w -> may (Y:=Y) es (fun _ => True) (dimmer_step it w v sp).
Proof.
  intros C V T. unfold dimmer_step. destruct (match v with Some _ => _ | None => _ end); [apply may_raise, V|].
  eapply may_bind; [apply may_lift; destruct v; [apply bad_enum_param, V|apply bad_ok]|]. intros t E. cbn beta in E.
  assert (T1 : tagtext t) by (destruct v; [eapply enum_param_tag, E|injection E as <-; exact T]).
  eapply may_bind; [apply may_lift; destruct sp; [apply bad_enum_param, V|apply bad_ok]|]. intros t' E'. cbn beta in E'.
  assert (T2 : tagtext t') by (destruct sp; [eapply enum_param_tag, E'|injection E' as <-; exact T1]).
  apply may_normal; auto.
Qed.

Lemma value_tag z t : value_int z = Ok t -> tagtext t.
Proof. apply make_tag. Qed.

Ltac val := eapply may_bind; [apply may_lift|intros ? ?]; cbn beta in *.
Ltac tags := repeat match goal with
  | H : value_int _ = Ok ?t |- _ => lazymatch goal with K : tagtext t |- _ => fail | _ => pose proof (value_tag _ _ H) end
  | H : tag_make _ = Ok ?t |- _ => lazymatch goal with K : tagtext t |- _ => fail | _ => pose proof (make_tag _ _ H) end
  | H : with_parameter _ _ = Ok ?t |- _ => lazymatch goal with K : tagtext t |- _ => fail | _ => pose proof (param_tag _ _ _ H) end
  end.
Ltac listed := repeat (apply Forall_cons; [assumption|]); apply Forall_nil.

Lemma may_temporization es h m s : incl common es -> In ValueError es -> In InvalidTag es -> may (Y:=Y) es (fun _ => True) (temporization_command it h m s).
Proof.
  intros C V T. unfold temporization_command. destruct (_ || _); [apply may_raise, V|].
  val; [apply bad_make; assumption|]. val; [apply bad_make; assumption|]. val; [apply bad_make; assumption|]. tags.
  apply may_writing; auto; listed.
Qed.
Lemma may_brightness es b v : incl common es -> In ValueError es -> In InvalidTag es -> may (Y:=Y) es (fun _ => True) (set_brightness_with_speed it b v).
Proof.
  intros C V T. unfold set_brightness_with_speed. val; [apply bad_make; assumption|]. val; [apply bad_make; assumption|]. tags.
  apply may_writing; auto; listed.
Qed.
Lemma may_hsv es h s v : incl common es -> In ValueError es -> may (Y:=Y) es (fun _ => True) (set_hsv it h s v).
Proof.
  intros C V. unfold set_hsv.
  destruct ((h <? 0) || (359 <? h))%Z eqn:E1; [apply may_raise, V|]. destruct ((s <? 0) || (100 <? s))%Z eqn:E2; [apply may_raise, V|].
  destruct ((v <? 0) || (100 <? v))%Z eqn:E3; [apply may_raise, V|]. apply orb_false_iff in E1, E2, E3.
  val; [apply bad_value; [lia|exact V]|]. val; [apply bad_value; [lia|exact V]|]. val; [apply bad_value; [lia|exact V]|]. tags.
  apply may_writing; auto; try (right; lits); listed.
Qed.
Lemma may_white es t : incl common es -> In ValueError es -> may (Y:=Y) es (fun _ => True) (set_white_temperature it t).
Proof.
  intros C V. unfold set_white_temperature. destruct ((t <? 1) || (65534 <? t))%Z eqn:E; [apply may_raise, V|]. apply orb_false_iff in E.
  val; [apply bad_value; [lia|exact V]|]. tags. apply may_writing; auto; try (right; lits); listed.
Qed.

Lemma may_camera es w : incl common es -> tagtext w -> may (Y:=Y) es (fun _ => True) (send_command_without_where it w).
Proof.
  intros C T. unfold send_command_without_where. apply may_ask; [exact C|]. split; [|intros l [= <-]; discriminate].
  constructor; [|constructor; [exact T|constructor]]. apply (proj1 (mk_ok _)). destruct (it_who it); reflexivity.
Qed.
Lemma dial_total x y : (1 <= x < 5)%Z -> (1 <= y < 5)%Z -> exists w, dial_get x y = Ok w /\ tagtext w.
Proof.
  intros X Z.
  assert (x = 1 \/ x = 2 \/ x = 3 \/ x = 4)%Z as [-> |[-> |[-> | ->]]] by lia; assert (y = 1 \/ y = 2 \/ y = 3 \/ y = 4)%Z as [-> |[-> |[-> | ->]]] by lia;
    (eexists; split; [reflexivity|lits]).
Qed.
Lemma may_dial es x y : incl common es -> In ValueError es -> may (Y:=Y) es (fun _ => True) (display_dial it x y).
Proof.
  intros C V. unfold display_dial. destruct (_ || _) eqn:E; [apply may_raise, V|]. apply orb_false_iff in E as [E1 E2].
  apply negb_false_iff, andb_true_iff in E1, E2. destruct (dial_total x y) as (w & W & T); [lia|lia|]. rewrite W.
  val; [apply bad_ok|]. injection H as <-. apply may_camera; assumption.
Qed.

Lemma fmt_tagtext k n : tagtext (fmt k n).
Proof. apply mk_ok, mk_fmt. Qed.
Lemma bad_tz es tz : In ValueError es -> bad es (tz_to_own_tz tz).
Proof. intros V. destruct tz; try (apply bad_err, V). rewrite tz_sent. apply bad_ok. Qed.
Lemma tz_tag tz t : tz_to_own_tz tz = Ok t -> tagtext t.
Proof. destruct tz; try discriminate. cbn [tz_to_own_tz]. intros H. apply make_tag in H. exact H. Qed.

Lemma may_set_time es h m s tz : incl common es -> In ValueError es -> may (Y:=Y) es (fun _ => True) (set_time it h m s tz).
Proof.
  intros C V. unfold set_time. rewrite !mk_fmt. val; [apply bad_tz, V|]. apply tz_tag in H.
  do 3 (val; [apply bad_ok|]). repeat match goal with E : Ok _ = Ok _ |- _ => injection E as <- end.
  apply may_writing; auto; try (right; lits). repeat (apply Forall_cons; [first [assumption|apply fmt_tagtext]|]). apply Forall_nil.
Qed.
Lemma may_set_date es dt : incl common es -> may (Y:=Y) es (fun _ => True) (set_date it dt).
Proof.
  intros C. unfold set_date. destruct dt as [[y m] d]. rewrite !mk_fmt. do 3 (val; [apply bad_ok|]).
  val; [destruct (_ =? _)%Z; [|apply bad_ok]; apply bad_ok|].
  assert (T : tagtext a2) by (destruct (_ =? _)%Z in H2; injection H2 as <-; [lits|apply fmt_tagtext]).
  repeat match goal with E : Ok _ = Ok _ |- _ => injection E as <- end.
  apply may_writing; auto; try (right; lits). repeat (apply Forall_cons; [first [assumption|apply fmt_tagtext]|]). apply Forall_nil.
Qed.
Lemma may_set_datetime es dt h m s tz : incl common es -> In ValueError es -> may (Y:=Y) es (fun _ => True) (set_datetime it dt h m s tz).
Proof.
  intros C V. unfold set_datetime. destruct dt as [[y mo] d]. rewrite !mk_fmt. val; [apply bad_tz, V|]. apply tz_tag in H.
  do 6 (val; [apply bad_ok|]). repeat match goal with E : Ok _ = Ok _ |- _ => injection E as <- end.
  apply may_writing; auto; try (right; lits). repeat (apply Forall_cons; [first [assumption|apply fmt_tagtext]|]). apply Forall_nil.
Qed.

Lemma bad_energy_what es c : In ValueError es -> In InvalidTag es -> bad es (energy_what c).
Proof.
  intros V T. destruct c as [d m n1 n2|m n|m n|m n| |[t|]| |n| |]; cbn [energy_what]; unfold param;
    repeat first [apply bad_ok|apply bad_param; assumption|apply bad_bind; [|intros ? _]].
Qed.
Lemma energy_what_tag c t : energy_what c = Ok t -> tagtext t.
Proof.
  destruct c as [d m n1 n2|m n|m n|m n| |[x|]| |n| |]; cbn [energy_what]; unfold param;
    try (intros H; apply param_tag in H; exact H); try (intros [= <-]; apply we_tagtext).
  destruct (with_parameter _ _); [|discriminate]. cbn [bind]. intros H; apply param_tag in H; exact H.
Qed.
Lemma may_run_energy es c : incl common es -> In ValueError es -> In InvalidTag es -> may (Y:=Y) es (fun _ => True) (run_energy it c).
Proof.
  intros C V T. unfold run_energy. val; [apply bad_energy_what; assumption|]. apply may_normal; auto.
Qed.
Lemma may_plain_energy es c w : incl common es -> energy_what c = Ok w -> may (Y:=Y) es (fun _ => True) (run_energy it c).
Proof.
  intros C E. unfold run_energy. rewrite E. val; [apply bad_ok|]. injection H as <-. apply may_normal; auto. right. eapply energy_what_tag, E.
Qed.
Lemma may_power es p a : incl common es -> In ValueError es -> In InvalidTag es ->
  may (Y:=Y) es (fun _ => True) (let* d := lift (param (de_str END_AUTOMATIC_UPDATE_SIZE) p) in let* v := lift (tag_make a) in send_dimension_writing it d [v]).
Proof.
  intros C V T. val; [apply bad_param; assumption|]. val; [apply bad_make; assumption|]. tags. apply may_writing; auto; listed.
Qed.
End All.

Lemma may_request_status {Y} it d es : placed it -> incl common es -> In IndexError es -> In ValueError es -> In InvalidMessage es ->
  may (Y:=Y) es (fun _ => True) (request_status it d).
Proof.
  intros Hp C X V M. unfold request_status. eapply (may_bind _ (fun _ => True)).
  - intros s. pose proof (may_dim (Y:=str * Z) it Hp es C (de_str d) status_step (or_intror (de_tagtext d))) as D.
    assert (B : forall m, is_dimres m = true -> bad es (status_step m)).
    { intros m E. destruct (dimres_values m E) as (w & a & d' & vs & ->). unfold status_step. cbn [get_dimension get_values bind].
      apply bad_bind; [apply bad_int0; assumption|intros ? _]. apply bad_bind; [apply bad_update, M|intros ? _; apply bad_ok]. }
    specialize (D B s). unfold collect. destruct (send_dimension_request it (de_str d) status_step s) as [[l s'] [[]|e]]; exact D.
  - intros us _. eapply may_any, may_lift. apply bad_updates; [exact M|apply bad_ok].
Qed.

Theorem only_raises it k Y A (x : io Y A) : placed it -> runs it k Y A x -> forall s e, res_of (x s) = Err e -> In e (raises k).
Proof.
  intros Hp R s e E.
  assert (M : may (raises k) (fun _ => True) x); [|specialize (M s); rewrite E in M; exact M]. clear s e E.
  pose proof (incl_common k) as C.
  destruct R; try (apply may_speed; try assumption; [member|lits]); try (apply may_step; try assumption; [member|lits]);
    try (apply may_gateway; try assumption; intros vs);
    try (apply may_energy; try assumption; [apply bad_ok|right; intros ? [= <-]; apply de_tagtext|intros vs]);
    try (eapply may_plain_energy; [assumption|assumption|reflexivity]); try (apply may_run_energy; try assumption; member);
    try (apply may_dim; try assumption; [right; lits|intros m Em; apply bad_ints; [member|member|exact Em]]).
  - apply may_normal; try assumption. left. member.
  - apply may_status; try assumption. intros; apply bad_ok.
  - apply may_dim; try assumption; [left; member|intros; apply bad_ok].
  - apply may_writing; try assumption. left. member.
  - apply may_normal; try assumption. right. destruct c; lits.
  - apply may_normal; try assumption. right. destruct c; lits.
  - apply may_normal; try assumption. right. destruct c; lits.
  - apply may_temporization; try assumption; member.
  - apply may_brightness; try assumption; member.
  - apply may_hsv; try assumption; member.
  - apply may_white; try assumption; member.
  - apply may_status; try assumption. intros m Em. destruct (normal_fields m Em) as (w & a & b & ->). unfold light_status_body. cbn [get_what get_where msg_where bind].
    apply bad_if; [apply bad_ok|]. apply bad_if; apply bad_ok.
  - apply may_status; try assumption. intros m Em. destruct (normal_fields m Em) as (w & a & b & ->). unfold dimmer_status_body. cbn [get_what get_where msg_where bind].
    apply bad_bind; [apply bad_int; member|intros ? _; apply bad_ok].
  - apply may_normal; try assumption. right. destruct c; lits.
  - apply may_status; try assumption. intros m Em. destruct (normal_fields m Em) as (w & a & b & ->). unfold auto_status_body. cbn [get_what get_where msg_where bind].
    apply bad_bind; [apply bad_enum; member|intros ? _; apply bad_ok].
  - apply may_normal; try assumption. right. lits.
  - apply may_camera; try assumption. destruct c; lits.
  - apply may_dial; try assumption; member.
  - apply bad_time; member.
  - apply bad_date; member.
  - unfold ip_of. apply bad_bind; [apply bad_dotted; member|intros ? _; apply bad_ip; member].
  - apply bad_dotted; member.
  - apply bad_mac; member.
  - unfold get_netinfo. eapply (may_bind _ (fun _ => True)).
    + unfold get_ip. apply may_gateway; try assumption. intros vs. unfold ip_of. apply bad_bind; [apply bad_dotted; member|intros ? _; apply bad_ip; member].
    + intros ip _. eapply (may_bind _ (fun _ => True)); [unfold get_netmask; apply may_gateway; try assumption; intros vs; apply bad_dotted; member|].
      intros nm _. eapply may_any, may_lift. unfold ipv4_network. apply bad_bind; [apply bad_prefix; member|intros ? _; apply bad_ok].
  - unfold model_of. apply bad_bind; [apply bad_index; member|intros ? _; apply bad_ok].
  - apply bad_version; member.
  - apply bad_uptime; member.
  - apply bad_datetime; member.
  - apply bad_version; member.
  - apply bad_version; member.
  - apply may_set_time; try assumption; member.
  - apply may_set_date; assumption.
  - apply may_set_datetime; try assumption; member.
  - apply bad_float0; member.
  - apply bad_float0; member.
  - apply may_energy; try assumption.
    + unfold param. apply bad_bind; [apply bad_param; member|intros ? _; apply bad_param; member].
    + left. member.
    + intros vs. apply bad_float0; member.
  - apply bad_float0; member.
  - apply bad_float0; member.
  - apply bad_actuator; member.
  - apply may_energy; try assumption; [apply bad_param; member|left; member|intros vs; apply bad_totalizer; member].
  - apply bad_int0; member.
  - apply may_power; try assumption; member.
  - apply may_power; try assumption; member.
  - apply may_request_status; try assumption; member.
Qed.
