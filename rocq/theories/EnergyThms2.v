(** * Theorems about energy items: commands, requests, the Stop&Go status *)
From Coq Require Import String List NArith ZArith Bool Lia.
From Verif Require Import PyStr PyDate PyFloat Tags Messages SpecMsg SpecTag MessageThms TagThms MessageThms3 IO Client SpecItem Items
  HandshakeThms ItemThms ItemThms2 LightThms2 SpecGateway CalendarThms GatewayThms Energy SpecEnergy FloatThms EnergyThms.
Import ListNotations.
Open Scope N_scope.
Open Scope list_scope.

Notation out := (list (ev Empty_set) * script * res unit)%type.

(** ** Parameters *)

Lemma shown_str n t : shown n t -> py_str_int (Z.of_N n) = Ok t /\ digits t.
Proof.
  intros [H L]. apply numeral_dec in H. subst t. unfold py_str_int. rewrite Zabs2N.id.
  unfold int_max_str_digits, slen. rewrite (proj2 (N.ltb_ge _ _)) by exact L. rewrite (proj2 (Z.ltb_ge _ _)) by lia.
  split; [reflexivity|]. apply LightThms2.digits_all, dec_digits.
Qed.

Lemma hash_tag a b : tagtext a -> tagtext b -> tagtext (a ++ 35 :: b).
Proof. intros Ha Hb. apply Forall_app. split; [exact Ha|]. constructor; [right; reflexivity|exact Hb]. Qed.

Lemma with_int s n t : tagtext s -> shown n t -> with_parameter s (AInt (Z.of_N n)) = Ok (s ++ 35 :: t).
Proof.
  intros Hs Ht. destruct (shown_str n t Ht) as [E D]. unfold with_parameter. cbn [py_str]. rewrite E. cbn [bind].
  apply mk_ok. apply hash_tag; [exact Hs|apply digits_tag, D].
Qed.

Lemma with_negative s z : (z < 0)%Z -> printable_int (Z.abs_N z) -> with_parameter s (AInt z) = Err InvalidTag.
Proof.
  intros Hz Hp. apply printable_dec in Hp. unfold with_parameter. cbn [py_str]. unfold py_str_int.
  rewrite (proj2 (N.ltb_ge _ _)) by exact Hp. rewrite (proj2 (Z.ltb_lt _ _)) by lia. cbn [bind].
  destruct (mk_cases (s ++ [c_hash] ++ [c_minus] ++ dec (Z.abs_N z))) as [[_ H]|[H _]]; [|exact H].
  exfalso. apply Forall_app in H as [_ H]. cbn [app] in H. inversion H as [|? ? _ H1]; subst. inversion H1 as [|? ? H2 _]; subst.
  destruct H2 as [H2|H2]; [unfold digitchar, c_minus in H2; lia|discriminate].
Qed.

Lemma shown_tag n t : shown n t -> tagtext t.
Proof. intros H. apply digits_tag. apply (shown_str n t H). Qed.

Lemma chosen_now a now n : chosen a now n -> or_now a now = Z.of_N n.
Proof. intros []; reflexivity. Qed.

Lemma parts_same (d : date) : year_of d = the_year d /\ month_of d = the_month d /\ day_of d = the_day d.
Proof. repeat split. Qed.
Ltac parts := repeat match goal with
  | |- context [year_of ?d] => rewrite (proj1 (parts_same d))
  | |- context [month_of ?d] => rewrite (proj1 (proj2 (parts_same d)))
  | |- context [day_of ?d] => rewrite (proj2 (proj2 (parts_same d)))
  end.

Lemma we_tag w : tagtext (we_str w).
Proof. apply tagtext_valid. destruct w; reflexivity. Qed.
Lemma de_tag d : tagtext (de_str d).
Proof. apply tagtext_valid. destruct d; reflexivity. Qed.

(** ** Commands *)

Definition is_daily (c : energy_cmd) : Prop :=
  match c with start_sending_daily_totalizers_hourly _ _ _ _ => True | _ => False end.

Lemma what_documented c w : documented c w -> ~ is_daily c -> energy_what c = Ok w /\ tagtext w.
Proof.
  intros H D.
  assert (G : energy_what c = Ok w).
  { destruct H; try reflexivity; try (exfalso; apply D; exact I); unfold energy_what, param; parts;
      try (rewrite (chosen_now _ _ _ H)); erewrite with_int; try reflexivity; try eassumption; apply we_tag. }
  split; [exact G|].
  destruct H; try (apply tagtext_valid; reflexivity); try (exfalso; apply D; exact I);
    (apply Forall_app; split; [apply tagtext_valid; reflexivity|eapply shown_tag; eassumption]).
Qed.

Theorem energy_answered it c w (s : script) :
  ready it -> placed it -> documented c w -> ~ is_daily c ->
  answered (frame_cmd (it_who it) w (it_where it)) s (run_energy it c s : out).
Proof.
  intros Hr Hp H D. destruct (what_documented c w H D) as [E T]. unfold run_energy. rewrite E, andthen_lift.
  apply command_answered; assumption.
Qed.

(** The daily report: day and month the wrong way round. *)
Theorem daily_answered it day month n1 n2 d m ds ms (s : script) :
  ready it -> placed it -> chosen day (the_day n1) d -> chosen month (the_month n2) m -> shown d ds -> shown m ms ->
  answered (frame_cmd (it_who it) (lit "57#" ++ ds ++ lit "#" ++ ms) (it_where it)) s
    (run_energy it (start_sending_daily_totalizers_hourly day month n1 n2) s : out).
Proof.
  intros Hr Hp C1 C2 S1 S2. unfold run_energy, energy_what, param. parts.
  rewrite (chosen_now _ _ _ C1), (chosen_now _ _ _ C2).
  rewrite (with_int _ _ _ (we_tag _) S1). cbn [bind].
  rewrite (with_int _ _ ms); [|apply hash_tag; [apply we_tag|eapply shown_tag, S1]|exact S2].
  rewrite andthen_lift.
  change (lit "57#" ++ ds ++ lit "#" ++ ms) with (we_str SEND_DAILY_REPORT ++ 35 :: (ds ++ 35 :: ms)).
  replace ((we_str SEND_DAILY_REPORT ++ 35 :: ds) ++ 35 :: ms) with (we_str SEND_DAILY_REPORT ++ 35 :: (ds ++ 35 :: ms))
    by (rewrite <- app_assoc; reflexivity).
  apply command_answered; [assumption|assumption|]. apply hash_tag; [apply we_tag|].
  apply hash_tag; eapply shown_tag; eassumption.
Qed.

Lemma shown_inj a b t : shown a t -> shown b t -> a = b.
Proof. intros [Ha _] [Hb _]. apply numeral_dec in Ha, Hb. apply dec_inj. congruence. Qed.

Lemma hash_split a b c d : nohash a -> nohash c -> a ++ 35 :: b = c ++ 35 :: d -> a = c /\ b = d.
Proof.
  revert c. induction a as [|x a IH]; intros [|y c] Ha Hc E.
  - cbn in E. split; congruence.
  - cbn in E. exfalso. apply Hc. left. congruence.
  - cbn in E. exfalso. apply Ha. left. congruence.
  - cbn in E. destruct (IH c) as [-> ->]; [intros H; apply Ha; right; exact H|intros H; apply Hc; right; exact H|congruence|].
    split; congruence.
Qed.

(** What is sent is the documented command exactly when day and month are the
    same number. *)
Theorem daily_documented day month n1 n2 d m ds ms :
  chosen day (the_day n1) d -> chosen month (the_month n2) m -> shown d ds -> shown m ms ->
  (documented (start_sending_daily_totalizers_hourly day month n1 n2) (lit "57#" ++ ds ++ lit "#" ++ ms) <-> d = m).
Proof.
  intros C1 C2 S1 S2. split.
  - remember (start_sending_daily_totalizers_hourly day month n1 n2) as c eqn:Ec.
    remember (lit "57#" ++ ds ++ lit "#" ++ ms) as w eqn:Ew. intros H.
    destruct H as [day' month' n1' n2' d' m' ds' ms' D1 D2 T1 T2| | | | | | | | | |]; try discriminate Ec.
    injection Ec as -> -> -> ->.
    assert (d' = d) as -> by (apply chosen_now in C1, D1; lia). assert (m' = m) as -> by (apply chosen_now in C2, D2; lia).
    assert (E6 : ms' ++ 35 :: ds' = ds ++ 35 :: ms) by (cbn in Ew; congruence).
    apply hash_split in E6 as [-> _]; [|apply digits_nohash35, (shown_str _ _ T2)|apply digits_nohash35, (shown_str _ _ S1)].
    exact (shown_inj _ _ _ S1 T2).
  - intros ->. assert (ds = ms) as ->.
    { destruct S1 as [S1 _], S2 as [S2 _]. apply numeral_dec in S1, S2. congruence. }
    econstructor; eassumption.
Qed.

(** Negative numbers are refused before anything is written. *)
Definition negative_arg (z : Z) (c : energy_cmd) : Prop :=
  (exists now, In c [start_sending_monthly_average_hourly (Some z) now; start_sending_monthly_totalizers_current_year (Some z) now;
                     start_sending_monthly_totalizers_last_year (Some z) now]) \/
  In c [force_actuator_on (Some z); reset_totalizers z] \/
  (exists m n1 n2, c = start_sending_daily_totalizers_hourly (Some z) m n1 n2) \/
  (exists d t n1 n2, shown d t /\ c = start_sending_daily_totalizers_hourly (Some (Z.of_N d)) (Some z) n1 n2).

Theorem energy_refused it c z (s : script) :
  (z < 0)%Z -> printable_int (Z.abs_N z) -> negative_arg z c ->
  (run_energy it c s : out) = ([], s, Err InvalidTag).
Proof.
  intros Hz Hp H. unfold run_energy.
  assert (E : energy_what c = Err InvalidTag); [|rewrite E; reflexivity].
  destruct H as [(now & [<-|[<-|[<-|[]]]])|[[<-|[<-|[]]]|[(m & n1 & n2 & ->)|(d & t & n1 & n2 & Hd & ->)]]];
    unfold energy_what, param, or_now; try (rewrite with_negative by assumption; reflexivity).
  rewrite (with_int _ _ _ (we_tag _) Hd). cbn [bind]. apply with_negative; assumption.
Qed.

(** ** Instant power *)

Lemma tag_of_int n t : shown n t -> tag_make (AInt (Z.of_N n)) = Ok t.
Proof.
  intros [H L]. apply tag_int. split; [lia|]. rewrite N2Z.id. auto.
Qed.

Theorem start_power_answered it n p ns ps (s : script) :
  ready it -> placed it -> shown n ns -> shown p ps ->
  answered (frame_dimwri (it_who it) (it_where it) (lit "1200#" ++ ps) [ns]) s
    (start_sending_instant_power it (Z.of_N n) (Z.of_N p) s : out).
Proof.
  intros Hr Hp S1 S2. unfold start_sending_instant_power, param. rewrite (with_int _ _ _ (de_tag _) S2), andthen_lift.
  rewrite (tag_of_int n ns S1), andthen_lift. apply writing_answered; try assumption.
  - apply hash_tag; [apply de_tag|eapply shown_tag, S2].
  - constructor; [eapply shown_tag, S1|constructor].
Qed.

Theorem stop_power_answered it p ps (s : script) :
  ready it -> placed it -> shown p ps ->
  answered (frame_dimwri (it_who it) (it_where it) (lit "1200#" ++ ps) [lit "0"]) s
    (stop_sending_instant_power it (Z.of_N p) s : out).
Proof.
  intros Hr Hp S2. unfold stop_sending_instant_power, param. rewrite (with_int _ _ _ (de_tag _) S2), andthen_lift.
  change (tag_make (AInt 0)) with (Ok (lit "0")). rewrite andthen_lift. apply writing_answered; try assumption.
  - apply hash_tag; [apply de_tag|eapply shown_tag, S2].
  - constructor; [apply tagtext_valid; reflexivity|constructor].
Qed.

(** ** Requests *)

Lemma asked_energy {Y A} it dim d (decode : list str -> res A) vs s rest r :
  ready it -> placed it -> dim = Ok d -> tagtext d -> answers vs s rest -> decode vs = r ->
  got (Y:=Y) (ask_energy it dim decode s) (frame_dimreq (it_who it) (it_where it) d) rest r.
Proof.
  intros Hr Hp -> Hd (wh & b & dd & rs & Hrs & ->) <-.
  destruct (single_ok (Y:=Y) it d (MDimRes wh b dd vs) rs rest Hr Hp Hd) as (es & E & E1).
  - repeat eexists.
  - assumption.
  - unfold ask_energy. rewrite andthen_lift, (andthen_ok _ _ _ _ _ _ E). cbn [get_values bind]. unfold lift.
    split; [|split; reflexivity]. cbn [pre evs_of fst snd]. rewrite app_nil_r. exact E1.
Qed.

(** The requests for one number. *)
Inductive float_req :=
| R_power | R_total | R_month | R_day | R_per_month (month year : option Z) (now1 now2 : date).
Definition run_float {Y} (it : item) (q : float_req) : io Y pyfloat :=
  match q with
  | R_power => get_active_power it
  | R_total => get_energy_unit_totalizer it
  | R_month => get_partial_totalizer_current_month it
  | R_day => get_partial_totalizer_current_day it
  | R_per_month month year now1 now2 => get_energy_unit_per_month it month year now1 now2
  end.
Inductive float_dim : float_req -> str -> Prop :=
| FD_power : float_dim R_power (lit "113")
| FD_total : float_dim R_total (lit "51")
| FD_month : float_dim R_month (lit "53")
| FD_day : float_dim R_day (lit "54")
| FD_per_month month year n1 n2 m y ms ys :
    chosen month (the_month n1) m -> chosen year (the_year n2 mod 100) y -> shown m ms -> shown y ys ->
    float_dim (R_per_month month year n1 n2) (lit "52#" ++ ys ++ lit "#" ++ ms).

Lemma run_float_ask {Y} it q d : float_dim q d ->
  exists dim, (run_float (Y:=Y) it q = ask_energy it dim float0) /\ dim = Ok d /\ tagtext d.
Proof.
  intros [| | | |month year n1 n2 m y ms ys C1 C2 S1 S2].
  - eexists. split; [reflexivity|]. split; [reflexivity|]. apply (de_tag ACTIVE_POWER).
  - eexists. split; [reflexivity|]. split; [reflexivity|]. apply (de_tag ENERGY_UNIT_TOTALIZER).
  - eexists. split; [reflexivity|]. split; [reflexivity|]. apply (de_tag PARTIAL_TOTALIZER_CURRENT_MONTH).
  - eexists. split; [reflexivity|]. split; [reflexivity|]. apply (de_tag PARTIAL_TOTALIZER_CURRENT_DAY).
  - eexists. split; [reflexivity|]. unfold param. parts. rewrite (chosen_now _ _ _ C1), (chosen_now _ _ _ C2).
    rewrite (with_int _ _ _ (de_tag _) S2). cbn [bind].
    rewrite (with_int _ _ ms); [|apply hash_tag; [apply de_tag|eapply shown_tag, S2]|exact S1].
    rewrite <- app_assoc. split; [reflexivity|].
    change (lit "52#" ++ ys ++ lit "#" ++ ms) with (de_str ENERGY_UNIT_PER_MONTH ++ 35 :: (ys ++ 35 :: ms)).
    apply hash_tag; [apply de_tag|]. apply hash_tag; eapply shown_tag; eassumption.
Qed.

Theorem float_request {Y} it q d v more s rest :
  ready it -> placed it -> float_dim q d -> answers (v :: more) s rest ->
  (digits v -> v <> [] ->
     exists f, got (Y:=Y) (run_float it q s) (frame_dimreq (it_who it) (it_where it) d) rest (Ok f) /\
       reads (value_of 0 v) f /\ (value_of 0 v <= 2 ^ 53 -> f = Fin (value_of 0 v))) /\
  (~ (digits v /\ v <> []) -> got (Y:=Y) (run_float it q s) (frame_dimreq (it_who it) (it_where it) d) rest (Err ValueError)).
Proof.
  intros Hr Hp Hd Ha. destruct (run_float_ask (Y:=Y) it q d Hd) as (dim & E & E1 & E2). rewrite E. split.
  - intros D N1. exists (float_of_N (value_of 0 v)). split; [|split; [apply float_reads|apply float_exact]].
    eapply asked_energy; try eassumption. unfold float0. cbn [index nth_error bind]. apply float_read; assumption.
  - intros H. eapply asked_energy; try eassumption. unfold float0. cbn [index nth_error bind]. apply float_bad, H.
Qed.

(** Totalizers *)
Theorem totalizer_read e ds ms ys hs mis more y mo d h mi :
  digits e -> e <> [] -> calendar_date (y, mo, d) -> (0 <= h <= 23)%Z -> (0 <= mi <= 59)%Z ->
  field 1 ds d -> field 1 ms mo -> field 1 ys y -> field 1 hs h -> field 1 mis mi ->
  Forall (fun t => (length t <= 4300)%nat) [ds; ms; ys; hs; mis] ->
  totalizer_of (e :: ds :: ms :: ys :: hs :: mis :: more) =
    Ok ((y, mo, d), {| t_hour := h; t_minute := mi; t_second := 0; t_offset := 0 |}, float_of_N (value_of 0 e)).
Proof.
  intros He Hn Hd B1 B2 F1 F2 F3 F4 F5 L.
  repeat match goal with H : Forall _ (_ :: _) |- _ => inversion H; clear H; subst end.
  unfold totalizer_of, float0. cbn [index nth_error bind]. rewrite (float_read e He Hn). cbn [bind].
  rewrite (field_int _ _ _ F3), (field_int _ _ _ F2), (field_int _ _ _ F1), (field_int _ _ _ F4), (field_int _ _ _ F5) by assumption.
  cbn [bind]. pose proof (calendar_bounds _ _ _ Hd). unfold mk_datetime.
  rewrite c_ints_ok by (repeat apply Forall_cons; try apply Forall_nil; lia). cbn [bind].
  apply date_fields_spec in Hd. rewrite Hd.
  replace (time_fields h mi 0) with true; [reflexivity|]. symmetry. unfold time_fields.
  rewrite !andb_true_iff, !Z.leb_le. lia.
Qed.

(** Actuators: every character of the first value *)
Lemma char_read (vs : list str) (v : str) c i : index vs 0 = Ok v -> nth_error v i = Some c -> digitchar c -> char0 vs i = Ok (Z.of_N (c - 48)).
Proof.
  intros E H D. unfold char0. rewrite E. cbn [bind]. unfold index. rewrite H. cbn [bind].
  rewrite (number_int [c] (c - 48)); [reflexivity|].
  split; [constructor; [exact D|constructor]|]. split; [discriminate|]. split; [reflexivity|]. cbn. lia.
Qed.

Lemma char_missing (vs : list str) (v : str) i : index vs 0 = Ok v -> (length v <= i)%nat -> char0 vs i = Err IndexError.
Proof. intros E H. unfold char0. rewrite E. cbn [bind]. unfold index. rewrite (proj2 (nth_error_None v i) H). reflexivity. Qed.

Theorem actuator_documented_fails v more : (length v = 1)%nat -> digits v -> actuator_of (v :: more) = Err IndexError.
Proof.
  intros H D. destruct v as [|c [|]]; try discriminate. unfold actuator_of, flag0.
  rewrite (char_read ([c] :: more) [c] c 0 eq_refl eq_refl) by (inversion D; assumption). cbn [bind].
  rewrite (char_missing ([c] :: more) [c] 1 eq_refl) by (cbn; lia). reflexivity.
Qed.

Theorem actuator_read a b c d e f tl more :
  Forall digitchar [a; b; c; d; e; f] ->
  actuator_of ((a :: b :: c :: d :: e :: f :: tl) :: more) =
    Ok {| as_disabled := negb (a =? 48); as_forcing := negb (b =? 48); as_threshold := negb (c =? 48);
          as_protection := negb (d =? 48); as_phase := negb (e =? 48); as_advanced := (f =? 49) |}.
Proof.
  intros H.
  repeat match goal with H : Forall _ (_ :: _) |- _ => inversion H; clear H; subst end.
  set (vs := _ :: more). set (v := a :: b :: c :: d :: e :: f :: tl) in *.
  assert (I0 : index vs 0 = Ok v) by reflexivity.
  unfold actuator_of, flag0.
  rewrite (char_read vs v a 0 I0 eq_refl), (char_read vs v b 1 I0 eq_refl), (char_read vs v c 2 I0 eq_refl),
    (char_read vs v d 3 I0 eq_refl), (char_read vs v e 4 I0 eq_refl), (char_read vs v f 5 I0 eq_refl) by assumption.
  cbn [bind].
  assert (Z0 : forall x, digitchar x -> (Z.of_N (x - 48) =? 0)%Z = (x =? 48)).
  { intros x Hx. unfold digitchar in Hx. destruct (N.eqb_spec x 48); [apply Z.eqb_eq|apply Z.eqb_neq]; lia. }
  rewrite !Z0 by assumption.
  assert (Z1 : (Z.of_N (f - 48) - 1 =? 0)%Z = (f =? 49)).
  { unfold digitchar in *. destruct (N.eqb_spec f 49); [apply Z.eqb_eq|apply Z.eqb_neq]; lia. }
  rewrite Z1, negb_involutive. reflexivity.
Qed.
