(** * The gateway item *)
From Coq Require Import String List NArith ZArith Bool Lia.
From Verif Require Import PyStr PyDate Tags Messages MessageFacts SpecMsg SpecTag MessageThms MessageThms2 MessageThms3 TagThms IO Client SpecItem Items HandshakeThms ItemThms ItemThms2 Lighting LightThms LightThms2 Gateway SpecGateway CalendarThms.
Import ListNotations.
Open Scope N_scope.
Open Scope list_scope.

(** ** Fields *)

Lemma value_zeros k s : value_of 0 (repeat 48 k ++ s) = value_of 0 s.
Proof. induction k as [|k IH]; [reflexivity|]. exact IH. Qed.

Lemma digits_repeat k : digits (repeat 48 k).
Proof. apply Forall_forall. intros x Hx. apply repeat_spec in Hx. subst. unfold digitchar. lia. Qed.

Lemma fmt_digits k n : digits (fmt k n).
Proof. apply Forall_app. split; [apply digits_repeat|apply digits_all, dec_digits]. Qed.

Lemma fmt_value k n : (0 <= n)%Z -> Z.of_N (value_of 0 (fmt k n)) = n.
Proof.
  intros H. unfold fmt, pad. rewrite value_zeros, value_of_dval. fold (dval (dec (Z.to_N n))).
  change (dval_from 0 (dec (Z.to_N n))) with (dval (dec (Z.to_N n))). rewrite dval_dec. lia.
Qed.

Lemma fmt_length k n : (k <= length (fmt k n))%nat.
Proof. unfold fmt, pad. rewrite app_length, repeat_length. lia. Qed.

Lemma fmt_not_nil k n : fmt k n <> [].
Proof. unfold fmt, pad. intros E. apply app_eq_nil in E as [_ E]. exact (dec_not_nil _ E). Qed.

Lemma fmt_field k n : (0 <= n)%Z -> field k (fmt k n) n.
Proof.
  intros H. split; [apply fmt_digits|]. split; [apply fmt_length|]. split; [apply fmt_not_nil|]. symmetry. apply fmt_value, H.
Qed.

Lemma fmt_fixed k n : (0 < k)%nat -> (0 <= n < 10 ^ Z.of_nat k)%Z -> fixed k (fmt k n) n.
Proof.
  intros Hk H. split; [apply fmt_field; lia|]. unfold fmt, pad. rewrite app_length, repeat_length.
  pose proof (dec_length_bound k (Z.to_N n) Hk) as B.
  assert (Z.to_N n < 10 ^ N.of_nat k); [|specialize (B H0); lia].
  apply N2Z.inj_lt. rewrite Z2N.id by lia. rewrite N2Z.inj_pow, nat_N_Z. apply H.
Qed.

Lemma field_int k s n : field k s n -> (length s <= 4300)%nat -> py_int s = Ok n.
Proof.
  intros (H1 & H2 & H3 & ->) Hl. apply number_int. repeat split; try assumption. lia.
Qed.

Lemma fixed_int k s n : fixed k s n -> (k <= 4300)%nat -> py_int s = Ok n.
Proof. intros [H E] Hk. eapply field_int; [exact H|]. lia. Qed.

Lemma fmt_int k n : (0 <= n < 100000)%Z -> (k <= 4300)%nat -> py_int (fmt k n) = Ok n.
Proof.
  intros H Hk. apply (field_int k); [apply fmt_field; lia|].
  unfold fmt, pad. rewrite app_length, repeat_length.
  pose proof (dec_length_bound 5 (Z.to_N n) ltac:(lia) ltac:(lia)). lia.
Qed.

Lemma mk_fmt k n : mk (fmt k n) = Ok (fmt k n).
Proof.
  apply mk_ok. eapply Forall_impl; [|apply fmt_digits]. intros c Hc. left. exact Hc.
Qed.

Lemma digits_tag s : digits s -> tagtext s.
Proof. apply Forall_impl. intros c Hc. left. exact Hc. Qed.

(** ** Requests *)

(** The first response, whatever follows it, when the stream ends with an ACK. *)
Lemma single_ok {Y} it dim m rs (rest : script) :
  ready it -> placed it -> tagtext dim -> dimres m -> Forall dimres rs ->
  exists es, (single_dim_req it dim (Some m :: map Some rs ++ Some MAck :: rest) : list (ev Y) * script * res msg) = (es, rest, Ok m) /\
    sents es = [frame_dimreq (it_who it) (it_where it) dim].
Proof.
  intros Hr Hp Hd Hm Hrs.
  destruct (dimension_all it dim as_is (m :: rs) (map (fun m => [m]) (m :: rs)) rest Hr Hp Hd) as (es & E & E1 & E2 & _).
  - assert (F : Forall dimres (m :: rs)) by (constructor; assumption). clear -F.
    induction F; constructor; [split; [assumption|reflexivity]|assumption].
  - rewrite concat_singles, map_id in E2.
    unfold single_dim_req, andthen, collect. cbn [map app] in E. rewrite E, E2.
    destruct (drop_yields_spec (Z:=Y) es) as (D1 & _ & _).
    rewrite (proj2 (is_dimres_spec m) Hm). eexists. split; [reflexivity|]. rewrite app_nil_r, D1. exact E1.
Qed.

Lemma wg_tag w : tagtext (wg_str w).
Proof. apply tagtext_valid. destruct w; reflexivity. Qed.

Theorem ask_ok {Y A} it w (decode : list str -> res A) wh b d vs rs (rest : script) :
  ready it -> placed it -> Forall dimres rs ->
  exists es, (ask_gateway it w decode (Some (MDimRes wh b d vs) :: map Some rs ++ Some MAck :: rest) : list (ev Y) * script * res A) =
      (es, rest, decode vs) /\
    sents es = [frame_dimreq (it_who it) (it_where it) (wg_str w)].
Proof.
  intros Hr Hp Hrs.
  destruct (single_ok (Y:=Y) it (wg_str w) (MDimRes wh b d vs) rs rest Hr Hp (wg_tag w)) as (es & E & E1).
  - repeat eexists.
  - assumption.
  - unfold ask_gateway. rewrite (andthen_ok _ _ _ _ _ _ E). cbn [get_values bind]. unfold lift.
    eexists. split; [reflexivity|]. rewrite app_nil_r. exact E1.
Qed.

(** ** Dates *)

Lemma c_ints_ok l : Forall (fun z => 0 <= z < 100000)%Z l -> c_ints l = Ok tt.
Proof.
  intros H. unfold c_ints. replace (forallb _ l) with true; [reflexivity|]. symmetry. apply forallb_forall.
  intros z Hz. rewrite Forall_forall in H. specialize (H z Hz). cbv beta in H. unfold c_int_max.
  apply andb_true_iff. rewrite !Z.leb_le. lia.
Qed.

Lemma calendar_bounds y m d : calendar_date (y, m, d) -> (1 <= y <= 9999 /\ 1 <= m <= 12 /\ 1 <= d <= 31)%Z.
Proof. intros (H1 & n & H2 & H3). apply month_days_range in H2. lia. Qed.

Lemma mk_date_ok y m d : calendar_date (y, m, d) -> mk_date y m d = Ok (y, m, d).
Proof.
  intros H. pose proof (calendar_bounds _ _ _ H). unfold mk_date.
  rewrite c_ints_ok by (repeat apply Forall_cons; try apply Forall_nil; lia). cbn [bind].
  apply date_fields_spec in H. rewrite H. reflexivity.
Qed.

(** Reading: any four fields whose last three are those of a date. *)
Theorem date_read y m d w ds ms ys :
  calendar_date (y, m, d) -> field 1 ds d -> field 1 ms m -> field 1 ys y ->
  (length ds <= 4300)%nat -> (length ms <= 4300)%nat -> (length ys <= 4300)%nat ->
  date_of [w; ds; ms; ys] = Ok (y, m, d).
Proof.
  intros H Hd Hm Hy L1 L2 L3. unfold date_of.
  rewrite (field_int _ _ _ Hd L1), (field_int _ _ _ Hm L2), (field_int _ _ _ Hy L3). cbn [bind]. apply mk_date_ok, H.
Qed.

Lemma mk_date_inv y m d r : mk_date y m d = Ok r -> r = (y, m, d) /\ calendar_date r.
Proof.
  unfold mk_date. destruct (c_ints _); [|discriminate]. cbn [bind].
  destruct (date_fields y m d) eqn:E; [|discriminate]. intros [= <-]. split; [reflexivity|]. apply date_fields_spec, E.
Qed.

(** Whatever is read is a date of the calendar. *)
Theorem date_read_valid vs r : date_of vs = Ok r -> calendar_date r.
Proof.
  unfold date_of. destruct vs as [|w [|ds [|ms [|ys [|]]]]]; try discriminate.
  destruct (py_int ds) as [d|]; [|discriminate]. destruct (py_int ms) as [m|]; [|discriminate].
  destruct (py_int ys) as [y|]; [|discriminate]. cbn [bind]. intros H. apply mk_date_inv in H. apply H.
Qed.

Definition sent_date (dt : date) : list str :=
  match dt with (y, m, d) => [fmt 2 (sunday_based (weekday dt)); fmt 2 d; fmt 2 m; fmt 1 y] end.

Lemma fmt_tags l : Forall tagtext (map (fun p : nat * Z => fmt (fst p) (snd p)) l).
Proof. apply Forall_map, Forall_forall. intros p _. apply digits_tag, fmt_digits. Qed.

Lemma set_date_is {Y} it dt (s : script) :
  (set_date it dt s : list (ev Y) * script * res unit) = send_dimension_writing it (wg_str DATE) (sent_date dt) s.
Proof.
  destruct dt as [[y m] d]. unfold set_date, sent_date, sunday_based. rewrite !mk_fmt, !andthen_lift.
  destruct (weekday (y, m, d) =? 6)%Z.
  - change (lit "00") with (fmt 2 0). rewrite ?mk_fmt, andthen_lift. reflexivity.
  - rewrite andthen_lift. reflexivity.
Qed.

Theorem set_date_answered {Y} it dt (s : script) :
  ready it -> placed it ->
  answered (frame_dimwri (it_who it) (it_where it) (lit "1") (sent_date dt)) s (set_date it dt s : list (ev Y) * script * res unit).
Proof.
  intros Hr Hp. rewrite set_date_is. destruct dt as [[y m] d]. unfold sent_date.
  apply writing_answered; [assumption|assumption|apply (wg_tag DATE)|].
  apply (fmt_tags [(2, _); (2, _); (2, _); (1, _)]%nat).
Qed.

Theorem date_round_trip dt : calendar_date dt -> date_of (sent_date dt) = Ok dt.
Proof.
  destruct dt as [[y m] d]. intros H. pose proof (calendar_bounds _ _ _ H). unfold sent_date, date_of.
  rewrite !fmt_int by lia. cbn [bind]. apply mk_date_ok, H.
Qed.

(** The fields as documented: the day of the week, two digits for day and
    month, four for the year from the year 1000 on. *)
Theorem sent_date_documented y m d :
  calendar_date (y, m, d) ->
  exists w ws ds ms ys, sent_date (y, m, d) = [ws; ds; ms; ys] /\
    falls_on (y, m, d) w /\ fixed 2 ws w /\ fixed 2 ds d /\ fixed 2 ms m /\ field 1 ys y /\ ((1000 <= y)%Z -> fixed 4 ys y).
Proof.
  intros H. pose proof (calendar_bounds _ _ _ H). exists (sunday_based (weekday (y, m, d))).
  do 4 eexists. split; [reflexivity|]. split; [apply weekday_true; [assumption|reflexivity]|].
  pose proof (sunday_based_range _ (weekday_range (y, m, d))).
  split; [apply fmt_fixed; lia|]. split; [apply fmt_fixed; lia|]. split; [apply fmt_fixed; lia|].
  split; [apply fmt_field; lia|]. intros Hy.
  pose proof (fmt_field 1 y ltac:(lia)) as (F1 & F2 & F3 & F4).
  assert (L : length (fmt 1 y) = 4%nat).
  { unfold fmt, pad. rewrite app_length, repeat_length.
    pose proof (dec_length_bound 4 (Z.to_N y) ltac:(lia) ltac:(cbn; lia)) as B.
    assert (A : (4 <= length (dec (Z.to_N y)))%nat); [|lia].
    destruct (Nat.le_gt_cases 4 (length (dec (Z.to_N y)))) as [|L]; [assumption|]. exfalso.
    pose proof (dval_dec (Z.to_N y)) as V. pose proof (dec_digits (Z.to_N y)) as D.
    assert (U : forall s, all_digits s = true -> dval s < 10 ^ N.of_nat (length s)).
    { clear. intros s. unfold dval.
      assert (G : forall s a, all_digits s = true -> fold_left (fun a c => 10 * a + (c - 48)) s a < (a + 1) * 10 ^ N.of_nat (length s)).
      { induction s0 as [|c s0 IH]; intros a Ha; [cbn; lia|].
        cbn [all_digits forallb] in Ha. apply andb_true_iff in Ha as [Hc Ha]. apply is_digit_range in Hc.
        cbn [fold_left length]. specialize (IH (10 * a + (c - 48)) Ha).
        rewrite Nat2N.inj_succ, N.pow_succ_r'. set (P := 10 ^ N.of_nat (length s0)) in *. nia. }
      intros H. specialize (G s 0 H). lia. }
    specialize (U _ D). rewrite V in U.
    assert (10 ^ N.of_nat (length (dec (Z.to_N y))) <= 10 ^ 3) by (apply N.pow_le_mono_r; lia).
    change (10 ^ 3) with 1000 in *. lia. }
  split; [|exact L]. split; [exact F1|]. split; [lia|]. split; [exact F3|exact F4].
Qed.

(** ** Times *)

Lemma mk_time_ok h m s off : (0 <= h <= 23)%Z -> (0 <= m <= 59)%Z -> (0 <= s <= 59)%Z ->
  mk_time h m s off = Ok {| t_hour := h; t_minute := m; t_second := s; t_offset := off |}.
Proof.
  intros Hh Hm Hs. unfold mk_time. rewrite c_ints_ok by (repeat apply Forall_cons; try apply Forall_nil; lia). cbn [bind].
  replace (time_fields h m s) with true; [reflexivity|]. symmetry. unfold time_fields. rewrite !andb_true_iff, !Z.leb_le. lia.
Qed.

(** The documented zone field is read as documented. *)
Theorem zone_read t h : zone t h -> (Z.abs h < 24)%Z -> parse_own_timezone t = Ok (3600 * h)%Z.
Proof.
  intros [s n H|s n H] Hh; unfold parse_own_timezone; rewrite firstn_all2 by (rewrite (proj2 H); lia);
    rewrite (fixed_int _ _ _ H) by lia; cbn [bind N.eqb Pos.eqb]; unfold mk_timezone;
    rewrite (proj2 (Z.ltb_lt _ _)) by lia; reflexivity.
Qed.

Theorem time_read h m s z hs ms ss zs :
  (0 <= h <= 23)%Z -> (0 <= m <= 59)%Z -> (0 <= s <= 59)%Z -> (Z.abs z < 24)%Z ->
  fixed 2 hs h -> fixed 2 ms m -> fixed 2 ss s -> zone zs z ->
  time_of [hs; ms; ss; zs] = Ok {| t_hour := h; t_minute := m; t_second := s; t_offset := (3600 * z)%Z |}.
Proof.
  intros B1 B2 B3 B4 Hh Hm Hs Hz. unfold time_of.
  rewrite (fixed_int _ _ _ Hh), (fixed_int _ _ _ Hm), (fixed_int _ _ _ Hs), (zone_read _ _ Hz B4) by lia.
  cbn [bind]. apply mk_time_ok; assumption.
Qed.

(** What is sent for an offset: four characters. *)
Definition own_hours (us : Z) : Z := (td_seconds us / 3600)%Z.

Lemma own_hours_range us : (0 <= own_hours us < 24)%Z.
Proof.
  unfold own_hours, td_seconds. pose proof (Z.mod_pos_bound (us / 1000000) 86400 ltac:(lia)) as B.
  split; [apply Z.div_pos; lia|]. apply Z.div_lt_upper_bound; lia.
Qed.

Definition sent_zone (us : Z) : str := (if (0 <=? us)%Z then 48 else 49) :: fmt 3 (own_hours us).

Lemma tz_sent us : tz_to_own_tz (Offset us) = Ok (sent_zone us).
Proof.
  unfold tz_to_own_tz. rewrite Z.abs_eq by (unfold td_seconds; apply Z.mod_pos_bound; lia).
  fold (own_hours us). unfold sent_zone. destruct (0 <=? us)%Z; cbn [lit app];
    apply mk_ok; (apply Forall_cons; [left; cbn; lia|]); apply digits_tag, fmt_digits.
Qed.

(** Never the documented three digits. *)
Theorem sent_zone_length us : length (sent_zone us) = 4%nat.
Proof.
  unfold sent_zone. cbn [length]. f_equal.
  pose proof (own_hours_range us). apply (fmt_fixed 3 (own_hours us)); lia.
Qed.

Theorem sent_zone_undocumented us h : ~ zone (sent_zone us) h.
Proof.
  intros H. pose proof (sent_zone_length us) as L. remember (sent_zone us) as t. destruct H as [s n F|s n F];
    cbn [length] in L; rewrite (proj2 F) in L; discriminate.
Qed.

(** What it is read back as. *)
Lemma fmt3_24 h : (0 <= h < 24)%Z -> py_int (firstn 2 (fmt 3 h)) = Ok (h / 10)%Z.
Proof.
  intros H.
  assert (C : forallb (fun k => match py_int (firstn 2 (fmt 3 (Z.of_nat k))) with Ok z => (z =? Z.of_nat k / 10)%Z | Err _ => false end) (seq 0 24) = true)
    by (vm_compute; reflexivity).
  rewrite forallb_forall in C. specialize (C (Z.to_nat h)). rewrite Z2Nat.id in C by lia.
  specialize (C ltac:(apply in_seq; lia)). destruct (py_int _) as [z|]; [|discriminate].
  apply Z.eqb_eq in C. subst. reflexivity.
Qed.

Definition read_back (us : Z) : Z := ((if (0 <=? us)%Z then 1 else -1) * (3600 * (own_hours us / 10)))%Z.

Theorem zone_read_back us : parse_own_timezone (sent_zone us) = Ok (read_back us).
Proof.
  unfold parse_own_timezone, sent_zone, read_back. pose proof (own_hours_range us) as R.
  rewrite fmt3_24 by lia. cbn [bind].
  assert (Q : (0 <= own_hours us / 10 < 24)%Z).
  { split; [apply Z.div_pos; lia|]. apply Z.div_lt_upper_bound; lia. }
  unfold mk_timezone. destruct (0 <=? us)%Z; cbn [N.eqb Pos.eqb]; rewrite (proj2 (Z.ltb_lt _ _)) by lia;
    f_equal; lia.
Qed.

(** The offset survives for UTC and for UTC-2, and for no other zone. *)
Theorem zone_preserved us :
  (Z.abs us < 86400 * 1000000)%Z ->
  ((1000000 * read_back us = us)%Z <-> us = 0%Z \/ us = (- 7200 * 1000000)%Z).
Proof.
  intros B. split.
  - intros E. unfold read_back in E. pose proof (own_hours_range us) as R.
    destruct (Z.leb_spec 0 us) as [P|P].
    + left. unfold own_hours, td_seconds in *.
      assert (D : (0 <= us / 1000000 < 86400)%Z).
      { split; [apply Z.div_pos; lia|]. apply Z.div_lt_upper_bound; lia. }
      rewrite Z.mod_small in * by exact D.
      assert (X : (us / 1000000 = 3600 * (us / 1000000 / 3600 / 10))%Z).
      { rewrite <- E at 1. rewrite Z.mul_comm, Z.div_mul by lia. lia. }
      set (k := (us / 1000000 / 3600)%Z) in *.
      assert (K : (us / 1000000 / 3600 = k / 10)%Z).
      { rewrite X. rewrite Z.mul_comm, Z.div_mul by lia. reflexivity. }
      fold k in K. assert (k = 0)%Z by (Z.to_euclidean_division_equations; lia).
      rewrite H in E. cbn in E. lia.
    + right. unfold own_hours, td_seconds in *.
      assert (D : (-86400 <= us / 1000000 < 0)%Z).
      { split; [apply Z.div_le_lower_bound; lia|]. apply Z.div_lt_upper_bound; lia. }
      assert (M : ((us / 1000000) mod 86400 = us / 1000000 + 86400)%Z).
      { symmetry. apply (Z.mod_unique_pos _ _ (-1)); lia. }
      rewrite M in *. set (q := (us / 1000000)%Z) in *. set (k := ((q + 86400) / 3600)%Z) in *.
      assert (X : (q = - (3600 * (k / 10)))%Z).
      { unfold q. rewrite <- E at 1. rewrite Z.mul_comm, Z.div_mul by lia. lia. }
      assert (K : (k = 24 - k / 10)%Z).
      { unfold k at 1. rewrite X. replace (- (3600 * (k / 10)) + 86400)%Z with ((24 - k / 10) * 3600)%Z by lia.
        apply Z.div_mul. lia. }
      assert (k = 22)%Z by (Z.to_euclidean_division_equations; lia).
      rewrite H in E. cbn in E. lia.
  - intros [->| ->]; vm_compute; reflexivity.
Qed.

Lemma set_time_is {Y} it h m x us (s : script) :
  (set_time it h m x (Offset us) s : list (ev Y) * script * res unit) =
  send_dimension_writing it (wg_str TIME) [fmt 2 h; fmt 2 m; fmt 2 x; sent_zone us] s.
Proof. unfold set_time. rewrite tz_sent, !mk_fmt, !andthen_lift. reflexivity. Qed.

Lemma sent_zone_tag us : tagtext (sent_zone us).
Proof. apply Forall_cons; [left; destruct (0 <=? us)%Z; lia|]. apply digits_tag, fmt_digits. Qed.

Theorem set_time_answered {Y} it h m x us (s : script) :
  ready it -> placed it ->
  answered (frame_dimwri (it_who it) (it_where it) (lit "0") [fmt 2 h; fmt 2 m; fmt 2 x; sent_zone us]) s
    (set_time it h m x (Offset us) s : list (ev Y) * script * res unit).
Proof.
  intros Hr Hp. rewrite set_time_is. apply writing_answered; [assumption|assumption|apply (wg_tag TIME)|].
  repeat (apply Forall_cons; [apply digits_tag, fmt_digits|]). apply Forall_cons; [apply sent_zone_tag|apply Forall_nil].
Qed.

Theorem set_time_no_zone {Y} it h m x tz (s : script) :
  tz = NoTz \/ tz = NoOffset -> (set_time it h m x tz s : list (ev Y) * script * res unit) = ([], s, Err ValueError).
Proof. intros [->| ->]; reflexivity. Qed.

Theorem time_round_trip h m x us :
  (0 <= h <= 23)%Z -> (0 <= m <= 59)%Z -> (0 <= x <= 59)%Z ->
  time_of [fmt 2 h; fmt 2 m; fmt 2 x; sent_zone us] =
    Ok {| t_hour := h; t_minute := m; t_second := x; t_offset := read_back us |}.
Proof.
  intros H1 H2 H3. unfold time_of. rewrite !fmt_int by lia. rewrite zone_read_back. cbn [bind]. apply mk_time_ok; assumption.
Qed.

(** ** Date and time *)

Definition sent_datetime (dt : date) (h m x us : Z) : list str :=
  match dt with (y, mo, d) => [fmt 2 h; fmt 2 m; fmt 2 x; sent_zone us; fmt 2 d; fmt 2 mo; fmt 1 y] end.

Theorem set_datetime_answered {Y} it dt h m x us (s : script) :
  ready it -> placed it ->
  answered (frame_dimwri (it_who it) (it_where it) (lit "22") (sent_datetime dt h m x us)) s
    (set_datetime it dt h m x (Offset us) s : list (ev Y) * script * res unit).
Proof.
  intros Hr Hp. destruct dt as [[y mo] d]. unfold set_datetime. rewrite tz_sent, !mk_fmt, !andthen_lift. unfold sent_datetime.
  apply writing_answered; [assumption|assumption|apply (wg_tag DATE_TIME)|].
  do 3 (apply Forall_cons; [apply digits_tag, fmt_digits|]). apply Forall_cons; [apply sent_zone_tag|].
  do 3 (apply Forall_cons; [apply digits_tag, fmt_digits|]). apply Forall_nil.
Qed.

Theorem datetime_unreadable y mo d h m x us :
  (0 <= h < 100000)%Z -> (0 <= m < 100000)%Z -> (0 <= x < 100000)%Z -> (0 <= mo < 100000)%Z -> (0 <= y < 100000)%Z ->
  datetime_of (sent_datetime (y, mo, d) h m x us) = Err IndexError.
Proof.
  intros. unfold datetime_of, sent_datetime. cbn [index nth_error bind]. rewrite !fmt_int by lia. reflexivity.
Qed.

Theorem datetime_read y mo d h m x z w hs ms ss zs ds mos ys :
  calendar_date (y, mo, d) -> (0 <= h <= 23)%Z -> (0 <= m <= 59)%Z -> (0 <= x <= 59)%Z -> (Z.abs z < 24)%Z ->
  fixed 2 hs h -> fixed 2 ms m -> fixed 2 ss x -> zone zs z -> fixed 2 ds d -> fixed 2 mos mo -> fixed 4 ys y ->
  datetime_of [hs; ms; ss; zs; w; ds; mos; ys] =
    Ok ((y, mo, d), {| t_hour := h; t_minute := m; t_second := x; t_offset := (3600 * z)%Z |}).
Proof.
  intros Hd B1 B2 B3 B4 F1 F2 F3 F4 F5 F6 F7. unfold datetime_of. cbn [index nth_error bind].
  rewrite (fixed_int _ _ _ F1), (fixed_int _ _ _ F2), (fixed_int _ _ _ F3), (fixed_int _ _ _ F5), (fixed_int _ _ _ F6), (fixed_int _ _ _ F7), (zone_read _ _ F4 B4) by lia.
  cbn [bind]. pose proof (calendar_bounds _ _ _ Hd). unfold mk_datetime.
  rewrite c_ints_ok by (repeat apply Forall_cons; try apply Forall_nil; lia). cbn [bind].
  apply date_fields_spec in Hd. rewrite Hd.
  replace (time_fields h m x) with true; [reflexivity|]. symmetry. unfold time_fields. rewrite !andb_true_iff, !Z.leb_le. lia.
Qed.
