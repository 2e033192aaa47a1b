(** * Which answers of the gateway's clock can be read *)
From Coq Require Import String List NArith ZArith Bool Lia.
From Verif Require Import PyStr PyDate Tags SpecMsg SpecTag MessageThms Items LightThms2 SpecGateway CalendarThms Gateway GatewayThms GatewayThms2 SpecClock.
Import ListNotations.
Open Scope Z_scope.
Open Scope list_scope.

Lemma int_inv v z : tagtext v -> py_int v = Ok z -> exists n, number v n /\ z = Z.of_N n.
Proof. intros T E. destruct (py_int_tag v T) as [(n & Hn & E')|[_ E']]; [|congruence]. exists n. split; [exact Hn|congruence]. Qed.
Lemma int_err v e : tagtext v -> py_int v = Err e -> e = ValueError /\ forall n, ~ number v n.
Proof. intros T E. destruct (py_int_tag v T) as [(n & Hn & E')|[N1 E']]; [congruence|]. split; [congruence|exact N1]. Qed.

Lemma firstn_tag n v : tagtext v -> tagtext (firstn n v).
Proof. unfold tagtext. intros H. rewrite <- (firstn_skipn n v) in H. apply Forall_app in H. tauto. Qed.

Lemma zone_ok t z : zone_hours t z -> Z.abs z < 24 -> parse_own_timezone t = Ok (3600 * z).
Proof.
  intros [[-> ->]|(c & r & n & -> & Hn & Hp & Hm)] L; [reflexivity|]. unfold parse_own_timezone. rewrite (number_int _ _ Hn). cbn [bind].
  assert (E : (if (c =? 48)%N then Z.of_N n else - Z.of_N n) = z) by (destruct (N.eqb_spec c 48); [rewrite Hp|rewrite Hm]; auto).
  rewrite E. unfold mk_timezone. apply Z.ltb_lt in L. rewrite L. reflexivity.
Qed.

Lemma zone_inv t off : tagtext t -> parse_own_timezone t = Ok off -> exists z, zone_hours t z /\ Z.abs z < 24 /\ off = 3600 * z.
Proof.
  intros T. unfold parse_own_timezone. destruct t as [|c r]; [intros [= <-]; exists 0; repeat split; left; auto|].
  inversion T as [|? ? _ Tr]; subst. destruct (py_int (firstn 2 r)) as [h|] eqn:E; [|discriminate]. cbn [bind].
  apply int_inv in E as (n & Hn & ->); [|apply firstn_tag, Tr]. unfold mk_timezone.
  destruct (Z.ltb_spec (Z.abs (if (c =? 48)%N then Z.of_N n else - Z.of_N n)) 24) as [L|L]; [|discriminate]. intros [= <-].
  eexists. split; [|split; [exact L|reflexivity]]. right. exists c, r, n. split; [reflexivity|]. split; [exact Hn|].
  destruct (N.eqb_spec c 48); split; intros; congruence.
Qed.

Lemma zone_err t e : tagtext t -> parse_own_timezone t = Err e -> e = ValueError.
Proof.
  intros T. unfold parse_own_timezone. destruct t as [|c r]; [discriminate|]. inversion T as [|? ? _ Tr]; subst.
  destruct (py_int (firstn 2 r)) as [h|] eqn:E; cbn [bind]; [|intros [= <-]; apply int_err in E as [-> _]; [reflexivity|apply firstn_tag, Tr]].
  unfold mk_timezone. destruct (_ <? _); congruence.
Qed.

Lemma c_ints_big l : (exists n, In n l /\ too_big n) -> c_ints (map Z.of_N l) = Err OverflowError.
Proof.
  intros (n & I & B). unfold c_ints. destruct (forallb _ _) eqn:F; [|reflexivity]. rewrite forallb_forall in F.
  specialize (F (Z.of_N n) (in_map _ _ _ I)). apply andb_true_iff in F as [_ F]. apply Z.leb_le in F. unfold c_int_max in F. unfold too_big in B. lia.
Qed.

Lemma c_ints_cases l : (Forall (fun n => ~ too_big n) l /\ c_ints (map Z.of_N l) = Ok tt) \/ ((exists n, In n l /\ too_big n) /\ c_ints (map Z.of_N l) = Err OverflowError).
Proof.
  unfold c_ints. induction l as [|n l IH]; [left; split; [constructor|reflexivity]|]. cbn [map forallb].
  destruct (Z.leb_spec (- c_int_max - 1) (Z.of_N n)) as [_|B]; [|unfold c_int_max in B; lia].
  destruct (Z.leb_spec (Z.of_N n) c_int_max) as [B|B]; cbn [andb]; unfold c_int_max in B.
  - destruct IH as [[F ->]|[(k & I & K) ->]].
    + left. split; [|reflexivity]. constructor; [unfold too_big; lia|exact F].
    + right. split; [|reflexivity]. exists k. split; [right; exact I|exact K].
  - right. split; [|reflexivity]. exists n. split; [left; reflexivity|unfold too_big; lia].
Qed.

Lemma c_ints_small l : Forall (fun n => (n < 2 ^ 31)%N) l -> c_ints (map Z.of_N l) = Ok tt.
Proof.
  intros F. destruct (c_ints_cases l) as [[_ E]|[(n & I & B) _]]; [exact E|]. rewrite Forall_forall in F. apply F in I. unfold too_big in B. lia.
Qed.

Lemma time_fields_of h m s : time_fields (Z.of_N h) (Z.of_N m) (Z.of_N s) = true <-> clock_time h m s.
Proof. unfold time_fields, clock_time. rewrite !andb_true_iff, !Z.leb_le. lia. Qed.

Ltac tags H := repeat match type of H with Forall tagtext (_ :: _) => let T := fresh "T" in apply Forall_cons_iff in H as [T H] end.

Ltac peel := repeat match goal with
  | H : bind (py_int ?v) _ = _, T : tagtext ?v |- _ =>
      let z := fresh "z" in let E := fresh "E" in destruct (py_int v) as [z|] eqn:E; cbn [bind] in H;
      [let n := fresh "n" in let N1 := fresh "N" in apply int_inv in E as (n & N1 & ->); [|exact T]
      |apply int_err in E as [-> _]; [|exact T]]
  | H : bind (parse_own_timezone ?v) _ = _, T : tagtext ?v |- _ =>
      let z := fresh "z" in let E := fresh "E" in destruct (parse_own_timezone v) as [z|] eqn:E; cbn [bind] in H;
      [let n := fresh "z" in let Z1 := fresh "Z" in let L := fresh "L" in apply zone_inv in E as (n & Z1 & L & ->); [|exact T]
      |apply zone_err in E as ->; [|exact T]]
  end.

Theorem time_complete vs : Forall tagtext vs ->
  (forall t, time_of vs = Ok t <-> exists h m s z, time_numbers vs h m s z /\ clock_time h m s /\
     t = {| t_hour := Z.of_N h; t_minute := Z.of_N m; t_second := Z.of_N s; t_offset := 3600 * z |}) /\
  (time_of vs = Err OverflowError <-> exists h m s z, time_numbers vs h m s z /\ (too_big h \/ too_big m \/ too_big s)) /\
  (forall e, time_of vs = Err e -> e = ValueError \/ e = OverflowError).
Proof.
  intros F.
  assert (Fwd : forall h m s z, time_numbers vs h m s z -> time_of vs = mk_time (Z.of_N h) (Z.of_N m) (Z.of_N s) (3600 * z)).
  { intros h m s z (hs & ms & ss & zs & -> & Hh & Hm & Hs & Hz & L). unfold time_of.
    rewrite (number_int _ _ Hh), (number_int _ _ Hm), (number_int _ _ Hs), (zone_ok _ _ Hz L). reflexivity. }
  assert (Bwd : (time_of vs = Err ValueError) \/ exists h m s z, time_numbers vs h m s z).
  { destruct (time_of vs) as [t|e] eqn:E.
    - right. unfold time_of in E. destruct vs as [|a [|b [|c [|d [|]]]]]; try discriminate. tags F. peel; try discriminate.
      do 4 eexists. exists a, b, c, d. eauto 8.
    - unfold time_of in E. destruct vs as [|a [|b [|c [|d [|]]]]]; try (left; congruence). tags F. peel; try (left; congruence).
      right. do 4 eexists. exists a, b, c, d. eauto 8. }
  assert (Mk : forall h m s off, (clock_time h m s /\ mk_time (Z.of_N h) (Z.of_N m) (Z.of_N s) off = Ok {| t_hour := Z.of_N h; t_minute := Z.of_N m; t_second := Z.of_N s; t_offset := off |}) \/
     ((too_big h \/ too_big m \/ too_big s) /\ mk_time (Z.of_N h) (Z.of_N m) (Z.of_N s) off = Err OverflowError) \/
     (~ clock_time h m s /\ ~ (too_big h \/ too_big m \/ too_big s) /\ mk_time (Z.of_N h) (Z.of_N m) (Z.of_N s) off = Err ValueError)).
  { intros h m s off. unfold mk_time. change [Z.of_N h; Z.of_N m; Z.of_N s] with (map Z.of_N [h; m; s]).
    destruct (c_ints_cases [h; m; s]) as [[Sm ->]|[(n & I & B) ->]]; cbn [bind].
    - destruct (time_fields _ _ _) eqn:T; [left; split; [apply time_fields_of, T|reflexivity]|]. right. right.
      split; [intros C; apply time_fields_of in C; congruence|]. split; [|reflexivity].
      repeat match goal with H : Forall _ (_ :: _) |- _ => apply Forall_cons_iff in H as [? ?] end. tauto.
    - right. left. split; [|reflexivity]. cbn in I. intuition (subst; auto). }
  assert (Small : forall h m s, clock_time h m s -> ~ (too_big h \/ too_big m \/ too_big s)) by (unfold clock_time, too_big; lia).
  split; [|split].
  - intros t. split.
    + intros E. destruct Bwd as [B|(h & m & s & z & H)]; [congruence|]. rewrite (Fwd _ _ _ _ H) in E.
      destruct (Mk h m s (3600 * z)) as [[C M]|[[_ M]|(_ & _ & M)]]; rewrite M in E; try discriminate. exists h, m, s, z. split; [exact H|]. split; [exact C|congruence].
    + intros (h & m & s & z & H & C & ->). rewrite (Fwd _ _ _ _ H). destruct (Mk h m s (3600 * z)) as [[_ M]|[[B M]|(N1 & _ & M)]]; [exact M|destruct (Small _ _ _ C B)|destruct (N1 C)].
  - split.
    + intros E. destruct Bwd as [B|(h & m & s & z & H)]; [congruence|]. rewrite (Fwd _ _ _ _ H) in E.
      destruct (Mk h m s (3600 * z)) as [[C M]|[[B M]|(_ & _ & M)]]; rewrite M in E; try discriminate. exists h, m, s, z. split; assumption.
    + intros (h & m & s & z & H & B). rewrite (Fwd _ _ _ _ H). destruct (Mk h m s (3600 * z)) as [[C M]|[[_ M]|(_ & N1 & M)]]; [destruct (Small _ _ _ C B)|exact M|destruct (N1 B)].
  - intros e E. destruct Bwd as [B|(h & m & s & z & H)]; [left; congruence|]. rewrite (Fwd _ _ _ _ H) in E.
    destruct (Mk h m s (3600 * z)) as [[C M]|[[B M]|(_ & _ & M)]]; rewrite M in E; try discriminate; injection E as <-; auto.
Qed.

Lemma date_small y m d : calendar_date (Z.of_N y, Z.of_N m, Z.of_N d) -> (y <= 9999 /\ m <= 12 /\ d <= 31)%N.
Proof.
  intros [Hy (n & M & Hd)]. assert (1 <= Z.of_N m <= 12 /\ n <= 31) by (inversion M as [k I E1 E2|k I E1 E2|L E1 E2|L E1 E2]; cbn in *; lia). lia.
Qed.

Theorem date_complete vs : Forall tagtext vs ->
  (forall t, date_of vs = Ok t <-> exists d m y, date_numbers vs d m y /\ t = (Z.of_N y, Z.of_N m, Z.of_N d) /\ calendar_date t) /\
  (date_of vs = Err OverflowError <-> exists d m y, date_numbers vs d m y /\ (too_big d \/ too_big m \/ too_big y)) /\
  (forall e, date_of vs = Err e -> e = ValueError \/ e = OverflowError).
Proof.
  intros F.
  assert (Fwd : forall d m y, date_numbers vs d m y -> date_of vs = mk_date (Z.of_N y) (Z.of_N m) (Z.of_N d)).
  { intros d m y (w & ds & ms & ys & -> & Hd & Hm & Hy). unfold date_of. rewrite (number_int _ _ Hd), (number_int _ _ Hm), (number_int _ _ Hy). reflexivity. }
  assert (Bwd : date_of vs = Err ValueError \/ exists d m y, date_numbers vs d m y).
  { destruct (date_of vs) as [t|e] eqn:E; unfold date_of in E; destruct vs as [|a [|b [|c [|d [|]]]]]; try discriminate; try (left; congruence); tags F; peel; try discriminate;
      try (left; congruence); right; do 3 eexists; exists a, b, c, d; eauto 8. }
  assert (Mk : forall y m d, (calendar_date (Z.of_N y, Z.of_N m, Z.of_N d) /\ mk_date (Z.of_N y) (Z.of_N m) (Z.of_N d) = Ok (Z.of_N y, Z.of_N m, Z.of_N d)) \/
     ((too_big d \/ too_big m \/ too_big y) /\ mk_date (Z.of_N y) (Z.of_N m) (Z.of_N d) = Err OverflowError) \/
     (~ calendar_date (Z.of_N y, Z.of_N m, Z.of_N d) /\ ~ (too_big d \/ too_big m \/ too_big y) /\ mk_date (Z.of_N y) (Z.of_N m) (Z.of_N d) = Err ValueError)).
  { intros y m d. unfold mk_date. change [Z.of_N y; Z.of_N m; Z.of_N d] with (map Z.of_N [y; m; d]).
    destruct (c_ints_cases [y; m; d]) as [[Sm ->]|[(n & I & B) ->]]; cbn [bind].
    - destruct (date_fields _ _ _) eqn:T; [left; split; [apply date_fields_spec, T|reflexivity]|]. right. right.
      split; [intros C; apply date_fields_spec in C; congruence|]. split; [|reflexivity].
      repeat match goal with H : Forall _ (_ :: _) |- _ => apply Forall_cons_iff in H as [? ?] end. tauto.
    - right. left. split; [|reflexivity]. cbn in I. intuition (subst; auto). }
  assert (Small : forall y m d, calendar_date (Z.of_N y, Z.of_N m, Z.of_N d) -> ~ (too_big d \/ too_big m \/ too_big y))
    by (intros y m d C; apply date_small in C; unfold too_big; lia).
  split; [|split].
  - intros t. split.
    + intros E. destruct Bwd as [B|(d & m & y & H)]; [congruence|]. rewrite (Fwd _ _ _ H) in E.
      destruct (Mk y m d) as [[C M]|[[_ M]|(_ & _ & M)]]; rewrite M in E; try discriminate. injection E as <-. exists d, m, y. auto.
    + intros (d & m & y & H & -> & C). rewrite (Fwd _ _ _ H). destruct (Mk y m d) as [[_ M]|[[B M]|(N1 & _ & M)]]; [exact M|destruct (Small _ _ _ C B)|destruct (N1 C)].
  - split.
    + intros E. destruct Bwd as [B|(d & m & y & H)]; [congruence|]. rewrite (Fwd _ _ _ H) in E.
      destruct (Mk y m d) as [[C M]|[[B M]|(_ & _ & M)]]; rewrite M in E; try discriminate. exists d, m, y. auto.
    + intros (d & m & y & H & B). rewrite (Fwd _ _ _ H). destruct (Mk y m d) as [[C M]|[[_ M]|(_ & N1 & M)]]; [destruct (Small _ _ _ C B)|exact M|destruct (N1 B)].
  - intros e E. destruct Bwd as [B|(d & m & y & H)]; [left; congruence|]. rewrite (Fwd _ _ _ H) in E.
    destruct (Mk y m d) as [[C M]|[[B M]|(_ & _ & M)]]; rewrite M in E; try discriminate; injection E as <-; auto.
Qed.

Lemma number_not v n : number v n -> (forall k, ~ number v k) -> False.
Proof. intros H K. exact (K n H). Qed.

(** The values are taken one by one; the first that is missing or no number decides. *)
Lemma take_value {A} vs i (f : Z -> res A) : Forall tagtext vs ->
  (exists v n, nth_error vs i = Some v /\ number v n /\ bind (bind (index vs i) py_int) f = f (Z.of_N n)) \/
  (nth_error vs i = None /\ (length vs <= i)%nat /\ bind (bind (index vs i) py_int) f = Err IndexError) \/
  (exists v, nth_error vs i = Some v /\ (forall n, ~ number v n) /\ bind (bind (index vs i) py_int) f = Err ValueError).
Proof.
  intros F. unfold index. destruct (nth_error vs i) as [v|] eqn:E; cbn [bind].
  - assert (T : tagtext v) by (rewrite Forall_forall in F; apply F, (nth_error_In _ _ E)).
    destruct (py_int_tag v T) as [(n & Hn & ->)|[N1 ->]]; cbn [bind]; [left; exists v, n; auto|right; right; exists v; auto].
  - right. left. split; [reflexivity|]. split; [apply nth_error_None, E|reflexivity].
Qed.

Lemma uptime_cases vs : Forall tagtext vs ->
  (exists d h m s, uptime_numbers vs d h m s /\
     uptime_of vs = mk_timedelta (Z.of_N d) (Z.of_N h) (Z.of_N m) (Z.of_N s)) \/
  (cut_short vs 4 [0; 1; 2]%nat /\ uptime_of vs = Err IndexError) \/
  ((forall d h m s, ~ uptime_numbers vs d h m s) /\ ~ cut_short vs 4 [0; 1; 2]%nat /\ uptime_of vs = Err ValueError).
Proof.
  intros F. unfold uptime_of.
  destruct (take_value vs 0 (fun d => do h <- bind (index vs 1) py_int; do m <- bind (index vs 2) py_int; do s <- bind (index vs 3) py_int; mk_timedelta d h m s) F)
    as [(v0 & d & E0 & N0 & ->)|[(E0 & L & ->)|(v0 & E0 & N0 & ->)]].
  2:{ right. left. split; [|reflexivity]. split; [lia|]. intros i v _ I. assert (nth_error vs i <> None) as K by congruence. apply nth_error_Some in K. lia. }
  2:{ right. right. split; [|split; [|reflexivity]].
      - intros d h m s (ds & hs & ms & ss & more & -> & Hd & _). injection E0 as ->. exact (N0 _ Hd).
      - intros [_ C]. destruct (C 0%nat v0) as [k K]; [cbn; tauto|exact E0|]. exact (N0 _ K). }
  destruct (take_value vs 1 (fun h => do m <- bind (index vs 2) py_int; do s <- bind (index vs 3) py_int; mk_timedelta (Z.of_N d) h m s) F)
    as [(v1 & h & E1 & N1 & ->)|[(E1 & L & ->)|(v1 & E1 & N1 & ->)]].
  2:{ right. left. split; [|reflexivity]. split; [lia|]. intros i v _ I. assert (nth_error vs i <> None) as K by congruence. apply nth_error_Some in K.
      assert (i = 0%nat) as -> by lia. exists d. congruence. }
  2:{ right. right. split; [|split; [|reflexivity]].
      - intros d' h m s (ds & hs & ms & ss & more & -> & Hd & Hh & _). injection E1 as ->. exact (N1 _ Hh).
      - intros [_ C]. destruct (C 1%nat v1) as [k K]; [cbn; tauto|exact E1|]. exact (N1 _ K). }
  destruct (take_value vs 2 (fun m => do s <- bind (index vs 3) py_int; mk_timedelta (Z.of_N d) (Z.of_N h) m s) F)
    as [(v2 & m & E2 & N2 & ->)|[(E2 & L & ->)|(v2 & E2 & N2 & ->)]].
  2:{ right. left. split; [|reflexivity]. split; [lia|]. intros i v _ I. assert (nth_error vs i <> None) as K by congruence. apply nth_error_Some in K.
      assert (i = 0 \/ i = 1)%nat as [->| ->] by lia; [exists d|exists h]; congruence. }
  2:{ right. right. split; [|split; [|reflexivity]].
      - intros d' h' m s (ds & hs & ms & ss & more & -> & Hd & Hh & Hm & _). injection E2 as ->. exact (N2 _ Hm).
      - intros [_ C]. destruct (C 2%nat v2) as [k K]; [cbn; tauto|exact E2|]. exact (N2 _ K). }
  destruct (take_value vs 3 (fun s => mk_timedelta (Z.of_N d) (Z.of_N h) (Z.of_N m) s) F)
    as [(v3 & s & E3 & N3 & ->)|[(E3 & L & ->)|(v3 & E3 & N3 & ->)]].
  - left. exists d, h, m, s. split; [|reflexivity]. destruct vs as [|a [|b [|c [|e more]]]]; try discriminate.
    injection E0 as ->. injection E1 as ->. injection E2 as ->. injection E3 as ->. do 5 eexists. eauto 8.
  - right. left. split; [|reflexivity]. split; [lia|]. intros i v [<-|[<-|[<-|[]]]] I; [exists d|exists h|exists m]; congruence.
  - right. right. split; [|split; [|reflexivity]].
    + intros d' h' m' s (ds & hs & ms & ss & more & -> & Hd & Hh & Hm & Hs). injection E3 as ->. exact (N3 _ Hs).
    + intros [L _]. assert (nth_error vs 3 <> None) as K by congruence. apply nth_error_Some in K. lia.
Qed.

Lemma timedelta_of d h m s : mk_timedelta (Z.of_N d) (Z.of_N h) (Z.of_N m) (Z.of_N s) =
  (let total := 86400 * Z.of_N d + 3600 * Z.of_N h + 60 * Z.of_N m + Z.of_N s in if total <? 86400 * 1000000000 then Ok total else Err OverflowError).
Proof.
  unfold mk_timedelta. cbv zeta. set (total := _ + _). assert (0 <= total) by (unfold total; lia). rewrite Z.abs_eq by (apply Z.div_pos; lia).
  destruct (Z.ltb_spec total (86400 * 1000000000)) as [L|L].
  - rewrite (proj2 (Z.leb_le _ _)); [reflexivity|]. assert (total / 86400 < 1000000000)%Z by (apply Z.div_lt_upper_bound; lia). lia.
  - rewrite (proj2 (Z.leb_gt _ _)); [reflexivity|]. assert (1000000000 <= total / 86400)%Z by (apply Z.div_le_lower_bound; lia). lia.
Qed.

Definition uptime_seconds (d h m s : N) : Z := 86400 * Z.of_N d + 3600 * Z.of_N h + 60 * Z.of_N m + Z.of_N s.

Lemma uptime_fun vs d h m s d' h' m' s' : uptime_numbers vs d h m s -> uptime_numbers vs d' h' m' s' -> uptime_seconds d h m s = uptime_seconds d' h' m' s'.
Proof.
  intros (a & b & c & e & more & -> & Hd & Hh & Hm & Hs) (a' & b' & c' & e' & more' & E & Hd' & Hh' & Hm' & Hs'). injection E as <- <- <- <- <-.
  destruct Hd as (_ & _ & <- & _), Hh as (_ & _ & <- & _), Hm as (_ & _ & <- & _), Hs as (_ & _ & <- & _),
    Hd' as (_ & _ & <- & _), Hh' as (_ & _ & <- & _), Hm' as (_ & _ & <- & _), Hs' as (_ & _ & <- & _). reflexivity.
Qed.

Lemma uptime_not_short vs d h m s : uptime_numbers vs d h m s -> ~ cut_short vs 4 [0; 1; 2]%nat.
Proof. intros (a & b & c & e & more & -> & _) [L _]. cbn in L. lia. Qed.

Theorem uptime_complete vs : Forall tagtext vs ->
  (forall t, uptime_of vs = Ok t <-> exists d h m s, uptime_numbers vs d h m s /\ t = uptime_seconds d h m s /\ t < 86400 * 1000000000) /\
  (uptime_of vs = Err OverflowError <-> exists d h m s, uptime_numbers vs d h m s /\ 86400 * 1000000000 <= uptime_seconds d h m s) /\
  (uptime_of vs = Err IndexError <-> cut_short vs 4 [0; 1; 2]%nat) /\
  (forall e, uptime_of vs = Err e -> e = ValueError \/ e = OverflowError \/ e = IndexError).
Proof.
  intros F. destruct (uptime_cases vs F) as [(d & h & m & s & U & E)|[[C E]|(N1 & N2 & E)]]; rewrite E.
  - rewrite timedelta_of. cbv zeta. fold (uptime_seconds d h m s).
    assert (K : forall d' h' m' s', uptime_numbers vs d' h' m' s' -> uptime_seconds d' h' m' s' = uptime_seconds d h m s) by (intros; eapply uptime_fun; eassumption).
    destruct (Z.ltb_spec (uptime_seconds d h m s) (86400 * 1000000000)) as [L|L].
    + split; [|split; [|split]].
      * intros t. split; [intros [= <-]; exists d, h, m, s; auto|]. intros (d' & h' & m' & s' & U' & -> & _). rewrite (K _ _ _ _ U'). reflexivity.
      * split; [discriminate|]. intros (d' & h' & m' & s' & U' & L'). rewrite (K _ _ _ _ U') in L'. lia.
      * split; [discriminate|]. intros C. destruct (uptime_not_short _ _ _ _ _ U C).
      * discriminate.
    + split; [|split; [|split]].
      * intros t. split; [discriminate|]. intros (d' & h' & m' & s' & U' & -> & L'). rewrite (K _ _ _ _ U') in L'. lia.
      * split; [intros _; exists d, h, m, s; auto|reflexivity].
      * split; [discriminate|]. intros C. destruct (uptime_not_short _ _ _ _ _ U C).
      * intros e [= <-]. auto.
  - split; [|split; [|split]].
    + intros t. split; [discriminate|]. intros (d' & h' & m' & s' & U' & _). destruct (uptime_not_short _ _ _ _ _ U' C).
    + split; [discriminate|]. intros (d' & h' & m' & s' & U' & _). destruct (uptime_not_short _ _ _ _ _ U' C).
    + split; auto.
    + intros e [= <-]. auto.
  - split; [|split; [|split]].
    + intros t. split; [discriminate|]. intros (d' & h' & m' & s' & U' & _). destruct (N1 _ _ _ _ U').
    + split; [discriminate|]. intros (d' & h' & m' & s' & U' & _). destruct (N1 _ _ _ _ U').
    + split; [discriminate|]. intros C. destruct (N2 C).
    + intros e [= <-]. auto.
Qed.

Lemma take_more {A} vs i (f : str -> res A) : (nth_error vs i = None /\ (length vs <= i)%nat /\ bind (index vs i) f = Err IndexError) \/
  (exists v, nth_error vs i = Some v /\ bind (index vs i) f = f v).
Proof.
  unfold index. destruct (nth_error vs i) as [v|] eqn:E; [right; exists v; auto|left]. split; [reflexivity|]. split; [apply nth_error_None, E|reflexivity].
Qed.

Definition clock_places : list nat := [0; 1; 2; 5; 6]%nat.

Lemma datetime_cases vs : Forall tagtext vs ->
  (exists h m s z d mo y, datetime_numbers vs h m s z d mo y /\
     datetime_of vs = mk_datetime (Z.of_N y) (Z.of_N mo) (Z.of_N d) (Z.of_N h) (Z.of_N m) (Z.of_N s) (3600 * z)) \/
  (cut_short vs 8 clock_places /\ datetime_of vs = Err IndexError) \/
  ((forall h m s z d mo y, ~ datetime_numbers vs h m s z d mo y) /\ ~ cut_short vs 8 clock_places /\ datetime_of vs = Err ValueError).
Proof.
  intros F. unfold datetime_of, clock_places.
  assert (In1 : forall i v, nth_error vs i = Some v -> (i < length vs)%nat) by (intros i v I; apply nth_error_Some; congruence).
  match goal with |- context [bind (bind (index vs 0) py_int) ?f] => destruct (take_value vs 0 f F) as [(v0 & h & E0 & N0 & ->)|[(E0 & L & ->)|(v0 & E0 & N0 & ->)]] end.
  2:{ right. left. split; [|reflexivity]. split; [lia|]. intros i v _ I. apply In1 in I. lia. }
  2:{ right. right. split; [|split; [|reflexivity]].
      - intros ? ? ? ? ? ? ? (hs & ms & ss & zs & w & ds & mos & ys & more & -> & H0 & _). injection E0 as ->. exact (N0 _ H0).
      - intros [_ C]. destruct (C 0%nat v0) as [k K]; [cbn; tauto|exact E0|]. exact (N0 _ K). }
  match goal with |- context [bind (bind (index vs 1) py_int) ?f] => destruct (take_value vs 1 f F) as [(v1 & m & E1 & N1 & ->)|[(E1 & L & ->)|(v1 & E1 & N1 & ->)]] end.
  2:{ right. left. split; [|reflexivity]. split; [lia|]. intros i v [<-|[<-|[<-|[<-|[<-|[]]]]]] I; pose proof (In1 _ _ I); try lia. exists h. congruence. }
  2:{ right. right. split; [|split; [|reflexivity]].
      - intros ? ? ? ? ? ? ? (hs & ms & ss & zs & w & ds & mos & ys & more & -> & _ & H1 & _). injection E1 as ->. exact (N1 _ H1).
      - intros [_ C]. destruct (C 1%nat v1) as [k K]; [cbn; tauto|exact E1|]. exact (N1 _ K). }
  match goal with |- context [bind (bind (index vs 2) py_int) ?f] => destruct (take_value vs 2 f F) as [(v2 & s & E2 & N2 & ->)|[(E2 & L & ->)|(v2 & E2 & N2 & ->)]] end.
  2:{ right. left. split; [|reflexivity]. split; [lia|]. intros i v [<-|[<-|[<-|[<-|[<-|[]]]]]] I; pose proof (In1 _ _ I); try lia; [exists h|exists m]; congruence. }
  2:{ right. right. split; [|split; [|reflexivity]].
      - intros ? ? ? ? ? ? ? (hs & ms & ss & zs & w & ds & mos & ys & more & -> & _ & _ & H2 & _). injection E2 as ->. exact (N2 _ H2).
      - intros [_ C]. destruct (C 2%nat v2) as [k K]; [cbn; tauto|exact E2|]. exact (N2 _ K). }
  match goal with |- context [bind (index vs 3) ?f] => destruct (take_more vs 3 f) as [(E3 & L & ->)|(v3 & E3 & ->)] end.
  { right. left. split; [|reflexivity]. split; [lia|]. intros i v [<-|[<-|[<-|[<-|[<-|[]]]]]] I; pose proof (In1 _ _ I); try lia; [exists h|exists m|exists s]; congruence. }
  match goal with |- context [bind (bind (index vs 5) py_int) ?f] => destruct (take_value vs 5 f F) as [(v5 & d & E5 & N5 & ->)|[(E5 & L & ->)|(v5 & E5 & N5 & ->)]] end.
  2:{ right. left. split; [|reflexivity]. split; [lia|]. intros i v [<-|[<-|[<-|[<-|[<-|[]]]]]] I; pose proof (In1 _ _ I); try lia; [exists h|exists m|exists s]; congruence. }
  2:{ right. right. split; [|split; [|reflexivity]].
      - intros ? ? ? ? ? ? ? (hs & ms & ss & zs & w & ds & mos & ys & more & -> & _ & _ & _ & _ & _ & H5 & _). injection E5 as ->. exact (N5 _ H5).
      - intros [_ C]. destruct (C 5%nat v5) as [k K]; [cbn; tauto|exact E5|]. exact (N5 _ K). }
  match goal with |- context [bind (bind (index vs 6) py_int) ?f] => destruct (take_value vs 6 f F) as [(v6 & mo & E6 & N6 & ->)|[(E6 & L & ->)|(v6 & E6 & N6 & ->)]] end.
  2:{ right. left. split; [|reflexivity]. split; [lia|]. intros i v [<-|[<-|[<-|[<-|[<-|[]]]]]] I; pose proof (In1 _ _ I); try lia; [exists h|exists m|exists s|exists d]; congruence. }
  2:{ right. right. split; [|split; [|reflexivity]].
      - intros ? ? ? ? ? ? ? (hs & ms & ss & zs & w & ds & mos & ys & more & -> & _ & _ & _ & _ & _ & _ & H6 & _). injection E6 as ->. exact (N6 _ H6).
      - intros [_ C]. destruct (C 6%nat v6) as [k K]; [cbn; tauto|exact E6|]. exact (N6 _ K). }
  match goal with |- context [bind (bind (index vs 7) py_int) ?f] => destruct (take_value vs 7 f F) as [(v7 & y & E7 & N7 & ->)|[(E7 & L & ->)|(v7 & E7 & N7 & ->)]] end.
  2:{ right. left. split; [|reflexivity]. split; [lia|]. intros i v [<-|[<-|[<-|[<-|[<-|[]]]]]] I; [exists h|exists m|exists s|exists d|exists mo]; congruence. }
  2:{ right. right. split; [|split; [|reflexivity]].
      - intros ? ? ? ? ? ? ? (hs & ms & ss & zs & w & ds & mos & ys & more & -> & _ & _ & _ & _ & _ & _ & _ & H7). injection E7 as ->. exact (N7 _ H7).
      - intros [L _]. apply In1 in E7. lia. }
  assert (T : tagtext v3) by (rewrite Forall_forall in F; apply F, (nth_error_In _ _ E3)).
  destruct (parse_own_timezone v3) as [off|e] eqn:Ez; cbn [bind].
  - apply zone_inv in Ez as (z & Hz & L & ->); [|exact T]. left. exists h, m, s, z, d, mo, y. split; [|reflexivity].
    destruct vs as [|a0 [|a1 [|a2 [|a3 [|a4 [|a5 [|a6 [|a7 more]]]]]]]]; try discriminate.
    injection E0 as ->. injection E1 as ->. injection E2 as ->. injection E3 as ->. injection E5 as ->. injection E6 as ->. injection E7 as ->.
    exists v0, v1, v2, v3, a4, v5, v6, v7, more. repeat (split; [reflexivity||assumption|]). assumption.
  - right. right. assert (e = ValueError) as -> by (eapply zone_err; eassumption). split; [|split; [|reflexivity]].
    + intros ? ? ? z ? ? ? (hs & ms & ss & zs & w & ds & mos & ys & more & -> & _ & _ & _ & Hz & L & _). injection E3 as ->.
      rewrite (zone_ok _ _ Hz L) in Ez. discriminate.
    + intros [L _]. apply In1 in E7. lia.
Qed.

Lemma number_fun v a b : number v a -> number v b -> a = b.
Proof. intros (_ & _ & <- & _) (_ & _ & <- & _). reflexivity. Qed.

Lemma zone_fun t a b : zone_hours t a -> zone_hours t b -> a = b.
Proof.
  intros [[-> ->]|(c & r & n & -> & Hn & P & M)] [[E ->]|(c' & r' & n' & E & Hn' & P' & M')]; try discriminate; [reflexivity|].
  injection E as <- <-. assert (n = n') as <- by (eapply number_fun; eassumption). destruct (N.eq_dec c 48); [rewrite P, P'|rewrite M, M']; auto.
Qed.

Theorem datetime_complete vs : Forall tagtext vs ->
  (forall dt t, datetime_of vs = Ok (dt, t) <-> exists h m s z d mo y, datetime_numbers vs h m s z d mo y /\ clock_time h m s /\
     dt = (Z.of_N y, Z.of_N mo, Z.of_N d) /\ calendar_date dt /\
     t = {| t_hour := Z.of_N h; t_minute := Z.of_N m; t_second := Z.of_N s; t_offset := 3600 * z |}) /\
  (datetime_of vs = Err OverflowError <-> exists h m s z d mo y, datetime_numbers vs h m s z d mo y /\ exists n, In n [y; mo; d; h; m; s] /\ too_big n) /\
  (datetime_of vs = Err IndexError <-> cut_short vs 8 clock_places) /\
  (forall e, datetime_of vs = Err e -> e = ValueError \/ e = OverflowError \/ e = IndexError).
Proof.
  intros F. assert (Short : forall h m s z d mo y, datetime_numbers vs h m s z d mo y -> ~ cut_short vs 8 clock_places).
  { intros h m s z d mo y (hs & ms & ss & zs & w & ds & mos & ys & more & -> & _) [L _]. cbn in L. lia. }
  destruct (datetime_cases vs F) as [(h & m & s & z & d & mo & y & U & E)|[[C E]|(N1 & N2 & E)]]; rewrite E.
  - assert (K : forall h' m' s' z' d' mo' y', datetime_numbers vs h' m' s' z' d' mo' y' -> h' = h /\ m' = m /\ s' = s /\ z' = z /\ d' = d /\ mo' = mo /\ y' = y).
    { intros h' m' s' z' d' mo' y' (hs & ms & ss & zs & w & ds & mos & ys & more & -> & A1 & A2 & A3 & A4 & _ & A5 & A6 & A7).
      destruct U as (hs' & ms' & ss' & zs' & w' & ds' & mos' & ys' & more' & Q & B1 & B2 & B3 & B4 & _ & B5 & B6 & B7). injection Q as <- <- <- <- <- <- <- <- <-.
      repeat split; eapply number_fun + eapply zone_fun; eassumption. }
    assert (Small : clock_time h m s -> calendar_date (Z.of_N y, Z.of_N mo, Z.of_N d) -> forall n, In n [y; mo; d; h; m; s] -> ~ too_big n).
    { intros C D n I. apply date_small in D. unfold clock_time in C. cbn in I. unfold too_big. intuition lia. }
    unfold mk_datetime. change [Z.of_N y; Z.of_N mo; Z.of_N d; Z.of_N h; Z.of_N m; Z.of_N s] with (map Z.of_N [y; mo; d; h; m; s]).
    destruct (c_ints_cases [y; mo; d; h; m; s]) as [[Sm ->]|[(n & I & B) ->]]; cbn [bind].
    + rewrite Forall_forall in Sm. destruct (date_fields (Z.of_N y) (Z.of_N mo) (Z.of_N d)) eqn:D; [destruct (time_fields (Z.of_N h) (Z.of_N m) (Z.of_N s)) eqn:T|].
      * apply date_fields_spec in D. apply time_fields_of in T. split; [|split; [|split]].
        -- intros dt t. split; [intros [= <- <-]; exists h, m, s, z, d, mo, y; auto|].
           intros (h' & m' & s' & z' & d' & mo' & y' & U' & _ & -> & _ & ->). destruct (K _ _ _ _ _ _ _ U') as (-> & -> & -> & -> & -> & -> & ->). reflexivity.
        -- split; [discriminate|]. intros (h' & m' & s' & z' & d' & mo' & y' & U' & n & I & B). destruct (K _ _ _ _ _ _ _ U') as (-> & -> & -> & -> & -> & -> & ->). destruct (Sm n I B).
        -- split; [discriminate|]. intros C. destruct (Short _ _ _ _ _ _ _ U C).
        -- discriminate.
      * split; [|split; [|split]].
        -- intros dt t. split; [discriminate|]. intros (h' & m' & s' & z' & d' & mo' & y' & U' & C & _). destruct (K _ _ _ _ _ _ _ U') as (-> & -> & -> & -> & -> & -> & ->).
           apply time_fields_of in C. congruence.
        -- split; [discriminate|]. intros (h' & m' & s' & z' & d' & mo' & y' & U' & n & I & B). destruct (K _ _ _ _ _ _ _ U') as (-> & -> & -> & -> & -> & -> & ->). destruct (Sm n I B).
        -- split; [discriminate|]. intros C. destruct (Short _ _ _ _ _ _ _ U C).
        -- intros e [= <-]. auto.
      * split; [|split; [|split]].
        -- intros dt t. split; [discriminate|]. intros (h' & m' & s' & z' & d' & mo' & y' & U' & _ & -> & C & _). destruct (K _ _ _ _ _ _ _ U') as (-> & -> & -> & -> & -> & -> & ->).
           apply date_fields_spec in C. congruence.
        -- split; [discriminate|]. intros (h' & m' & s' & z' & d' & mo' & y' & U' & n & I & B). destruct (K _ _ _ _ _ _ _ U') as (-> & -> & -> & -> & -> & -> & ->). destruct (Sm n I B).
        -- split; [discriminate|]. intros C. destruct (Short _ _ _ _ _ _ _ U C).
        -- intros e [= <-]. auto.
    + split; [|split; [|split]].
      * intros dt t. split; [discriminate|]. intros (h' & m' & s' & z' & d' & mo' & y' & U' & C & -> & D & _). destruct (K _ _ _ _ _ _ _ U') as (-> & -> & -> & -> & -> & -> & ->). destruct (Small C D n I B).
      * split; [|reflexivity]. intros _. exists h, m, s, z, d, mo, y. split; [exact U|]. exists n. auto.
      * split; [discriminate|]. intros C. destruct (Short _ _ _ _ _ _ _ U C).
      * intros e [= <-]. auto.
  - split; [|split; [|split]].
    + intros dt t. split; [discriminate|]. intros (h' & m' & s' & z' & d' & mo' & y' & U' & _). destruct (Short _ _ _ _ _ _ _ U' C).
    + split; [discriminate|]. intros (h' & m' & s' & z' & d' & mo' & y' & U' & _). destruct (Short _ _ _ _ _ _ _ U' C).
    + split; auto.
    + intros e [= <-]. auto.
  - split; [|split; [|split]].
    + intros dt t. split; [discriminate|]. intros (h' & m' & s' & z' & d' & mo' & y' & U' & _). destruct (N1 _ _ _ _ _ _ _ U').
    + split; [discriminate|]. intros (h' & m' & s' & z' & d' & mo' & y' & U' & _). destruct (N1 _ _ _ _ _ _ _ U').
    + split; [discriminate|]. intros C. destruct (N2 C).
    + intros e [= <-]. auto.
Qed.
