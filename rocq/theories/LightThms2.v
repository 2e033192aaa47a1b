(** * Decoding the replies of lights *)
From Coq Require Import String List NArith ZArith Bool Lia.
From Verif Require Import PyStr Tags Messages MessageFacts SpecMsg SpecTag MessageThms MessageThms2 MessageThms3 TagThms IO Client SpecItem Items Lighting SpecLight HandshakeThms ItemThms LightThms.
Import ListNotations.
Open Scope N_scope.
Open Scope list_scope.

(** ** Numbers in tags *)

(** [d] is a decimal numeral (leading zeros allowed) for [n] that Python will
    convert. *)
Definition number (d : str) (n : N) : Prop :=
  digits d /\ d <> [] /\ value_of 0 d = n /\ N.of_nat (length d) <= 4300.

(** The number in front of the parameters of a tag. *)
Definition tagnum (a : str) (n : N) : Prop :=
  exists d ps, a = with_params d ps /\ Forall nohash ps /\ number d n.

(** The number in a value, with or without a leading '#'. *)
Definition valnum (v : str) (n : N) : Prop := exists d, (v = d \/ v = 35 :: d) /\ number d n.

Lemma value_of_dval a s : value_of a s = dval_from a s.
Proof. revert a. induction s as [|c s IH]; intros a; [reflexivity|]. cbn. apply IH. Qed.

Lemma digits_all d : digits d <-> all_digits d = true.
Proof.
  unfold digits, all_digits. rewrite Forall_forall, forallb_forall. split; intros H x Hx; apply is_digit_range, H, Hx.
Qed.

Lemma digits_nohash35 d : digits d -> nohash d.
Proof. intros H Hin. unfold digits in H. rewrite Forall_forall in H. apply H in Hin. unfold digitchar in Hin. lia. Qed.

Lemma number_int d n : number d n -> py_int d = Ok (Z.of_N n).
Proof.
  intros (H1 & H2 & H3 & H4). rewrite py_int_digits; [|apply digits_all; assumption|assumption|exact H4].
  rewrite <- H3, value_of_dval. reflexivity.
Qed.

Lemma tagnum_int a n : tagnum a n -> py_int (twp_tag a) = Ok (Z.of_N n).
Proof.
  intros (d & ps & -> & Hp & Hn). destruct (twp_spec (with_params d ps)) as (E & N1 & N2).
  apply with_params_unique in E; [|apply digits_nohash35; apply Hn|assumption|assumption|assumption].
  destruct E as [E _]. rewrite <- E. apply number_int, Hn.
Qed.

Lemma valnum_int v n : valnum v n -> py_int (tag_tag v) = Ok (Z.of_N n).
Proof.
  intros (d & [->| ->] & Hn).
  - replace (tag_tag d) with d; [apply number_int, Hn|].
    destruct Hn as (Hd & Hne & _). destruct d as [|c d]; [congruence|].
    unfold tag_tag, removeprefix. apply Forall_inv in Hd. unfold digitchar in Hd.
    cbn [startswith]. replace (c_hash =? c) with false by (symmetry; apply N.eqb_neq; unfold c_hash; lia).
    replace (c =? c_hash) with false by (symmetry; apply N.eqb_neq; unfold c_hash; lia). reflexivity.
  - replace (tag_tag (35 :: d)) with d by reflexivity. apply number_int, Hn.
Qed.

(** ** Streams whose replies can all be decoded *)

Lemma replies_all {Y} keep (want : msg -> Prop) (body : msg -> res (list Y)) rs yss (rest : script) :
  (forall m, keep m = true <-> want m) -> ~ want MAck -> ~ want MNack ->
  Forall2 (fun m ys => want m /\ body m = Ok ys) rs yss ->
  exists es, replies keep body (map Some rs ++ Some MAck :: rest) = (es, rest, Ok tt) /\
    yields es = concat yss /\ sents es = [] /\ gots es = rs ++ [MAck].
Proof.
  intros Hk Ha Hn H. induction H as [|m ys rs yss [Hw Hb] _ (es & E & E1 & E2 & E3)].
  - exists [Got MAck]. repeat split.
  - cbn [map app replies].
    rewrite (type_not_nack m), (type_not_ack m) by (intros ->; contradiction).
    rewrite (proj2 (Hk m) Hw), Hb. cbn [negb]. rewrite E. eexists. split; [reflexivity|].
    cbn [yields sents gots concat app]. rewrite yields_app, sents_app, gots_app, E1, E2, E3.
    destruct (yields_map ys) as (-> & -> & ->). auto.
Qed.

Lemma status_all {Y} it (body : msg -> res (list Y)) rs yss (rest : script) :
  ready it -> placed it -> Forall2 (fun m ys => normal m /\ body m = Ok ys) rs yss ->
  exists es, send_status_request it body (map Some rs ++ Some MAck :: rest) = (es, rest, Ok tt) /\
    sents es = [frame_status (it_who it) (it_where it)] /\ yields es = concat yss /\ gots es = rs ++ [MAck].
Proof.
  intros Hr Hp H. unfold send_status_request, create_status_message.
  rewrite (andthen_ok _ _ _ _ _ _ (item_send_ok it _ _ _ Hr (status_bytes _ _ Hp))).
  unfold reply_loop. rewrite (proj2 Hr). cbn [negb].
  destruct (replies_all is_normal normal body rs yss rest is_normal_spec (proj1 not_normal_ack) (proj2 not_normal_ack) H)
    as (es & -> & E1 & E2 & E3).
  eexists. split; [reflexivity|]. cbn [app sents yields gots]. rewrite E1, E2, E3. auto.
Qed.

Lemma dimension_all {Y} it dim (body : msg -> res (list Y)) rs yss (rest : script) :
  ready it -> placed it -> tagtext dim -> Forall2 (fun m ys => dimres m /\ body m = Ok ys) rs yss ->
  exists es, send_dimension_request it dim body (map Some rs ++ Some MAck :: rest) = (es, rest, Ok tt) /\
    sents es = [frame_dimreq (it_who it) (it_where it) dim] /\ yields es = concat yss /\ gots es = rs ++ [MAck].
Proof.
  intros Hr Hp Hd H. unfold send_dimension_request, create_dimension_request_message.
  rewrite (proj2 (mk_ok dim) Hd), andthen_lift.
  rewrite (andthen_ok _ _ _ _ _ _ (item_send_ok it _ _ _ Hr (dimreq_bytes _ _ _ Hp Hd))).
  unfold reply_loop. rewrite (proj2 Hr). cbn [negb].
  destruct (replies_all is_dimres dimres body rs yss rest is_dimres_spec (proj1 not_dimres_ack) (proj2 not_dimres_ack) H)
    as (es & -> & E1 & E2 & E3).
  eexists. split; [reflexivity|]. cbn [app sents yields gots]. rewrite E1, E2, E3. auto.
Qed.

(** A reply that cannot be decoded ends the request with the error, and the
    rest of the replies stays in the queue. *)
Lemma replies_undecodable {Y} keep (want : msg -> Prop) (body : msg -> res (list Y)) rs yss m e (rest : script) :
  (forall m, keep m = true <-> want m) -> ~ want MAck -> ~ want MNack ->
  Forall2 (fun m ys => want m /\ body m = Ok ys) rs yss -> want m -> body m = Err e ->
  exists es, replies keep body (map Some rs ++ Some m :: rest) = (es, rest, Err e) /\
    yields es = concat yss /\ sents es = [].
Proof.
  intros Hk Ha Hn H Hm He. induction H as [|r ys rs yss [Hw Hb] _ (es & E & E1 & E2)].
  - exists [Got m]. cbn [map app replies].
    rewrite (type_not_nack m), (type_not_ack m) by (intros ->; contradiction).
    rewrite (proj2 (Hk m) Hm), He. repeat split.
  - cbn [map app replies].
    rewrite (type_not_nack r), (type_not_ack r) by (intros ->; contradiction).
    rewrite (proj2 (Hk r) Hw), Hb. cbn [negb]. rewrite E. eexists. split; [reflexivity|].
    cbn [yields sents concat app]. rewrite yields_app, sents_app, E1, E2.
    destruct (yields_map ys) as (-> & _ & ->). auto.
Qed.

(** ** Dimmers *)

(** A status reply: its WHERE and the number of its WHAT. *)
Definition status_reply (m : msg) (p : str * N) : Prop :=
  exists w a, m = MNormal w a (fst p) /\ tagnum a (snd p).

Lemma concat_singles {A B} (f : A -> B) l : concat (map (fun x => [f x]) l) = map f l.
Proof. induction l; cbn; congruence. Qed.

Theorem dimmer_levels it rs ps (rest : script) :
  ready it -> placed it -> Forall2 status_reply rs ps ->
  exists es, dimmer_get_status it (map Some rs ++ Some MAck :: rest) = (es, rest, Ok tt) /\
    sents es = [frame_status (it_who it) (it_where it)] /\
    yields es = map (fun p => (fst p, (10 * Z.of_N (snd p))%Z)) ps.
Proof.
  intros Hr Hp H.
  destruct (status_all it dimmer_status_body rs (map (fun p => [(fst p, (10 * Z.of_N (snd p))%Z)]) ps) rest Hr Hp) as (es & E & E1 & E2 & _).
  - induction H as [|m p rs ps (w & a & -> & Ha) _ IH]; [constructor|].
    cbn [map]. constructor; [|exact IH]. split; [repeat eexists|].
    unfold dimmer_status_body, get_where, get_what. cbn [msg_where bind]. rewrite (tagnum_int a _ Ha). cbn [bind].
    rewrite Z.mul_comm. reflexivity.
  - exists es. rewrite E2, concat_singles. auto.
Qed.

(** A level outside the promised range, and then exactly. *)
Theorem dimmer_range n : (0 <= 10 * Z.of_N n <= 100)%Z <-> n <= 10.
Proof. lia. Qed.

(** A reply whose WHAT has no number in front ends the request. *)
Theorem dimmer_bad it rs ps w a b (rest : script) :
  ready it -> placed it -> Forall2 status_reply rs ps -> twp_tag a = [] ->
  exists es, dimmer_get_status it (map Some rs ++ Some (MNormal w a b) :: rest) = (es, rest, Err ValueError) /\
    yields es = map (fun p => (fst p, (10 * Z.of_N (snd p))%Z)) ps.
Proof.
  intros Hr Hp H Ha. unfold dimmer_get_status, send_status_request, create_status_message.
  rewrite (andthen_ok _ _ _ _ _ _ (item_send_ok it _ _ _ Hr (status_bytes _ _ Hp))).
  unfold reply_loop. rewrite (proj2 Hr). cbn [negb].
  destruct (replies_undecodable is_normal normal dimmer_status_body rs (map (fun p => [(fst p, (10 * Z.of_N (snd p))%Z)]) ps) (MNormal w a b) ValueError rest
    is_normal_spec (proj1 not_normal_ack) (proj2 not_normal_ack)) as (es & -> & E1 & E2).
  - induction H as [|m p rs ps (w' & a' & -> & Ha') _ IH]; [constructor|].
    cbn [map]. constructor; [|exact IH]. split; [repeat eexists|].
    unfold dimmer_status_body, get_where, get_what. cbn [msg_where bind]. rewrite (tagnum_int a' _ Ha'). cbn [bind].
    rewrite Z.mul_comm. reflexivity.
  - repeat eexists.
  - unfold dimmer_status_body, get_where, get_what. cbn [msg_where bind]. rewrite Ha. reflexivity.
  - eexists. split; [reflexivity|]. cbn [app yields]. rewrite E1. apply concat_singles.
Qed.

(** ** Lights *)

(** What Light.get_status makes of one reply: on, off, or nothing at all. *)
Definition light_view (m : msg) : list (str * bool) :=
  match m with
  | MNormal _ a b => if str_eqb a [49] then [(b, true)] else if str_eqb a [48] then [(b, false)] else []
  | _ => []
  end.

Theorem light_statuses it rs (rest : script) :
  ready it -> placed it -> Forall normal rs ->
  exists es, light_get_status it (map Some rs ++ Some MAck :: rest) = (es, rest, Ok tt) /\
    sents es = [frame_status (it_who it) (it_where it)] /\
    yields es = concat (map light_view rs).
Proof.
  intros Hr Hp H.
  destruct (status_all it light_status_body rs (map light_view rs) rest Hr Hp) as (es & E & E1 & E2 & _).
  - induction H as [|m rs Hm _ IH]; [constructor|]. cbn [map]. constructor; [|exact IH]. split; [assumption|].
    destruct Hm as (w & a & b & ->). unfold light_status_body, get_what, get_where. cbn [msg_where bind light_view].
    change (lit "1") with [49]. change (lit "0") with [48]. destruct (str_eqb a [49]); [reflexivity|]. destruct (str_eqb a [48]); reflexivity.
  - exists es. auto.
Qed.

(** ** Automations *)

Theorem auto_statuses it rs ps (rest : script) :
  ready it -> placed it ->
  Forall2 (fun m (p : str * auto_cmd) => exists w, m = MNormal w (dec (doc_automation (snd p))) (fst p)) rs ps ->
  exists es, auto_get_status it (map Some rs ++ Some MAck :: rest) = (es, rest, Ok tt) /\
    sents es = [frame_status (it_who it) (it_where it)] /\
    yields es = map (fun p => (fst p, auto_what (snd p))) ps.
Proof.
  intros Hr Hp H.
  destruct (status_all it auto_status_body rs (map (fun p => [(fst p, auto_what (snd p))]) ps) rest Hr Hp) as (es & E & E1 & E2 & _).
  - induction H as [|m [b c] rs ps (w & ->) _ IH]; [constructor|]. cbn [map]. constructor; [|exact IH].
    split; [repeat eexists|]. destruct c; reflexivity.
  - exists es. rewrite E2, concat_singles. auto.
Qed.

(** A state outside the three, e.g. that of an advanced shutter, ends the
    request with ValueError. *)
Theorem auto_unknown it rs ps w a b (rest : script) :
  ready it -> placed it ->
  Forall2 (fun m (p : str * auto_cmd) => exists w, m = MNormal w (dec (doc_automation (snd p))) (fst p)) rs ps ->
  (forall c, a <> dec (doc_automation c)) ->
  exists es, auto_get_status it (map Some rs ++ Some (MNormal w a b) :: rest) = (es, rest, Err ValueError) /\
    yields es = map (fun p => (fst p, auto_what (snd p))) ps.
Proof.
  intros Hr Hp H Ha. unfold auto_get_status, send_status_request, create_status_message.
  rewrite (andthen_ok _ _ _ _ _ _ (item_send_ok it _ _ _ Hr (status_bytes _ _ Hp))).
  unfold reply_loop. rewrite (proj2 Hr). cbn [negb].
  destruct (replies_undecodable is_normal normal auto_status_body rs (map (fun p => [(fst p, auto_what (snd p))]) ps) (MNormal w a b) ValueError rest
    is_normal_spec (proj1 not_normal_ack) (proj2 not_normal_ack)) as (es & -> & E1 & E2).
  - induction H as [|m [b' c] rs ps (w' & ->) _ IH]; [constructor|]. cbn [map]. constructor; [|exact IH].
    split; [repeat eexists|]. destruct c; reflexivity.
  - repeat eexists.
  - unfold auto_status_body, get_where, get_what. cbn [msg_where bind]. unfold enum_of.
    destruct (str_in a what_automation_values) eqn:I; [|reflexivity]. exfalso.
    unfold str_in in I. apply existsb_exists in I as (v & Hv & Ev). apply str_eqb_spec in Ev. subst v.
    cbn in Hv. destruct Hv as [<-|[<-|[<-|[]]]]; [apply (Ha stop)|apply (Ha up)|apply (Ha down)]; reflexivity.
  - eexists. split; [reflexivity|]. cbn [app yields]. rewrite E1. apply concat_singles.
Qed.

(** ** Integer dimensions *)

(** A dimension reply that carries (at least) the numbers [ns]. *)
Definition dim_reply (m : msg) (p : str * list N) : Prop :=
  exists w d vs more, m = MDimRes w (fst p) d (vs ++ more) /\ Forall2 valnum vs (snd p).

Lemma mapM_ints vs more ns :
  Forall2 valnum vs ns ->
  forall pre0, mapM (int_value (pre0 ++ vs ++ more)) (seq (length pre0) (length ns)) = Ok (map Z.of_N ns).
Proof.
  induction 1 as [|v n vs ns Hv _ IH]; intros pre0; [reflexivity|].
  cbn [length seq mapM map]. unfold int_value at 1, index.
  rewrite nth_error_app2 by lia. rewrite Nat.sub_diag. cbn [nth_error app bind]. rewrite (valnum_int v n Hv). cbn [bind].
  specialize (IH (pre0 ++ [v])). rewrite app_length, Nat.add_1_r in IH. rewrite <- app_assoc in IH. cbn [app] in IH.
  rewrite IH. reflexivity.
Qed.

Lemma ints_ok m p : dim_reply m p -> dimres m /\ ints_body (length (snd p)) m = Ok [(fst p, map Z.of_N (snd p))].
Proof.
  intros (w & d & vs & more & -> & H). split; [repeat eexists|].
  unfold ints_body, get_values, get_where. cbn [bind msg_where].
  pose proof (mapM_ints vs more (snd p) H []) as E. cbn [app length] in E. rewrite E. reflexivity.
Qed.

Theorem ints_request it dim n rs ps (rest : script) :
  ready it -> placed it -> tagtext dim ->
  Forall2 dim_reply rs ps -> Forall (fun p => length (snd p) = n) ps ->
  exists es, send_dimension_request it dim (ints_body n) (map Some rs ++ Some MAck :: rest) = (es, rest, Ok tt) /\
    sents es = [frame_dimreq (it_who it) (it_where it) dim] /\
    yields es = map (fun p => (fst p, map Z.of_N (snd p))) ps.
Proof.
  intros Hr Hp Hd H Hn.
  destruct (dimension_all it dim (ints_body n) rs (map (fun p => [(fst p, map Z.of_N (snd p))]) ps) rest Hr Hp Hd) as (es & E & E1 & E2 & _).
  - revert Hn. induction H as [|m p rs ps Hm _ IH]; intros Hn; [constructor|].
    inversion Hn as [|? ? Hn1 Hn2]; subst. cbn [map]. constructor; [|apply IH; exact Hn2].
    destruct (ints_ok m p Hm) as [H1 H2]. auto.
  - exists es. rewrite E2, concat_singles. auto.
Qed.

(** Too few values: IndexError. *)
Lemma mapM_short vs ns k :
  Forall2 valnum vs ns ->
  forall pre0, (0 < k)%nat -> mapM (int_value (pre0 ++ vs)) (seq (length pre0) (length ns + k)) = Err IndexError.
Proof.
  induction 1 as [|v n vs ns Hv _ IH]; intros pre0 Hk.
  - destruct k; [lia|]. cbn [length Nat.add seq mapM]. rewrite app_nil_r. unfold int_value at 1, index.
    rewrite (proj2 (nth_error_None pre0 (length pre0))) by lia. reflexivity.
  - cbn [length Nat.add seq mapM]. unfold int_value at 1, index.
    rewrite nth_error_app2 by lia. rewrite Nat.sub_diag. cbn [nth_error bind]. rewrite (valnum_int v n Hv). cbn [bind].
    specialize (IH (pre0 ++ [v]) Hk). rewrite app_length, Nat.add_1_r in IH. rewrite <- app_assoc in IH. cbn [app] in IH.
    rewrite IH. reflexivity.
Qed.

Theorem ints_short w b d vs ns k :
  Forall2 valnum vs ns -> (0 < k)%nat -> ints_body (length ns + k) (MDimRes w b d vs) = Err IndexError.
Proof.
  intros H Hk. unfold ints_body, get_values. cbn [bind]. pose proof (mapM_short vs ns k H [] Hk) as E. cbn [app length] in E. rewrite E. reflexivity.
Qed.

(** Every dimension request writes one frame. *)
Lemma streamed_sents {Y} want (body : msg -> res (list Y)) s x :
  streamed want body s x -> sents (evs_of x) = [].
Proof.
  induction 1 as [| | | | |m ys s es s' r Hw Hb _ IH]; try reflexivity.
  cbn [evs_of fst sents] in *. rewrite sents_app, IH. destruct (yields_map ys) as (_ & _ & ->). reflexivity.
Qed.

Lemma dimension_sents {Y} it dim (body : msg -> res (list Y)) (s : script) :
  ready it -> placed it -> tagtext dim ->
  sents (evs_of (send_dimension_request it dim body s)) = [frame_dimreq (it_who it) (it_where it) dim].
Proof.
  intros Hr Hp Hd. destruct (dimension_streamed it dim body s Hr Hp Hd) as (x & Hx & ->).
  apply streamed_sents in Hx. destruct x as [[es r] o]. cbn [pre evs_of fst app sents] in *. rewrite Hx. reflexivity.
Qed.

Theorem ints_request_short it dim n rs ps w b d vs ns (rest : script) :
  ready it -> placed it -> tagtext dim ->
  Forall2 dim_reply rs ps -> Forall (fun p => length (snd p) = n) ps ->
  Forall2 valnum vs ns -> (length ns < n)%nat ->
  exists es, send_dimension_request it dim (ints_body n) (map Some rs ++ Some (MDimRes w b d vs) :: rest) = (es, rest, Err IndexError) /\
    yields es = map (fun p => (fst p, map Z.of_N (snd p))) ps.
Proof.
  intros Hr Hp Hd H Hn Hv Hl. unfold send_dimension_request, create_dimension_request_message.
  rewrite (proj2 (mk_ok dim) Hd), andthen_lift.
  rewrite (andthen_ok _ _ _ _ _ _ (item_send_ok it _ _ _ Hr (dimreq_bytes _ _ _ Hp Hd))).
  unfold reply_loop. rewrite (proj2 Hr). cbn [negb].
  destruct (replies_undecodable is_dimres dimres (ints_body n) rs (map (fun p => [(fst p, map Z.of_N (snd p))]) ps) (MDimRes w b d vs) IndexError rest
    is_dimres_spec (proj1 not_dimres_ack) (proj2 not_dimres_ack)) as (es & -> & E1 & E2).
  - revert Hn. induction H as [|m p rs ps Hm _ IH]; intros Hn; [constructor|].
    inversion Hn as [|? ? Hn1 Hn2]; subst. cbn [map]. constructor; [|apply IH; exact Hn2].
    destruct (ints_ok m p Hm) as [H1 H2]. auto.
  - repeat eexists.
  - replace n with (length ns + (n - length ns))%nat by lia. apply ints_short; [assumption|lia].
  - eexists. split; [reflexivity|]. cbn [app yields]. rewrite E1. apply concat_singles.
Qed.
