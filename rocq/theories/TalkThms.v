(** * Documented answers: proofs *)
From Coq Require Import String List NArith ZArith Bool Lia.
From Verif Require Import PyStr PyDate PyFloat Tags Messages SpecMsg SpecTag TagThms MessageFacts MessageThms MessageThms2 MessageThms3 ProtoThms LightThms HandshakeThms IO Client Items SpecItem ItemThms LightThms2 Lighting
  SpecLight SpecGateway Gateway CalendarThms GatewayThms PropGateway Energy SpecEnergy FloatThms EnergyThms EnergyThms2 EnergyThms3 SpecDocs DocsThms SpecTalk.
Import ListNotations.
Open Scope N_scope.
Open Scope list_scope.

Definition spoken (f : list str) (m : msg) : Prop := sendable f /\ denotes f m.

Lemma ack_spoken : spoken ack MAck.
Proof.
  split; [|exact D_ack]. split; [discriminate|]. split.
  - apply Forall_cons; [apply wiretagb_spec; reflexivity|]. apply Forall_cons; [apply wiretagb_spec; reflexivity|]. apply Forall_nil.
  - cbn [last ack]. apply (digits_noend (lit "1")), digits_all. reflexivity.
Qed.

Lemma dec_num n : num (dec n).
Proof. split; [apply digits_all, dec_digits|apply dec_not_nil]. Qed.

Lemma state_spoken w p : groups (snd p) -> spoken (state_of w p) (MNormal w (dec (fst p)) (snd p)).
Proof.
  intros G. split; [|constructor]. split; [discriminate|]. split; [|cbn [last state_of]; apply groups_noend, G].
  unfold state_of. apply Forall_cons; [destruct w; apply wiretagb_spec; reflexivity|].
  apply Forall_cons; [apply groups_wiretag, num_groups, dec_num|]. apply Forall_cons; [apply groups_wiretag, G|apply Forall_nil].
Qed.

Lemma value_spoken w whr d vs : wiretag whr -> groups d -> (exists c r, d = c :: r /\ c <> 35) -> vs <> [] -> Forall num vs ->
  spoken (value w whr d vs) (MDimRes w whr d vs).
Proof.
  intros G D St N F. split; [|apply literal_dimres; assumption]. split; [discriminate|]. split.
  - unfold value, hashed. apply Forall_cons; [destruct w; apply wiretagb_spec; reflexivity|]. apply Forall_cons; [exact G|].
    apply Forall_cons; [apply groups_wiretag, D|apply nums_wt, F].
  - change (last (value w whr d vs) []) with (last (d :: vs) []). apply last_nums; assumption.
Qed.

Lemma num_value w whr d vs : wiretag whr -> num d -> vs <> [] -> Forall num vs -> spoken (value w whr d vs) (MDimRes w whr d vs).
Proof. intros G D. apply value_spoken; [exact G|apply num_groups, D|apply num_start, D]. Qed.

Lemma fixed_num k s n : fixed k s n -> num s.
Proof. intros [(D & _ & N & _) _]. split; assumption. Qed.

(** A run of a method on the answer. *)
Definition hears {Y A} (x : io Y A) (fs : list (list str)) (ys : list Y) (r : res A) (left : list (list str)) : Prop :=
  forall rest, exists ms ls, Forall2 spoken fs ms /\ Forall2 spoken left ls /\
    yields (evs_of (x (map Some ms ++ rest))) = ys /\ res_of (x (map Some ms ++ rest)) = r /\
    rest_of (x (map Some ms ++ rest)) = map Some ls ++ rest.

Lemma no_yields (l : list Empty_set) : l = [].
Proof. destruct l as [|[]]. reflexivity. Qed.

Lemma hears_one {A} (x : io Empty_set A) f m r :
  spoken f m -> (forall rest, exists fr, got (x (Some m :: Some MAck :: rest)) fr rest r) -> hears x [f; ack] [] r [].
Proof.
  intros S H rest. exists [m; MAck], []. split; [constructor; [exact S|constructor; [exact ack_spoken|constructor]]|].
  split; [constructor|]. destruct (H rest) as (fr & _ & E1 & E2). cbn [map app]. split; [apply no_yields|]. split; assumption.
Qed.

Lemma one_answer w whr d vs rest : answers vs (Some (MDimRes w whr d vs) :: Some MAck :: rest) rest.
Proof. exists w, whr, d, []. split; [constructor|reflexivity]. Qed.

Lemma asks {A} it w (decode : list str -> res A) d vs r : ready it -> placed it -> num d -> vs <> [] -> Forall num vs -> decode vs = r ->
  hears (Y:=Empty_set) (ask_gateway it w decode) [value GATEWAY [] d vs; ack] [] r [].
Proof.
  intros Hr Hp D N F E. eapply hears_one.
  - apply num_value; try assumption. apply wiretagb_spec. reflexivity.
  - intros rest. eexists. apply (asked it w decode vs); try assumption. apply one_answer.
Qed.

Lemma normals ps w (Q : N * str -> Prop) : Forall (fun p => Q p /\ groups (snd p)) ps ->
  Forall2 spoken (map (state_of w) ps) (map (fun p => MNormal w (dec (fst p)) (snd p)) ps).
Proof. induction 1 as [|p ps [_ G] F IH]; cbn [map]; constructor; [apply state_spoken, G|exact IH]. Qed.

Lemma spoken_ack fs ms : Forall2 spoken fs ms -> Forall2 spoken (fs ++ [ack]) (ms ++ [MAck]).
Proof. intros F. apply Forall2_app; [exact F|]. constructor; [exact ack_spoken|constructor]. Qed.

Lemma stream_map (ms : list msg) (rest : script) : map Some (ms ++ [MAck]) ++ rest = map Some ms ++ Some MAck :: rest.
Proof. rewrite map_app, <- app_assoc. reflexivity. Qed.

Lemma dec_tagnum n : n <= 99 -> tagnum (dec n) n.
Proof.
  intros L. exists (dec n), []. split; [unfold with_params; cbn; rewrite app_nil_r; reflexivity|]. split; [constructor|].
  split; [apply digits_all, dec_digits|]. split; [apply dec_not_nil|]. split; [rewrite value_of_dval; apply dval_dec|]. apply (small_len n). lia.
Qed.

Lemma light_hears it ps : ready it -> placed it -> Forall (fun p => fst p <= 31 /\ groups (snd p)) ps ->
  hears (light_get_status it) (map (state_of LIGHTING) ps ++ [ack]) (concat (map on_off ps)) (Ok tt) [].
Proof.
  intros Hr Hp F rest. exists (map (fun p => MNormal LIGHTING (dec (fst p)) (snd p)) ps ++ [MAck]), [].
  split; [apply spoken_ack; exact (normals ps LIGHTING _ F)|]. split; [constructor|]. rewrite stream_map.
  destruct (light_statuses it (map (fun p => MNormal LIGHTING (dec (fst p)) (snd p)) ps) rest Hr Hp) as (es & E & _ & E2).
  { apply Forall_map, Forall_forall. intros p _. repeat eexists. }
  rewrite E. cbn [evs_of res_of rest_of fst snd]. split; [|split; reflexivity]. rewrite E2, map_map. f_equal. apply map_ext_in. intros p I.
  rewrite Forall_forall in F. destruct (F p I) as [L _]. destruct p as [n whr]. cbn [fst snd] in *. unfold on_off. cbn [fst snd].
  clear - L. assert (I : In n (map N.of_nat (seq 0 32))) by (apply in_map_iff; exists (N.to_nat n); split; [lia|apply in_seq; lia]).
  cbn in I. repeat (destruct I as [<-|I]; [reflexivity|]). destruct I.
Qed.

Lemma dimmer_hears it ps : ready it -> placed it -> Forall (fun p => fst p <= 31 /\ groups (snd p)) ps ->
  hears (dimmer_get_status it) (map (state_of LIGHTING) ps ++ [ack]) (map (fun p => (snd p, (10 * Z.of_N (fst p))%Z)) ps) (Ok tt) [].
Proof.
  intros Hr Hp F rest. exists (map (fun p => MNormal LIGHTING (dec (fst p)) (snd p)) ps ++ [MAck]), [].
  split; [apply spoken_ack; exact (normals ps LIGHTING _ F)|]. split; [constructor|]. rewrite stream_map.
  destruct (dimmer_levels it (map (fun p => MNormal LIGHTING (dec (fst p)) (snd p)) ps) (map (fun p => (snd p, fst p)) ps) rest Hr Hp) as (es & E & _ & E2).
  { clear - F. induction F as [|p ps [L _] F IH]; cbn [map]; constructor; [|exact IH]. exists LIGHTING, (dec (fst p)). split; [reflexivity|].
    apply dec_tagnum. cbn [snd]. lia. }
  rewrite E. cbn [evs_of res_of rest_of fst snd]. split; [|split; reflexivity]. rewrite E2, map_map. reflexivity.
Qed.

Lemma shutter_hears it ps : ready it -> placed it -> Forall (fun p => fst p <= 2 /\ groups (snd p)) ps ->
  hears (auto_get_status it) (map (state_of AUTOMATION) ps ++ [ack]) (map (fun p => (snd p, dec (fst p))) ps) (Ok tt) [].
Proof.
  intros Hr Hp F rest. exists (map (fun p => MNormal AUTOMATION (dec (fst p)) (snd p)) ps ++ [MAck]), [].
  split; [apply spoken_ack; exact (normals ps AUTOMATION _ F)|]. split; [constructor|]. rewrite stream_map.
  set (c := fun n => match n with 0 => stop | 1 => up | _ => down end).
  destruct (auto_statuses it (map (fun p => MNormal AUTOMATION (dec (fst p)) (snd p)) ps) (map (fun p => (snd p, c (fst p))) ps) rest Hr Hp) as (es & E & _ & E2).
  { clear - F. induction F as [|p ps [L _] F IH]; cbn [map]; constructor; [|exact IH]. exists AUTOMATION. cbn [fst snd]. f_equal.
    assert (fst p = 0 \/ fst p = 1 \/ fst p = 2) as [-> | [-> | ->]] by lia; reflexivity. }
  rewrite E. cbn [evs_of res_of rest_of fst snd]. split; [|split; reflexivity]. rewrite E2, map_map. apply map_ext_in. intros p I.
  rewrite Forall_forall in F. destruct (F p I) as [L _]. cbn [fst snd]. f_equal.
  assert (fst p = 0 \/ fst p = 1 \/ fst p = 2) as [-> | [-> | ->]] by lia; reflexivity.
Qed.

Lemma quiet_hears {Y} it dim (body : msg -> res (list Y)) : ready it -> placed it -> tagtext dim ->
  hears (send_dimension_request it dim body) [ack] [] (Ok tt) [].
Proof.
  intros Hr Hp T rest. exists [MAck], []. split; [constructor; [exact ack_spoken|constructor]|]. split; [constructor|].
  destruct (dimension_all it dim body [] [] rest Hr Hp T) as (es & E & _ & E2 & _); [constructor|].
  cbn [map app] in *. rewrite E. cbn [evs_of res_of rest_of fst snd]. rewrite E2. auto.
Qed.

Lemma on_hears {Y} it dim (body : msg -> res (list Y)) p ps : ready it -> placed it -> tagtext dim -> Forall (fun p => fst p <= 31 /\ groups (snd p)) (p :: ps) ->
  hears (send_dimension_request it dim body) (map (state_of LIGHTING) (p :: ps) ++ [ack]) [] (Err ResponseError) (map (state_of LIGHTING) ps ++ [ack]).
Proof.
  intros Hr Hp T F rest. exists (map (fun p => MNormal LIGHTING (dec (fst p)) (snd p)) (p :: ps) ++ [MAck]), (map (fun p => MNormal LIGHTING (dec (fst p)) (snd p)) ps ++ [MAck]).
  split; [apply spoken_ack; exact (normals (p :: ps) LIGHTING _ F)|]. inversion F as [|? ? _ F']; subst.
  split; [apply spoken_ack; exact (normals ps LIGHTING _ F')|]. cbn [map app].
  unfold send_dimension_request, create_dimension_request_message. rewrite (proj2 (mk_ok dim) T), andthen_lift.
  rewrite (andthen_ok _ _ _ _ _ _ (item_send_ok it _ _ _ Hr (dimreq_bytes _ _ _ Hp T))).
  unfold reply_loop. rewrite (proj2 Hr). cbn [negb]. cbn. auto.
Qed.
