(** * Proofs about the events of the documentation *)
From Coq Require Import String List NArith ZArith Bool Lia.
From Verif Require Import PyStr PyFloat Tags Messages MessageFacts SpecMsg SpecTag MessageThms MessageThms2 MessageThms3 Protocol SpecProto ProtoThms LightThms2 Gateway SpecGateway Energy
  SpecEnergy EnergyThms Dispatch SpecDispatch DispatchThms DispatchThms2 DispatchThms3 Errors Log LoopLog SpecLoopLog LoopLogThms SpecDocs.
Import ListNotations.
Open Scope N_scope.
Open Scope list_scope.

(** ** Tags *)

Lemma hh_skip c s : c <> 35 -> has_hh (c :: s) -> has_hh s.
Proof. intros N (u & v & E). destruct u as [|x u]; [injection E as E _; contradiction|]. injection E as _ E. exists u, v. exact E. Qed.

Lemma hh_hash d s : d <> 35 -> has_hh (35 :: d :: s) -> has_hh (d :: s).
Proof.
  intros N (u & v & E). destruct u as [|x u]; [injection E as E _; congruence|]. injection E as _ E. exists u, v. exact E.
Qed.

Lemma hash_wiretag d s : d <> 35 -> wiretag (d :: s) -> wiretag (35 :: d :: s).
Proof. intros N [T H]. split; [constructor; [right; reflexivity|exact T]|]. intros X. apply H, hh_hash, X. exact N. Qed.

Lemma params_cons x p ps : with_params x (p :: ps) = x ++ 35 :: with_params p ps.
Proof. unfold with_params. reflexivity. Qed.

Lemma params_wiretag ps : forall x, digits x -> Forall num ps -> wiretag (with_params x ps).
Proof.
  induction ps as [|p ps IH]; intros x Dx F.
  - unfold with_params. cbn [map concat]. rewrite app_nil_r. apply wiretag_digits, Dx.
  - inversion F as [|? ? [Dp Np] F']; subst. specialize (IH p Dp F'). rewrite params_cons.
    assert (W : wiretag (35 :: with_params p ps)).
    { destruct p as [|d p]; [congruence|]. unfold with_params in *. cbn [app] in *. apply hash_wiretag; [|exact IH].
      inversion Dp as [|? ? Hd _]; subst. unfold digitchar in Hd. lia. }
    clear - Dx W. induction Dx as [|c x Hc Dx IH]; [exact W|]. destruct IH as [T H]. cbn [app]. split.
    + constructor; [left; exact Hc|exact T].
    + intros X. apply H. eapply hh_skip; [|exact X]. unfold digitchar in Hc. lia.
Qed.

Lemma app_noend a b : b <> [] -> ~ ends_hash b -> ~ ends_hash (a ++ b).
Proof.
  intros N H (u & E). destruct (exists_last N) as (b' & y & ->). rewrite app_assoc in E. apply app_inj_tail in E as [_ ->].
  apply H. exists b'. reflexivity.
Qed.

Lemma params_noend ps : forall x, digits x -> Forall num ps -> ~ ends_hash (with_params x ps).
Proof.
  induction ps as [|p ps IH]; intros x Dx F.
  - unfold with_params. cbn [map concat]. rewrite app_nil_r. apply digits_noend, Dx.
  - inversion F as [|? ? [Dp Np] F']; subst. rewrite params_cons.
    change (35 :: with_params p ps) with ([35] ++ with_params p ps).
    apply app_noend; [discriminate|]. apply app_noend; [|apply IH; assumption].
    destruct p; [congruence|discriminate].
Qed.

Lemma groups_wiretag s : groups s -> wiretag s.
Proof. intros (x & ps & -> & D & F & _). apply params_wiretag; assumption. Qed.
Lemma groups_noend s : groups s -> ~ ends_hash s.
Proof. intros (x & ps & -> & D & F & _). apply params_noend; assumption. Qed.
Lemma num_groups s : num s -> groups s.
Proof. intros [D N]. exists s, []. split; [unfold with_params; cbn; rewrite app_nil_r; reflexivity|]. auto. Qed.
Lemma number_num s n : number s n -> num s.
Proof. intros (D & N & _). split; assumption. Qed.
Lemma one_num c : digitchar c -> num [c].
Proof. intros H. split; [constructor; [exact H|constructor]|discriminate]. Qed.
Lemma num_nohash s : num s -> nohash s.
Proof. intros [D _]. apply digits_nohash35, D. Qed.

Lemma meter_class whr : meter whr -> exists t, energy_class whr t.
Proof.
  intros (n & [D N] & [->|[->| ->]]); [exists STOP_GO|exists POWER_METER|exists ACTUATOR]; constructor; auto.
Qed.
Lemma meter_groups whr : meter whr -> groups whr.
Proof.
  intros (n & [D N] & [->|[->| ->]]).
  - apply num_groups. split; [|discriminate]. constructor; [unfold digitchar; lia|exact D].
  - apply num_groups. split; [|discriminate]. constructor; [unfold digitchar; lia|exact D].
  - exists (55 :: n), [lit "0"]. split; [reflexivity|]. split; [constructor; [unfold digitchar; lia|exact D]|]. split; [|discriminate].
    constructor; [|constructor]. split; [|discriminate]. apply digits_all. reflexivity.
Qed.

(** ** Packets *)

Definition sendable (l : list str) : Prop := l <> [] /\ Forall wiretag l /\ ~ ends_hash (last l []).

Definition stem (l : list str) : str := 42 :: join c_star l.

Lemma wire_stem l : l <> [] -> wire l = stem l ++ [35; 35].
Proof. intros N. rewrite wire_frame by exact N. reflexivity. Qed.

Lemma stem_concat l : l <> [] -> stem l = concat (map (cons 42) l).
Proof. intros N. pose proof (wire_stem l N) as E. unfold wire in E. apply app_inv_tail in E. symmetry. exact E. Qed.

Lemma stem_clean l : sendable l -> clean (stem l) /\ Forall wirechar (stem l).
Proof.
  intros (N & W & E). pose proof W as W'. apply wiretags in W' as [V C]. split; [split|].
  - apply star_nohh. apply has_hh_count. apply count_hh_join; auto.
  - rewrite stem_concat by exact N. destruct (exists_last N) as (l' & t & ->). rewrite last_last in E.
    rewrite map_app, concat_app. cbn [map concat]. rewrite app_nil_r. apply app_noend; [discriminate|].
    destruct t as [|c t]; [intros (u & X); destruct u as [|? [|? ?]]; discriminate X|].
    change (42 :: c :: t) with ([42] ++ c :: t). apply app_noend; [discriminate|exact E].
  - rewrite stem_concat by exact N. clear - W. induction W as [|t l [T _] W IH]; [constructor|]. cbn [map concat app].
    constructor; [right; reflexivity|]. apply Forall_app. split; [|exact IH]. eapply Forall_impl; [|exact T]. intros c H. left. exact H.
Qed.

Lemma parse_sendable l m : sendable l -> denotes l m -> parse_message (wire l) = Ok m.
Proof. intros (N & W & _) D. apply parse_ok_iff. exists l. split; [apply is_frame_self; assumption|exact D]. Qed.

Lemma wires_frames ls : Forall sendable ls -> concat (map wire ls) = frames (map stem ls).
Proof.
  intros F. unfold frames. f_equal. rewrite map_map. apply map_ext_in. intros l I. rewrite Forall_forall in F. apply wire_stem, F, I.
Qed.

Lemma frames_ascii ps : Forall (Forall wirechar) ps -> Forall (fun c => c < 128) (frames ps).
Proof.
  intros F. unfold frames. induction F as [|p ps H F IH]; [constructor|]. cbn [map concat].
  apply Forall_app. split; [|exact IH]. apply Forall_app. split; [apply wirechar_ascii, H|repeat constructor].
Qed.

Lemma wires_packet ls ms : Forall2 (fun l m => sendable l /\ denotes l m) ls ms -> packet_messages (concat (map wire ls)) = Ok ms.
Proof.
  intros F. assert (S : Forall sendable ls) by (clear - F; induction F as [|? ? ? ? [? _]]; constructor; assumption).
  assert (C : Forall clean (map stem ls)) by (apply Forall_map; eapply Forall_impl; [|exact S]; intros l H; apply stem_clean, H).
  assert (A : Forall (Forall wirechar) (map stem ls)) by (apply Forall_map; eapply Forall_impl; [|exact S]; intros l H; apply stem_clean, H).
  rewrite wires_frames by exact S. unfold packet_messages. rewrite decode_ascii_ok by (apply frames_ascii, A). cbn [bind].
  rewrite strip_of_stripped.
  2:{ apply frames_stripped; [exact C|]. destruct ls as [|l ls]; [constructor|]. cbn [map firstn]. constructor; [|constructor].
      exists 42, (join c_star l). auto. }
  rewrite <- (app_nil_r (frames _)), split_hh_frames by exact C. cbn [split_hh]. rewrite filter_app. cbn [filter nonempty]. rewrite app_nil_r.
  clear - F. induction F as [|l m ls ms [S D] F IH]; [reflexivity|]. cbn [map filter].
  replace (nonempty (stem l)) with true by reflexivity. cbn [mapM].
  change (stem l ++ hh) with (stem l ++ [35; 35]).
  rewrite <- wire_stem by apply S. rewrite (parse_sendable l m S D). cbn [bind]. rewrite IH. reflexivity.
Qed.

(** ** Rows *)

Definition meaning (tags : list str) (m : msg) (f : fate) : Prop :=
  match f with
  | Told w whr k args => reports m k args /\ msg_who m = Some w /\ msg_where m = Some whr /\ (forall v, ~ unknown_model m v) /\ msg_str m = wire tags
  | Passed_over => unheard m
  | Complained said => ptags m = said /\ exists w, msg_who m = Some w /\ with_items w /\
      (~ right_kind m \/ (right_kind m /\ ~ unheard m /\ forall k args, ~ reports m k args))
  | No_class w whr => msg_who m = Some w /\ msg_where m = Some whr /\ ~ with_items w
  | Unknown => m = MGeneric tags
  end.

Definition read (tags : list str) (f : fate) (m : msg) : Prop :=
  sendable tags /\ denotes tags m /\ meaning tags m f /\ ~ stray m.

Ltac wt := repeat first [apply Forall_nil | apply Forall_cons];
  try first [assumption | apply groups_wiretag; assumption | apply groups_wiretag, num_groups; assumption | apply groups_wiretag, num_groups; eapply number_num; eassumption
       | apply groups_wiretag, meter_groups; assumption | apply who_wiretag | apply wiretagb_spec; reflexivity].
Ltac ne := first [apply groups_noend; assumption | apply groups_noend, num_groups; assumption | apply groups_noend, num_groups; eapply number_num; eassumption].
Ltac unstray := let X := fresh in let E := fresh in intros [E X]; cbn in E; first [discriminate E | destruct X as (? & E' & X); injection E' as <-].

Lemma literal_dimres w whr d vs : (exists c r, d = c :: r /\ c <> 35) -> vs <> [] -> denotes ((35 :: who_str w) :: whr :: d :: vs) (MDimRes w whr d vs).
Proof. intros (c & r & -> & N) H. constructor; [intros [_ X]; contradiction|]. intros e [= E _]. contradiction. Qed.

(** An answer without values for its event. *)
Lemma complains c m : built m -> msg_who m = Some (class_who c) -> c <> C_Camera -> right_kind m -> (exists e, class_call c m = Err e) ->
  right_kind m /\ ~ unheard m /\ forall k args, ~ reports m k args.
Proof.
  intros B W Hc K [e E]. split; [exact K|]. split.
  - intros U. apply (unheard_iff m c W) in U. congruence.
  - intros k args R. apply (reports_iff c m k args B W Hc) in R. congruence.
Qed.

Lemma wiretag_text l : Forall wiretag l -> Forall tagtext l.
Proof. intros H. eapply Forall_impl; [|exact H]. intros t [T _]. exact T. Qed.

Lemma short_ints vs n : Forall tagtext vs -> (length vs < n)%nat -> exists e, tag_ints vs n = Err e.
Proof.
  intros T L. destruct (tag_ints vs n) as [l|e] eqn:E; [|eauto]. exfalso.
  apply (tag_ints_spec vs n l T) in E as (us & more & ns & -> & F & Ln & _). assert (length us = length ns) by (clear - F; induction F; cbn; congruence).
  rewrite app_length in L. lia.
Qed.

Lemma params_unknown d p ps whr vs : exists e, energy_call (MDimRes ENERGY_MANAGEMENT whr (with_params d (p :: ps)) vs) = Err e.
Proof.
  cbn [energy_call]. destruct (de_of (with_params d (p :: ps))) as [d'|e] eqn:E; cbn [bind]; [|eauto].
  exfalso. apply de_of_spec in E. pose proof (de_nohash d') as N1. rewrite <- E in N1. apply N1.
  unfold with_params. apply in_or_app. right. left. reflexivity.
Qed.

Lemma six_flags whr a b c d e f : exists x, energy_call (MDimRes ENERGY_MANAGEMENT whr (lit "71") [[a]; [b]; [c]; [d]; [e]; [f]]) = Err x.
Proof.
  cbn [energy_call]. replace (de_of (lit "71")) with (@Ok dim_energy ACTUATORS_INFO) by reflexivity. cbn [bind].
  unfold actuator_of. destruct (flag0 _ 0); cbn [bind]; [|eauto].
  replace (flag0 [[a]; [b]; [c]; [d]; [e]; [f]] 1) with (@Err bool IndexError) by reflexivity. cbn [bind]. eauto.
Qed.

Lemma no_model_light w whr d vs v : w <> GATEWAY -> ~ unknown_model (MDimRes w whr d vs) v.
Proof. intros N U. inversion U; subst; congruence. Qed.
Lemma unknown_dim w whr d vs v : unknown_model (MDimRes w whr d vs) v -> d = lit "15".
Proof. intros U. inversion U; subst. reflexivity. Qed.
Lemma no_model_normal w what whr v : ~ unknown_model (MNormal w what whr) v.
Proof. intros U. inversion U. Qed.

Lemma classless_spec w : In w classless -> ~ with_items w /\ w <> ENERGY_MANAGEMENT.
Proof. unfold classless, with_items. cbn. intros H. split; intuition (subst; discriminate). Qed.

Lemma num_start s : num s -> exists c r, s = c :: r /\ c <> 35.
Proof.
  intros [D N]. destruct s as [|c r]; [congruence|]. exists c, r. split; [reflexivity|]. inversion D as [|? ? H _]; subst. unfold digitchar in H. lia.
Qed.

Lemma whr_built w whr d vs : wiretag whr -> wiretag d -> Forall wiretag vs -> built (MDimRes w whr d vs).
Proof. intros A B C. split; [|discriminate]. cbn [free_tags]. apply wiretag_text. constructor; [exact A|]. constructor; assumption. Qed.

Lemma params_who x p ps : digits x -> x <> [] -> num p -> Forall num ps -> groups (with_params x (p :: ps)).
Proof.
  intros D N P F. exists x, (p :: ps). split; [reflexivity|]. split; [exact D|]. split; [constructor; assumption|].
  destruct x; [congruence|discriminate].
Qed.

Lemma last_nums vs : vs <> [] -> Forall num vs -> forall x, ~ ends_hash (last (x :: vs) []).
Proof.
  intros N F x. destruct (exists_last N) as (l & t & ->). change (x :: l ++ [t]) with ((x :: l) ++ [t]). rewrite last_last.
  apply Forall_app in F as [_ F]. inversion F; subst. ne.
Qed.

Lemma nums_wt vs : Forall num vs -> Forall wiretag vs.
Proof. intros F. eapply Forall_impl; [|exact F]. intros s H. apply groups_wiretag, num_groups, H. Qed.
Lemma groups_wt vs : Forall groups vs -> Forall wiretag vs.
Proof. intros F. eapply Forall_impl; [|exact F]. intros s H. apply groups_wiretag, H. Qed.

Lemma light_ans whr d vs : groups whr -> num d -> vs <> [] -> Forall num vs ->
  sendable (lit "#1" :: whr :: d :: vs) /\ denotes (lit "#1" :: whr :: d :: vs) (MDimRes LIGHTING whr d vs) /\ built (MDimRes LIGHTING whr d vs).
Proof.
  intros G D N F. split; [|split].
  - split; [discriminate|]. split; [wt; apply nums_wt, F|].
    change (last (lit "#1" :: whr :: d :: vs) []) with (last (d :: vs) []). apply last_nums; assumption.
  - apply (literal_dimres LIGHTING whr d vs); [apply num_start, D|exact N].
  - apply whr_built; [apply groups_wiretag, G|apply groups_wiretag, num_groups, D|apply nums_wt, F].
Qed.

Lemma energy_ans whr d vs : meter whr -> groups d -> (exists c r, d = c :: r /\ c <> 35) -> vs <> [] -> Forall num vs ->
  sendable (lit "#18" :: whr :: d :: vs) /\ denotes (lit "#18" :: whr :: d :: vs) (MDimRes ENERGY_MANAGEMENT whr d vs) /\
  built (MDimRes ENERGY_MANAGEMENT whr d vs) /\ ~ stray (MDimRes ENERGY_MANAGEMENT whr d vs) /\
  msg_str (MDimRes ENERGY_MANAGEMENT whr d vs) = wire (lit "#18" :: whr :: d :: vs).
Proof.
  intros G D St N F. split; [|split; [|split; [|split]]].
  - split; [discriminate|]. split; [wt; apply nums_wt, F|].
    change (last (lit "#18" :: whr :: d :: vs) []) with (last (d :: vs) []). apply last_nums; assumption.
  - apply (literal_dimres ENERGY_MANAGEMENT whr d vs); assumption.
  - apply whr_built; [apply groups_wiretag, meter_groups, G|apply groups_wiretag, D|apply nums_wt, F].
  - intros [_ (x & E & X)]. cbn in E. injection E as <-. apply meter_class in G as [t G]. exact (X t G).
  - rewrite msg_str_wire. cbn [ptags]. destruct vs; [congruence|]. reflexivity.
Qed.

Lemma lit_num (s : string) : all_digits (lit s) = true -> lit s <> [] -> num (lit s).
Proof. intros D N. split; [apply digits_all, D|exact N]. Qed.
Ltac ln := apply lit_num; [reflexivity|discriminate].
Ltac nums := repeat first [apply Forall_nil | apply Forall_cons]; first [assumption | eapply number_num; eassumption].
Ltac said := first [reflexivity | rewrite msg_str_wire; reflexivity].

Lemma normal_read w what whr f : groups what -> groups whr -> meaning [who_str w; what; whr] (MNormal w what whr) f -> w <> ENERGY_MANAGEMENT ->
  read [who_str w; what; whr] f (MNormal w what whr).
Proof.
  intros Gw G M N. split; [|split; [constructor|split; [exact M|]]].
  - split; [discriminate|]. split; [wt|ne].
  - intros [E _]. cbn in E. congruence.
Qed.

Lemma light_complaint whr d n e vs : light_dim e d n -> groups whr -> vs <> [] -> Forall num vs -> (length vs < n)%nat ->
  read (lit "#1" :: whr :: d :: vs) (Complained (lit "#1" :: whr :: d :: vs)) (MDimRes LIGHTING whr d vs).
Proof.
  intros Ld G N F L. assert (Nd : num d) by (destruct Ld; ln).
  destruct (light_ans whr d vs G Nd N F) as (S & D & B). split; [exact S|]. split; [exact D|]. split; [|unstray]. cbn [meaning].
  split; [destruct vs; [congruence|reflexivity]|]. exists LIGHTING. split; [reflexivity|]. split; [cbn; tauto|]. right.
  apply (complains C_Light); [exact B|reflexivity|discriminate|cbn; tauto|]. cbn [class_call].
  destruct (short_ints vs n) as [x E]; [apply wiretag_text, nums_wt, F|exact L|]. exists x.
  destruct Ld; cbn [light_call]; unfold twp_tag; cbn -[tag_ints]; rewrite E; reflexivity.
Qed.

Lemma light_passed whr d vs : num d -> (forall e n, ~ light_dim e d n) -> groups whr -> vs <> [] -> Forall num vs ->
  read (lit "#1" :: whr :: d :: vs) Passed_over (MDimRes LIGHTING whr d vs).
Proof.
  intros Nd Ld G N F. destruct (light_ans whr d vs G Nd N F) as (S & D & B). split; [exact S|]. split; [exact D|]. split; [|unstray]. cbn [meaning].
  replace d with (with_params d []) at 1 by (unfold with_params; cbn; apply app_nil_r). constructor; [apply num_nohash, Nd|constructor|exact Ld].
Qed.

Lemma light_set whr d vs : num d -> groups whr -> vs <> [] -> Forall num vs ->
  read (lit "#1" :: whr :: (35 :: d) :: vs) (Complained (lit "#1" :: whr :: (35 :: d) :: vs)) (MDimWri LIGHTING whr d vs).
Proof.
  intros Nd G N F. split; [|split; [apply (D_dimwri LIGHTING), Nd|split; [|unstray]]].
  - split; [discriminate|]. split.
    + wt; [|apply nums_wt, F]. destruct (num_start d Nd) as (c & r & -> & Nc). apply hash_wiretag; [exact Nc|]. apply groups_wiretag, num_groups, Nd.
    + change (last (lit "#1" :: whr :: (35 :: d) :: vs) []) with (last ((35 :: d) :: vs) []). apply last_nums; assumption.
  - cbn [meaning]. split; [destruct vs; [congruence|reflexivity]|]. exists LIGHTING. split; [reflexivity|]. split; [cbn; tauto|]. left. cbn. discriminate.
Qed.

Theorem row_read tags f : row tags f -> exists m, read tags f m.
Proof.
  intros R. destruct R as [what whr b Hw G B|what whr Hw G|whr l s G Hl Hs|whr l s G Hl Hs|whr t G Ht|whr h s v nh ns nv G Hh Hs Hv|whr t G Ht
    |whr h m s G Hh Hm Hs|whr t G Ht|whr t G Ht|what whr I G|what p ps whr I P F G|what Hw|whr a b c d G Ha Hb Hc Hd|whr p l t G Hp Hl Ht
    |w vs args N NV F V|d whr v f I G Hv Rd|whr v n G Hv|whr v G D L|d whr v I G Hv|d p ps whr v vs I P F G Hv Fv|whr a b c d e f G D
    |w what whr I Hw G|w whr d v vs I G Gd Dd Gv F|w what I Hw|what Hw|what Hw].
  - exists (MNormal LIGHTING what whr). apply (normal_read LIGHTING); [apply num_groups, Hw|exact G| |discriminate].
    cbn [meaning]. split; [constructor; exact B|]. split; [reflexivity|]. split; [reflexivity|]. split; [apply no_model_normal|said].
  - exists (MNormal LIGHTING (with_params (lit "1000") [what]) whr). apply (normal_read LIGHTING); [|exact G| |discriminate].
    + apply params_who; [apply digits_all; reflexivity|discriminate|exact Hw|constructor].
    + cbn [meaning]. split; [constructor; split; discriminate|]. split; [reflexivity|]. split; [reflexivity|]. split; [apply no_model_normal|said].
  - exists (MDimRes LIGHTING whr (lit "1") [l; s]). apply (light_complaint whr (lit "1") 3 LIGHT_TEMPORIZATION); [constructor|exact G|discriminate|nums|cbn; lia].
  - exists (MDimWri LIGHTING whr (lit "2") [l; s]). apply (light_set whr (lit "2")); [ln|exact G|discriminate|nums].
  - exists (MDimWri LIGHTING whr (lit "9") [t]). apply (light_set whr (lit "9")); [ln|exact G|discriminate|nums].
  - exists (MDimRes LIGHTING whr (lit "12") [h; s; v]).
    destruct (light_ans whr (lit "12") [h; s; v] G ltac:(ln) ltac:(discriminate) ltac:(nums)) as (S & D & B).
    split; [exact S|]. split; [exact D|]. split; [|unstray]. cbn [meaning].
    split; [|split; [reflexivity|split; [reflexivity|split; [intros x; apply no_model_light; discriminate|said]]]].
    apply (Rep_light HSV_CHANGE (lit "12") 3 [] [h; s; v] [] [nh; ns; nv]); [constructor|constructor| |reflexivity].
    constructor; [|constructor; [|constructor; [|constructor]]]; (eexists; split; [left; reflexivity|eassumption]).
  - exists (MDimRes LIGHTING whr (lit "14") [t]). apply (light_passed whr (lit "14")); [ln|intros e n X; inversion X|exact G|discriminate|nums].
  - exists (MDimRes LIGHTING whr (lit "2") [h; m; s]). apply (light_passed whr (lit "2")); [ln|intros e n X; inversion X|exact G|discriminate|nums].
  - exists (MDimRes LIGHTING whr (lit "8") [t]). apply (light_complaint whr (lit "8") 2 LUMINOSITY_CHANGE); [constructor|exact G|discriminate|nums|cbn; lia].
  - exists (MDimRes LIGHTING whr (lit "9") [t]). apply (light_passed whr (lit "9")); [ln|intros e n X; inversion X|exact G|discriminate|nums].
  - exists (MNormal AUTOMATION what whr). apply (normal_read AUTOMATION); [|exact G| |discriminate].
    + apply num_groups. destruct I as [<-|[<-|[<-|[]]]]; ln.
    + cbn [meaning]. split; [constructor; exact I|]. split; [reflexivity|]. split; [reflexivity|]. split; [apply no_model_normal|said].
  - exists (MNormal AUTOMATION (with_params what (p :: ps)) whr).
    assert (Nw : num what) by (destruct I as [<-|[<-|[<-|[<-|[]]]]]; ln).
    assert (Gw : groups (with_params what (p :: ps))) by (apply params_who; [apply Nw|apply Nw|exact P|exact F]).
    apply (normal_read AUTOMATION); [exact Gw|exact G| |discriminate].
    cbn [meaning]. split; [said|]. exists AUTOMATION. split; [reflexivity|]. split; [cbn; tauto|]. right.
    split; [cbn; tauto|]. split; [intros U; inversion U|]. intros k args R. inversion R as [| |? ? X| | |]; subst.
    assert (Y : In 35 (with_params what (p :: ps))) by (unfold with_params; apply in_or_app; right; left; reflexivity).
    destruct X as [X|[X|[X|[]]]]; rewrite <- X in Y; cbv in Y; intuition discriminate.
  - exists (MGeneric [lit "2"; with_params (lit "1000") [what]]). split; [|split; [|split; [reflexivity|unstray]]].
    + split; [discriminate|]. assert (X : groups (with_params (lit "1000") [what])).
      { apply params_who; [apply digits_all; reflexivity|discriminate|exact Hw|constructor]. }
      split; [wt|]. cbn [last]. ne.
    + apply D_generic. apply K_generic2; [intros (w & E & _); discriminate E|intros [E _]; discriminate E].
  - exists (MDimRes AUTOMATION whr (lit "10") [a; b; c; d]). split; [|split; [|split; [|unstray]]].
    + split; [discriminate|]. split; [wt|]. cbn [last]. ne.
    + apply (literal_dimres AUTOMATION); [eexists; eexists; split; [reflexivity|discriminate]|discriminate].
    + cbn [meaning]. split; [said|]. exists AUTOMATION. split; [reflexivity|]. split; [cbn; tauto|]. left. cbn. intuition discriminate.
  - exists (MDimRes AUTOMATION whr (with_params (lit "11") [p; l]) [t]).
    assert (X : groups (with_params (lit "11") [p; l])).
    { apply params_who; [apply digits_all; reflexivity|discriminate|exact Hp|constructor; [exact Hl|constructor]]. }
    split; [|split; [|split; [|unstray]]].
    + split; [discriminate|]. split; [wt|cbn [last]; ne]. apply hash_wiretag; [discriminate|]. apply groups_wiretag, X.
    + apply (D_dimres_hash AUTOMATION). intros D. apply digits_nohash35 in D. apply D. unfold with_params. apply in_or_app. right. left. reflexivity.
    + cbn [meaning]. split; [said|]. exists AUTOMATION. split; [reflexivity|]. split; [cbn; tauto|]. left. cbn. intuition discriminate.
  - exists (MDimRes GATEWAY [] (wg_str w) vs). split; [|split; [|split; [|unstray]]].
    + split; [discriminate|]. split; [wt; [destruct w; apply wiretagb_spec; reflexivity|apply nums_wt, F]|].
      change (last (lit "#13" :: [] :: wg_str w :: vs) []) with (last (wg_str w :: vs) []). apply last_nums; assumption.
    + apply (literal_dimres GATEWAY); [destruct w; eexists; eexists; (split; [reflexivity|discriminate])|exact NV].
    + cbn [meaning]. split; [constructor; exact V|]. split; [reflexivity|]. split; [reflexivity|]. split.
      * intros x U. assert (X : wg_str w = lit "15") by (eapply unknown_dim, U). destruct w; try discriminate X. apply N. reflexivity.
      * rewrite msg_str_wire. destruct vs; [congruence|reflexivity].
  - destruct (energy_ans whr (de_str d) [v] G) as (S & D & B & St & Sd).
    { apply num_groups. destruct I as [<-|[<-|[<-|[<-|[]]]]]; ln. }
    { destruct d; eexists; eexists; (split; [reflexivity|discriminate]). }
    { discriminate. } { nums. }
    exists (MDimRes ENERGY_MANAGEMENT whr (de_str d) [v]). split; [exact S|]. split; [exact D|]. split; [|exact St]. cbn [meaning].
    split; [constructor; apply EV_float; [exact I|apply Hv|apply Hv|exact Rd]|].
    split; [reflexivity|split; [reflexivity|split; [intros x; apply no_model_light; discriminate|exact Sd]]].
  - destruct (energy_ans whr (lit "73") [v] G) as (S & D & B & St & Sd).
    { apply num_groups. ln. } { eexists; eexists; (split; [reflexivity|discriminate]). } { discriminate. } { nums. }
    exists (MDimRes ENERGY_MANAGEMENT whr (lit "73") [v]). split; [exact S|]. split; [exact D|]. split; [|exact St]. cbn [meaning].
    split; [apply (Rep_energy DIFFERENTIAL_CURRENT_LEVEL); apply EV_level; exact Hv|].
    split; [reflexivity|split; [reflexivity|split; [intros x; apply no_model_light; discriminate|exact Sd]]].
  - assert (Nv : num v) by (split; [exact D|intros ->; discriminate L]).
    destruct (energy_ans whr (lit "250") [v] G) as (S & Dn & B & St & Sd).
    { apply num_groups. ln. } { eexists; eexists; (split; [reflexivity|discriminate]). } { discriminate. } { nums. }
    exists (MDimRes ENERGY_MANAGEMENT whr (lit "250") [v]). split; [exact S|]. split; [exact Dn|]. split; [|exact St]. cbn [meaning].
    split; [|split; [reflexivity|split; [reflexivity|split; [intros x; apply no_model_light; discriminate|exact Sd]]]].
    assert (E : firstn 13 v = v) by (apply firstn_all2; rewrite L; apply le_n).
    apply (Rep_energy STATUS_STOP_GO_GENERAL whr [v]). pose proof (EV_stop_go v []) as X. unfold str in *. rewrite E in X. apply X; [rewrite L; apply le_n|exact D].
  - assert (Nd : num d) by (unfold states in I; cbn [map In] in I; repeat (destruct I as [<-|I]; [ln|]); destruct I).
    destruct (energy_ans whr d [v] G) as (S & D & B & St & Sd).
    { apply num_groups, Nd. } { apply num_start, Nd. } { discriminate. } { nums. }
    exists (MDimRes ENERGY_MANAGEMENT whr d [v]). split; [exact S|]. split; [exact D|]. split; [|exact St]. cbn [meaning].
    constructor. right. exact I.
  - assert (Nd : num d) by (unfold reports_dims in I; cbn [map In] in I; repeat (destruct I as [<-|I]; [ln|]); destruct I).
    assert (Gd : groups (with_params d (p :: ps))) by (apply params_who; [apply Nd|apply Nd|exact P|exact F]).
    destruct (energy_ans whr (with_params d (p :: ps)) (v :: vs) G Gd) as (S & D & B & St & Sd).
    { destruct (num_start d Nd) as (c & r & -> & Nc). eexists; eexists; split; [reflexivity|exact Nc]. } { discriminate. } { constructor; assumption. }
    exists (MDimRes ENERGY_MANAGEMENT whr (with_params d (p :: ps)) (v :: vs)). split; [exact S|]. split; [exact D|]. split; [|exact St]. cbn [meaning].
    split; [reflexivity|]. exists ENERGY_MANAGEMENT. split; [reflexivity|]. split; [cbn; tauto|]. right.
    apply (complains C_Energy); [exact B|reflexivity|discriminate|cbn; tauto|]. apply params_unknown.
  - destruct (energy_ans whr (lit "71") [[a]; [b]; [c]; [d]; [e]; [f]] G) as (S & Dn & B & St & Sd).
    { apply num_groups. ln. } { eexists; eexists; (split; [reflexivity|discriminate]). } { discriminate. }
    { repeat (inversion D as [|? ? ?X D']; clear D; rename D' into D; subst). repeat first [apply Forall_nil|apply Forall_cons]; apply one_num; assumption. }
    exists (MDimRes ENERGY_MANAGEMENT whr (lit "71") [[a]; [b]; [c]; [d]; [e]; [f]]). split; [exact S|]. split; [exact Dn|]. split; [|exact St]. cbn [meaning].
    split; [reflexivity|]. exists ENERGY_MANAGEMENT. split; [reflexivity|]. split; [cbn; tauto|]. right.
    apply (complains C_Energy); [exact B|reflexivity|discriminate|cbn; tauto|]. apply six_flags.
  - apply classless_spec in I as [NI NE]. exists (MNormal w what whr). apply normal_read; [exact Hw|exact G| |exact NE]. cbn. auto.
  - apply classless_spec in I as [NI NE]. exists (MDimRes w whr d (v :: vs)).
    assert (X : exists c r, d = c :: r /\ c <> 35).
    { destruct Gd as (x & ps & E & _ & _ & N). destruct d as [|c r]; [congruence|]. exists c, r. split; [reflexivity|].
      cbn [firstn] in Dd. inversion Dd as [|? ? Hc _]; subst. unfold digitchar in Hc. lia. }
    split; [|split; [|split; [cbn; auto|intros [E _]; cbn in E; congruence]]].
    + split; [discriminate|]. split.
      * constructor; [pose proof (who_wiretag w) as W; pose proof (who_str_digits w) as Dw; apply digits_all in Dw|].
        { unfold hashed. destruct (who_str w) as [|c r] eqn:E; [exfalso; exact (who_str_not_nil w E)|]. apply hash_wiretag; [|exact W].
          inversion Dw as [|? ? Hc _]; subst. unfold digitchar in Hc. lia. }
        wt. apply groups_wt, F.
      * change (last (hashed w :: whr :: d :: v :: vs) []) with (last (v :: vs) []).
        destruct (exists_last (l := v :: vs) ltac:(discriminate)) as (l & t & E). rewrite E, last_last.
        assert (Fa : Forall groups (l ++ [t])) by (rewrite <- E; constructor; assumption).
        apply Forall_app in Fa as [_ Fa]. inversion Fa; subst. ne.
    + apply (literal_dimres w); [exact X|discriminate].
  - exists (MNormal w what []). assert (NI : ~ with_items w /\ w <> ENERGY_MANAGEMENT) by (unfold with_items; cbn in *; intuition (subst; discriminate)).
    destruct NI as [NI NE]. split; [|split; [constructor|split; [cbn; auto|intros [E _]; cbn in E; congruence]]].
    split; [discriminate|]. split; [wt|]. cbn [last]. intros (u & E). destruct u; discriminate E.
  - exists (MGeneric [lit "5"; what; []; []]). split; [|split; [|split; [reflexivity|unstray]]].
    + split; [discriminate|]. split; [wt|]. cbn [last]. intros (u & E). destruct u; discriminate E.
    + apply D_generic. apply K_generic4. intros (w & E & _). discriminate E.
  - exists (MGeneric [lit "7"; what]). split; [|split; [|split; [reflexivity|unstray]]].
    + split; [discriminate|]. split; [wt|]. cbn [last]. ne.
    + apply D_generic. apply K_generic2; [intros (w & E & _); discriminate E|intros [E _]; discriminate E].
Qed.

(** ** Histories *)

Definition event_read (e : registry * (list str * fate)) (e' : registry * msg) : Prop :=
  fst e = fst e' /\ read (fst (snd e)) (snd (snd e)) (snd e').

Lemma rows_read l : Forall (fun e => row (fst e) (snd e)) l -> exists ms, Forall2 (fun e m => read (fst e) (snd e) m) l ms.
Proof.
  intros F. induction F as [|e l R F [ms IH]]; [exists []; constructor|]. destruct (row_read _ _ R) as [m M]. exists (m :: ms). constructor; assumption.
Qed.

Theorem history_observed r acts evs q : history r acts evs q ->
  exists evs' q', observed r acts evs' q' /\ Forall2 event_read evs evs' /\ Forall2 (fun e m => read (fst e) (snd e) m) q q'.
Proof.
  intros H. induction H as [|acts evs q l H (evs' & q' & O & F1 & F2) R|acts evs q k c H (evs' & q' & O & F1 & F2)|acts evs q w whr H (evs' & q' & O & F1 & F2) T
    |acts evs q H (evs' & q' & O & F1 & F2)].
  - exists [], []. split; [constructor|]. split; constructor.
  - destruct (rows_read l R) as [ms M]. exists evs', (q' ++ ms). split; [|split; [exact F1|apply Forall2_app; assumption]].
    apply O_packet; [exact O|]. rewrite <- (map_map fst wire). apply wires_packet.
    clear - M. induction M as [|e m l ms (S & D & _) M IH]; [constructor|]. cbn [map]. constructor; auto.
  - exists evs', q'. split; [apply O_register; exact O|]. auto.
  - exists evs', q'. split; [apply O_lookup; assumption|]. auto.
  - exists (evs' ++ map (fun m => (registered r acts, m)) q'), []. split; [apply O_wake, O|]. split; [|constructor].
    apply Forall2_app; [exact F1|]. clear - F2. induction F2 as [|e m q q' R F2 IH]; [constructor|]. cbn [map]. constructor; [|exact IH]. split; [reflexivity|exact R].
Qed.

Lemma read_built tags f m : read tags f m -> built m.
Proof. intros (S & D & _). eapply parse_built, parse_sendable; eassumption. Qed.

Lemma events_calm evs evs' : Forall2 event_read evs evs' -> Forall (fun ev => ~ stray (snd ev)) evs'.
Proof. intros F. induction F as [|e e' evs evs' (_ & _ & _ & _ & S) F IH]; constructor; assumption. Qed.

Lemma made_called its r tags f m ts : read tags f m -> made its r m ts -> called its r f ts.
Proof.
  intros Rd M. pose proof (read_built _ _ _ Rd) as B. destruct Rd as (_ & _ & Me & _).
  destruct f as [w whr k args| |said|w whr|]; cbn [meaning called] in *.
  - destruct Me as (R & W & Wh & _). destruct M as [k' args' w' whr' i ts R' W' Wh' Hi C|H]; [|exfalso; exact (H _ _ R)].
    destruct (reports_unique _ _ _ _ _ B R R') as [<- <-]. rewrite W in W'. injection W' as <-. rewrite Wh in Wh'. injection Wh' as <-.
    exists i. auto.
  - destruct M as [k' args' w' whr' i ts R' W' Wh' Hi C|H]; [|reflexivity]. exfalso. exact (reports_heard _ _ _ B R' Me).
  - destruct M as [k' args' w' whr' i ts R' W' Wh' Hi C|H]; [|reflexivity]. exfalso.
    destruct Me as (_ & w & _ & _ & [X|(_ & _ & X)]); [exact (X (reports_kind _ _ _ R'))|exact (X _ _ R')].
  - destruct M as [k' args' w' whr' i ts R' W' Wh' Hi C|H]; [|reflexivity]. exfalso. destruct Me as (W & _ & NI).
    apply reports_kind, kind_items in R' as (w0 & W0 & I). rewrite W in W0. injection W0 as <-. exact (NI I).
  - destruct M as [k' args' w' whr' i ts R' W' Wh' Hi C|H]; [|reflexivity]. subst m. inversion R'.
Qed.

Lemma no_remarks m l : (forall v, ~ unknown_model m v) -> remarks m l -> l = [].
Proof. intros N R. destruct R as [v U|_]; [exfalso; exact (N v U)|reflexivity]. Qed.

Lemma account_recorded why r tags f m l : read tags f m -> account why r m l -> recorded r tags f l.
Proof.
  intros Rd A. pose proof (read_built _ _ _ Rd) as B. destruct Rd as (_ & _ & Me & _).
  destruct f as [w whr k args| |said|w whr|]; cbn [meaning] in Me.
  - destruct Me as (R & W & Wh & U & Sd).
    assert (D : refused r k args \/ ~ refused r k args).
    { destruct (existsb (fun f => negb (cb_takes f (Datatypes.S (length args)))) (r k)) eqn:E.
      - left. apply existsb_exists in E as (f & I & T). exists f. split; [exact I|]. apply negb_true_iff, T.
      - right. intros (f & I & T). assert (X : existsb (fun f => negb (cb_takes f (Datatypes.S (length args)))) (r k) = true).
        { apply existsb_exists. exists f. split; [exact I|]. rewrite T. reflexivity. } congruence. }
    destruct D as [D|D].
    + assert (X : account why r m ([] ++ [Rec L_client ERROR (lit "There was an error in the callback: " ++ why r m); not_found m])).
      { eapply A_refused; [exact R|exact D|]. apply Rem_none, U. }
      rewrite (account_unique _ _ _ _ _ B A X). cbn [app]. unfold not_found. rewrite Sd. apply RC_refused. exact D.
    + assert (X : account why r m []) by (eapply A_called; [exact R|exact D|apply Rem_none, U]).
      rewrite (account_unique _ _ _ _ _ B A X). constructor. exact D.
  - rewrite (account_unique _ _ _ _ _ B A (A_unheard why r m Me)). constructor.
  - destruct Me as (<- & w & W & I & [K|(K & NU & NR)]).
    + rewrite (account_unique _ _ _ _ _ B A (A_kind why r m w W I K)). unfold not_found. rewrite (msg_str_wire m). constructor.
    + rewrite (account_unique _ _ _ _ _ B A (A_values why r m K NU NR)). unfold not_found. rewrite (msg_str_wire m). constructor.
  - destruct Me as (W & Wh & NI). rewrite (account_unique _ _ _ _ _ B A (A_no_items why r m w whr W Wh NI)). constructor.
  - subst m. rewrite (account_unique _ _ _ _ _ B A (A_generic why r tags)).
    assert (E : msg_str (MGeneric tags) = wire tags).
    { rewrite msg_str_wire. cbn [ptags]. destruct tags; [destruct B as [_ B]; exfalso; exact (B _ eq_refl eq_refl)|reflexivity]. }
    rewrite E. constructor.
Qed.

Theorem documented_run why v r acts evs q : v < 13 -> history r acts evs q ->
  exists its tss ls,
    st_loop (run v (enter v (Dispatch.connected r)) acts) = Dispatch.Waiting /\ st_trans (run v (enter v (Dispatch.connected r)) acts) = Some false /\
    st_items (run v (enter v (Dispatch.connected r)) acts) = its /\ NoDup its /\
    length (st_queue (run v (enter v (Dispatch.connected r)) acts)) = length q /\
    st_started (run v (enter v (Dispatch.connected r)) acts) = concat tss /\
    l_log (run_l why v (enter_l why v (Dispatch.connected r)) acts) = concat ls /\
    Forall2 (fun ev ts => called its (fst ev) (snd (snd ev)) ts) evs tss /\
    Forall2 (fun ev l => recorded (fst ev) (fst (snd ev)) (snd (snd ev)) l) evs ls.
Proof.
  intros Hv H. destruct (history_observed _ _ _ _ H) as (evs' & q' & O & F1 & F2). pose proof (events_calm _ _ F1) as NS.
  destruct (observed_run v r acts evs' q' Hv O NS) as (_ & its & tss & E & [N1 _] & M).
  destruct (observed_log why v r acts evs' q' Hv O NS) as (ls & El & A).
  exists its, tss, ls. rewrite E, El. unfold open_state. cbn [st_loop st_trans st_items st_queue st_started].
  split; [reflexivity|]. split; [reflexivity|]. split; [reflexivity|]. split; [exact N1|].
  split; [clear - F2; induction F2; cbn; congruence|]. split; [reflexivity|]. split; [reflexivity|].
  assert (G : forall {B : Type} (P : registry * msg -> B -> Prop) (Q : registry * (list str * fate) -> B -> Prop) l,
    (forall e e' x, event_read e e' -> P e' x -> Q e x) -> Forall2 P evs' l -> Forall2 Q evs l).
  { clear - F1. intros B P Q. induction F1 as [|e e' evs evs' R F1 IH]; intros l HPQ F; inversion F; subst; constructor; eauto. }
  split.
  - eapply G; [|exact M]. intros [r1 [tags f]] [r2 m] x [E1 R] P. cbn in *. subst r2. eapply made_called; eassumption.
  - eapply G; [|exact A]. intros [r1 [tags f]] [r2 m] x [E1 R] P. cbn in *. subst r2. eapply account_recorded; eassumption.
Qed.

(** ** One fate for each event *)

Theorem fate_unique tags f f' : row tags f -> row tags f' -> f = f'.
Proof.
  intros R R'. destruct (row_read _ _ R) as [m M]. destruct (row_read _ _ R') as [m' M'].
  assert (m' = m) as -> by (destruct M as (_ & D & _); destruct M' as (_ & D' & _); eapply denotes_functional; eassumption).
  pose proof (read_built _ _ _ M) as B. destruct M as (_ & _ & A & _). destruct M' as (_ & _ & A' & _). clear R R'.
  assert (T : forall w whr k args f, meaning tags m (Told w whr k args) -> meaning tags m f -> Told w whr k args = f).
  { clear A A' f f'. intros w whr k args f (R & W & Wh & _) A'. destruct f as [w' whr' k' args'| |said'|w' whr'|]; cbn [meaning] in A'.
    - destruct A' as (R' & W' & Wh' & _). destruct (reports_unique _ _ _ _ _ B R R') as [<- <-]. congruence.
    - exfalso. exact (reports_heard _ _ _ B R A').
    - exfalso. destruct A' as (_ & ? & _ & _ & [X|(_ & _ & X)]); [exact (X (reports_kind _ _ _ R))|exact (X _ _ R)].
    - exfalso. destruct A' as (W' & _ & NI). apply reports_kind, kind_items in R as (w0 & W0 & I). congruence.
    - subst m. inversion R. }
  assert (N : forall w whr f, meaning tags m (No_class w whr) -> meaning tags m f -> No_class w whr = f).
  { clear A A' f f'. intros w whr f A A'. destruct f as [w' whr' k' args'| |said'|w' whr'|]; try (symmetry; eapply T; eassumption); cbn [meaning] in A, A'.
    - exfalso. destruct A as (W & _ & NI). apply unheard_items in A' as (w0 & W0 & I). congruence.
    - exfalso. destruct A as (W & _ & NI). destruct A' as (_ & w0 & W0 & I & _). congruence.
    - destruct A as (W & Wh & _), A' as (W' & Wh' & _). congruence.
    - subst m. destruct A as (W & _). discriminate W. }
  destruct f as [w whr k args| |said|w whr|]; try (eapply T; eassumption); try (eapply N; eassumption);
    destruct f' as [w' whr' k' args'| |said'|w' whr'|]; try (symmetry; eapply T; eassumption); try (symmetry; eapply N; eassumption); cbn [meaning] in A, A'; try reflexivity.
  - exfalso. destruct A' as (_ & ? & _ & _ & [X|(_ & X & _)]); [exact (X (unheard_kind _ A))|exact (X A)].
  - subst m. inversion A.
  - exfalso. destruct A as (_ & ? & _ & _ & [X|(_ & X & _)]); [exact (X (unheard_kind _ A'))|exact (X A')].
  - destruct A as (<- & _), A' as (<- & _). reflexivity.
  - subst m. destruct A as (_ & ? & W & _). discriminate W.
  - subst m. inversion A'.
  - subst m. destruct A' as (_ & ? & W & _). discriminate W.
Qed.

(** ** The auxiliaries *)

Lemma wires_bad ls1 ms1 l e ls2 : Forall2 (fun l m => sendable l /\ denotes l m) ls1 ms1 -> sendable l -> parse_message (wire l) = Err e ->
  Forall sendable ls2 -> packet_messages (concat (map wire (ls1 ++ l :: ls2))) = Err e.
Proof.
  intros F Sl P F2.
  assert (S1 : Forall sendable ls1) by (clear - F; induction F as [|? ? ? ? [? _]]; constructor; assumption).
  assert (S : Forall sendable (ls1 ++ l :: ls2)) by (apply Forall_app; split; [exact S1|constructor; assumption]).
  assert (C : Forall clean (map stem (ls1 ++ l :: ls2))) by (apply Forall_map; eapply Forall_impl; [|exact S]; intros x H; apply stem_clean, H).
  assert (A : Forall (Forall wirechar) (map stem (ls1 ++ l :: ls2))) by (apply Forall_map; eapply Forall_impl; [|exact S]; intros x H; apply stem_clean, H).
  rewrite wires_frames by exact S. unfold packet_messages. rewrite decode_ascii_ok by (apply frames_ascii, A). cbn [bind].
  rewrite strip_of_stripped.
  2:{ apply frames_stripped; [exact C|]. destruct ls1 as [|l1 ls1]; cbn [app map firstn]; (constructor; [|constructor]).
      - exists 42, (join c_star l). auto.
      - exists 42, (join c_star l1). auto. }
  rewrite <- (app_nil_r (frames _)), split_hh_frames by exact C. cbn [split_hh]. rewrite filter_app. cbn [filter nonempty]. rewrite app_nil_r.
  rewrite map_app, filter_app. cbn [map filter]. replace (nonempty (stem l)) with true by reflexivity.
  apply (mapM_first_err _ _ (stem l) _ e ms1).
  - clear - F. induction F as [|l m ls ms [S D] F IH]; [reflexivity|]. cbn [map filter].
    replace (nonempty (stem l)) with true by reflexivity. cbn [mapM].
    change (stem l ++ hh) with (stem l ++ [35; 35]).
    rewrite <- wire_stem by apply S. rewrite (parse_sendable l m S D). cbn [bind]. rewrite IH. reflexivity.
  - change (stem l ++ hh) with (stem l ++ [35; 35]). rewrite <- wire_stem by apply Sl. exact P.
Qed.

Lemma auxiliary_error k n : num k -> num n -> sendable [lit "9"; k; n] /\ parse_message (wire [lit "9"; k; n]) = Err ValueError.
Proof.
  intros K N. assert (S : sendable [lit "9"; k; n]) by (split; [discriminate|]; split; [wt|cbn [last]; ne]). split; [exact S|].
  apply parse_value_error_iff. exists [lit "9"; k; n], (lit "9"). split; [apply is_frame_self; apply S|]. split.
  - constructor. constructor; [discriminate|]. intros (w & E & _). discriminate E.
  - intros [w E]. destruct w; discriminate E.
Qed.

Theorem auxiliary_ends v r acts evs k n pre post : v < 13 -> history r acts evs [] -> num k -> num n ->
  Forall (fun e => row (fst e) (snd e)) pre -> Forall (fun e => row (fst e) (snd e)) post -> forall more,
  let s := run v (enter v (Dispatch.connected r)) (acts ++ Packet (concat (map wire (map fst pre ++ [lit "9"; k; n] :: map fst post))) :: more) in
  st_loop s = Dispatch.Waiting /\ st_queue s = [] /\ st_started s = st_started (run v (enter v (Dispatch.connected r)) acts).
Proof.
  intros Hv H K N Fp Fq more s.
  destruct (documented_run (fun _ _ => []) v r acts evs [] Hv H) as (its & tss & ls & L & T & _ & _ & Q & _).
  unfold s. replace (acts ++ Packet _ :: more) with ((acts ++ [Packet (concat (map wire (map fst pre ++ [lit "9"; k; n] :: map fst post)))]) ++ more) by (rewrite <- app_assoc; reflexivity).
  rewrite run_app, run_snoc. destruct (auxiliary_error k n K N) as [S E].
  rewrite (bad_packet v _ _ ValueError T).
  - apply closed_waits; [cbn; tauto|exact L|]. destruct (st_queue _); [reflexivity|discriminate Q].
  - destruct (rows_read pre Fp) as [ms M]. apply (wires_bad _ ms); [|exact S|exact E|].
    + clear - M. induction M as [|e m l ms (S & D & _) M IH]; [constructor|]. cbn [map]. constructor; auto.
    + apply Forall_map. eapply Forall_impl; [|exact Fq]. intros e R. apply row_read in R as [m (S' & _)]. exact S'.
Qed.

Theorem auxiliary_closes q k n pre post later : num k -> num n ->
  Forall (fun e => row (fst e) (snd e)) pre -> Forall (fun e => row (fst e) (snd e)) post ->
  feed {| c_queue := q; c_open := true |} (concat (map wire (map fst pre ++ [lit "9"; k; n] :: map fst post)) :: later) = {| c_queue := q; c_open := false |}.
Proof.
  intros K N Fp Fq. destruct (auxiliary_error k n K N) as [S E]. destruct (rows_read pre Fp) as [ms M].
  unfold feed. cbn [fold_left]. unfold deliver at 2. cbn [c_open c_queue]. unfold data_received.
  rewrite (wires_bad (map fst pre) ms [lit "9"; k; n] ValueError (map fst post)).
  - apply feed_closed.
  - clear - M. induction M as [|e m l ms (S & D & _) M IH]; [constructor|]. cbn [map]. constructor; auto.
  - exact S.
  - exact E.
  - apply Forall_map. eapply Forall_impl; [|exact Fq]. intros e R. apply row_read in R as [m (S' & _)]. exact S'.
Qed.
