(** * Tasks that share one client, in front of a house: proofs *)
From Coq Require Import String List NArith ZArith Bool Lia.
From Verif Require Import PyStr Tags Messages MessageFacts SpecMsg SpecTag MessageThms MessageThms2 MessageThms3 TagThms SpecProto ProtoThms Protocol Queue IO Client SpecItem Items
  Lighting SpecLight HandshakeThms ItemThms LightThms LightThms2 FrameThms Conc SpecConc ConcThms SpecSerial SerialThms SpecHouse HouseThms HouseThms2 NoticeThms SpecCrash CrashThms SpecTogether SerialThms2.
Import ListNotations.
Open Scope N_scope.
Open Scope list_scope.

Lemma digits_plain d : digits d -> ~ ends_hash d.
Proof. intros D (u & ->). unfold digits in D. apply Forall_app in D as (_ & D). inversion D; subst. unfold digitchar in *. lia. Qed.
Lemma dec_plain n : ~ ends_hash (dec n).
Proof. apply digits_plain. apply MessageThms.digits_all. apply dec_digits. Qed.

Lemma does_plain gw h c h1 obs r evs : plain h -> does gw h c h1 obs r evs -> plain h1.
Proof.
  intros P D. assert (K : forall w a f, (forall p, (forall d vs, p_dims p d = Some vs -> Forall (fun v => ~ ends_hash v) vs) ->
      (forall d vs, p_dims (f p) d = Some vs -> Forall (fun v => ~ ends_hash v) vs)) -> plain (done_to gw w a f h)).
  { intros w a f F. unfold plain, done_to. apply Forall_forall. intros p Hp. apply in_map_iff in Hp as (q & <- & I).
    unfold plain in P. rewrite Forall_forall in P. destruct (aimed gw w a q); [apply F|]; apply P, I. }
  assert (O : exists o ans evs, stands_for c o /\ obeys gw h o h1 ans evs).
  { destruct D as [o Ho X|o h' ans evs Ho Ac X O|o h' ans evs yss Ho Ac X O F]; exists o; [exists [frame_nack], []; split; [assumption|]; apply Ob_nobody, X| |]; eauto. }
  destruct O as (o & ans & evs' & Ho & O). destruct O; try assumption; apply K.
  - intros p Hp d vs X. apply (Hp d vs X).
  - intros p Hp d' vs' X. cbn in X. destruct (str_eqb d d'); [|apply (Hp d' vs' X)]. injection X as <-.
    inversion Ho; subst; repeat (apply Forall_cons; [apply dec_plain|]); apply Forall_nil.
Qed.

Lemma wire_end l v u : ~ ends_hash v -> wire (l ++ [v]) <> u ++ [35; 35; 35].
Proof.
  intros H E. unfold wire in E. rewrite map_app, concat_app in E. cbn [map concat] in E. rewrite app_nil_r in E.
  change [35; 35; 35] with ([35] ++ [35; 35]) in E. rewrite (app_assoc u) in E. apply app_inv_tail in E.
  destruct v as [|x v'].
  - apply app_inj_tail in E as (_ & E). discriminate.
  - assert (N : x :: v' <> []) by discriminate. destruct (exists_last N) as (a & y & Ex). rewrite Ex in *.
    change (42 :: a ++ [y]) with ((42 :: a) ++ [y]) in E. rewrite app_assoc in E. apply app_inj_tail in E as (_ & ->). apply H. exists a. reflexivity.
Qed.
Lemma ack_streamable : streamable MAck.
Proof. split; [split; [apply Forall_nil|exact I]|]. intros (u & E). apply (wire_end [[35]] [49] u); [intros (w & W); destruct w as [|? [|]]; discriminate|exact E]. Qed.
Lemma nack_streamable : streamable MNack.
Proof. split; [split; [apply Forall_nil|exact I]|]. intros (u & E). apply (wire_end [[35]] [48] u); [intros (w & W); destruct w as [|? [|]]; discriminate|exact E]. Qed.
Lemma dim_streamable w a d vs : wiretag a -> digits d -> Forall wiretag vs -> vs <> [] -> Forall (fun v => ~ ends_hash v) vs -> streamable (MDimRes w a d vs).
Proof.
  intros A D V N H. split.
  - split; [constructor; [assumption|]; constructor; [apply digits_wire, D|assumption]|]. split; [|assumption]. intros e ->. inversion D; subst. unfold digitchar in *. lia.
  - intros (u & E). destruct vs as [|v0 vs0]; [congruence|]. rewrite <- dimres_frame in E. unfold frame_dimres in E.
    destruct (exists_last N) as (l & v & El). rewrite El in *. apply Forall_app in H as (_ & H). inversion H; subst.
    apply (wire_end ((35 :: who_str w) :: a :: d :: l) v u); assumption.
Qed.

(** ** One answer *)

Lemma frames_streamable gw h w (o : order) : house_ok h -> plain h ->
  match o with Status w' _ => w' = w | Dimension w' _ d => w' = w /\ w = LIGHTING /\ digits d /\ d <> [] | _ => False end ->
  exists ms, concat (map (frames_of o) (filter (at_whom gw o) h)) = map msg_str ms /\ Forall streamable ms /\
    Forall (fun m => match o with Status _ _ => normal m | _ => dimres m end) ms.
Proof.
  intros Hh P K. assert (G : Forall (fun p => point_ok p /\ (forall d vs, p_dims p d = Some vs -> Forall (fun v => ~ ends_hash v) vs) /\ p_who p = w) (filter (at_whom gw o) h)).
  { apply Forall_forall. intros p Hp. apply filter_In in Hp as (I & A). unfold house_ok in Hh. unfold plain in P. rewrite Forall_forall in Hh, P.
    split; [apply Hh, I|]. split; [apply P, I|]. destruct o; try contradiction; cbn [at_whom] in A; unfold aimed in A; apply andb_true_iff in A as (A & _); apply who_eqb_true in A; [congruence|].
    destruct K; congruence. }
  induction G as [|p ps (Pk & Pl & Pw) G (ms & E & S & F)]; [exists []; repeat split; constructor|]. cbn [map concat].
  destruct o as [| |w' a|w' a d]; try contradiction.
  - exists (state_msg p :: ms). rewrite E. cbn [frames_of app map]. rewrite state_str. split; [reflexivity|]. split; constructor; auto; [apply state_streamable, Pk|].
    unfold normal, state_msg. eauto.
  - destruct K as (-> & -> & Dg & Dn). rewrite E. cbn [frames_of]. unfold frame_dim. destruct (p_dims p d) as [vs|] eqn:X; [|exists ms; auto].
    pose proof Pk as (A & B & C & L & _). destruct (L Pw) as (_ & Ds). destruct (Ds d vs X) as (W & vs1 & more & ns & Ev & V & Ln).
    assert (N : vs <> []).
    { intros ->. destruct vs1; [|discriminate]. inversion V; subst. unfold enough in Ln. destruct (str_eqb d [49]); [discriminate|]. destruct (str_eqb d [50] || str_eqb d [49; 50])%bool; discriminate. }
    exists (MDimRes (p_who p) (p_where p) d vs :: ms). cbn [map app]. split; [|split; constructor; auto].
    + destruct vs as [|v vs]; [congruence|]. rewrite dimres_frame. reflexivity.
    + apply dim_streamable; auto. apply (Pl d vs X).
    + unfold dimres. eauto.
Qed.

Lemma command_alone gw h c o m h1 evs r : house_ok h -> call_ok c -> stands_for c o -> asks c = false ->
  obeys gw h o h1 [msg_str m] evs -> parse_message (msg_str m) = Ok m -> (m = MAck /\ r = Ok tt) \/ (m = MNack /\ r = Err ResponseError) ->
  exists es, program c [Some m] = (es, [], r) /\ does gw h c h1 (yields es) r evs.
Proof.
  intros Hh Hok Ho Ac O Pm Hm. pose proof Hok as (_ & Hw & _). destruct (command_program c o [Some m] Hok Ho Ac) as (Hc & A).
  assert (X : program c [Some m] = ([Sent (order_frame o); Got m], [], r)).
  { destruct (program c [Some m]) as [[es s1] r1]. destruct Hm as [(-> & ->)|(-> & ->)]; inversion A; subst; try congruence; reflexivity. }
  exists [Sent (order_frame o); Got m]. split; [exact X|].
  destruct (one_call gw h c _ _ _ _ h1 [] (evs ++ []) Hh Hok X) as (_ & D).
  - eapply Sv_sent; [exists o; split; [apply (stands_ok c o Hw Ho)|split; [reflexivity|exact O]]|]. cbn [app]. eapply Sv_got; [exact Pm|apply Sv_nil].
  - intros ->. reflexivity.
  - rewrite app_nil_r in D. exact D.
Qed.

Lemma answer_whole gw h c o p h1 ans evs : house_ok h -> plain h -> call_ok c -> stands_for c o -> waits c p -> obeys gw h o h1 ans evs ->
  exists ms es r, ans = map msg_str ms /\ Forall streamable ms /\ whole_answer p ms r /\ program c (map Some ms) = (es, [], r) /\ does gw h c h1 (yields es) r evs.
Proof.
  intros Hh P Hok Ho W O. pose proof Hok as (_ & Hw & _). pose proof (stands_ok c o Hw Ho) as Oo.
  destruct (asks c) eqn:Ac.
  - destruct (call_asks c o Hok Ho Ac) as (Y & f & want & body & g & Eg & Eq & Wn & R). specialize (R gw h Hh). destruct (existsb (at_whom gw o) h) eqn:X.
    + destruct (read_all want body (frames_of o) _ (fun p ys => shows p c (map f ys)) R) as (yss & fyss & F & _ & Gd).
      assert (K : ~ changes o) by (inversion Ho; subst; cbn; try discriminate Ac; auto).
      destruct (obeys_ask gw h o h1 ans evs K X O) as (-> & Ea).
      assert (M : exists ms, concat (map (frames_of o) (filter (at_whom gw o) h)) = map msg_str ms /\ Forall streamable ms /\
        Forall (fun m => match o with Status _ _ => normal m | _ => dimres m end) ms).
      { apply (frames_streamable gw h (call_who c)); [assumption|assumption|].
        inversion Ho; subst; try discriminate Ac; cbn [call_who]; auto. split; [reflexivity|]. split; [reflexivity|]. split; [apply req_digits|destruct r; discriminate]. }
      destruct M as (ms & Em & S & Fm).
      assert (Gm : Forall2 (fun fr m => parse_message fr = Ok m /\ want m /\ exists ys, body m = Ok ys) (map msg_str ms) ms).
      { rewrite Em in Gd. clear - Gd S. revert fyss Gd. induction S as [|m ms Sm S IH]; intros fyss Gd; inversion Gd as [|? ys ? ? (m' & Pm & Wm & Bm) Gd']; subst; constructor; [|eapply IH, Gd'].
        rewrite (print_parse m (proj1 Sm)) in Pm. injection Pm as <-. split; [apply print_parse, Sm|]. eauto. }
      destruct (Eq (map Some ms ++ Some MAck :: [])) as (x & Hx & Ep).
      destruct (stream_exists gw want body [] h Wn _ _ Gm x Hx) as (es & -> & Sv).
      assert (Pr : program c (map Some (ms ++ [MAck])) = (retag f (Sent (order_frame o) :: es), [], Ok tt)).
      { rewrite map_app, Eg. unfold tagged. cbn [map]. rewrite Ep. reflexivity. }
      exists (ms ++ [MAck]), (retag f (Sent (order_frame o) :: es)), (Ok tt). rewrite Ea.
      split; [rewrite map_app, Em; reflexivity|]. split; [apply Forall_app; split; [assumption|]; constructor; [apply ack_streamable|constructor]|].
      split; [|split; [exact Pr|]].
      * inversion W as [? A|? keep A B Kp|it r keep Kp]; subst; [congruence| |].
        -- apply W_replies. eapply Forall_impl; [|exact Fm]. intros m Hm.
           assert (Nm : normal m) by (inversion Ho; subst; try discriminate Ac; try assumption; exfalso; eapply B; reflexivity).
           split; [apply Kp, Nm|]. apply normal_not_ack, Nm.
        -- apply W_replies. eapply Forall_impl; [|exact Fm]. intros m Hm.
           assert (Nm : dimres m) by (inversion Ho; subst; assumption).
           split; [apply Kp, Nm|]. apply dimres_not_ack, Nm.
      * destruct (one_call gw h c _ _ _ _ h [] (evs ++ []) Hh Hok Pr) as (_ & D); [|discriminate|rewrite app_nil_r in D; exact D].
        apply serving_retag'. eapply Sv_sent; [exists o; split; [exact Oo|split; [reflexivity|exact O]]|]. cbn [app]. rewrite Ea, Em. exact Sv.
    + destruct (obeys_nobody _ _ _ _ _ _ X O) as (-> & -> & ->).
      destruct (Eq [Some MNack]) as (x & Hx & Ep).
      assert (Ex : x = ([Got MNack], [], Err ResponseError)).
      { inversion Hx; subst; try reflexivity; match goal with W : want MNack |- _ => destruct (Wn _ W); congruence end. }
      subst x. assert (Pr : program c [Some MNack] = (retag f [Sent (order_frame o); Got MNack], [], Err ResponseError)) by (rewrite Eg; unfold tagged; rewrite Ep; reflexivity).
      exists [MNack], (retag f [Sent (order_frame o); Got MNack]), (Err ResponseError).
      split; [reflexivity|]. split; [constructor; [apply nack_streamable|constructor]|].
      split; [|split; [exact Pr|eapply Do_nobody; eauto]].
      inversion W; subst; [congruence| |]; apply (W_refused keep [] MNack); auto; discriminate.
  - assert (K : (ans = [frame_ack]) \/ (ans = [frame_nack] /\ existsb (at_whom gw o) h = false)).
    { destruct O; auto; inversion Ho; subst; discriminate. }
    destruct K as [->|(-> & X)].
    + destruct (command_alone gw h c o MAck h1 evs (Ok tt) Hh Hok Ho Ac O eq_refl ltac:(auto)) as (es & Pr & D).
      exists [MAck], es, (Ok tt). split; [reflexivity|]. split; [constructor; [apply ack_streamable|constructor]|]. split; [|auto].
      inversion W; subst; try congruence; [constructor|discriminate Ac].
    + destruct (command_alone gw h c o MNack h1 evs (Err ResponseError) Hh Hok Ho Ac O eq_refl ltac:(auto)) as (es & Pr & D).
      exists [MNack], es, (Err ResponseError). split; [reflexivity|]. split; [constructor; [apply nack_streamable|constructor]|]. split; [|auto].
      inversion W; subst; try congruence; [apply W_other; discriminate|discriminate Ac].
Qed.

(** ** All answers *)

(** [alone c ms x]: the call made alone, on these messages, ends like this. *)
Definition alone (c : call) (ms : list msg) (x : list (str * seen) * res unit) : Prop :=
  exists es, program c (map Some ms) = (es, [], snd x) /\ yields es = fst x.
Definition tagged_with (x : nat * list msg) : list (nat * msg) := map (pair (fst x)) (snd x).

Lemma exchange_story gw : gateway_ok gw -> forall h out es h' out' evs, exchange gw h out es h' out' evs -> forall cs ms, house_ok h -> plain h ->
  made (all_calls es) cs -> Forall call_ok cs -> out = map msg_str ms -> Forall streamable ms ->
  exists log ans later pks, story gw h cs log evs h' /\ dialogue (all_calls es) ans /\ map snd ans = map snd log /\
    Forall2 (fun c x => alone c (fst x) (snd x)) cs (combine (map fst ans) log) /\
    out' = map msg_str later /\ received_packets es = map texts pks /\ Forall (Forall streamable) pks /\
    ms ++ concat (map fst ans) = concat pks ++ later.
Proof.
  intros G h out es h' out' evs X. induction X as [h out|h out i p b h1 ans1 ev1 es h' out' evs Sv X IH|h fs out es h' out' evs X IH|h out i es h' out' evs X IH];
    intros cs ms Hh P M F E S; cbn [all_calls received_packets] in *.
  - inversion M; subst. exists [], [], ms, []. repeat split; try constructor. cbn. rewrite app_nil_r. reflexivity.
  - inversion M as [|? c ? cs0 (o & Ho & W & Eb) M0]; subst. inversion F as [|? ? Hc F0]; subst. cbn [fst snd] in *. subst b.
    pose proof Hc as (_ & Hw & _). pose proof (serves_order _ _ _ _ _ _ (stands_ok c o Hw Ho) Sv) as O.
    destruct (answer_whole gw h c o p h1 ans1 ev1 Hh P Hc Ho W O) as (ms1 & es1 & r & -> & S1 & Wa & Pr & D).
    destruct (IH cs0 (ms ++ ms1) (does_ok _ _ _ _ _ _ _ G Hh D) (does_plain _ _ _ _ _ _ _ P D) M0 F0) as (log & ans & later & pks & A1 & A2 & A3 & A3' & A4 & A5 & A6 & A7).
    { rewrite map_app. reflexivity. } { apply Forall_app; auto. }
    exists ((yields es1, r) :: log), ((ms1, r) :: ans), later, pks. split; [econstructor; eassumption|]. split; [constructor; assumption|].
    split; [cbn; congruence|]. split; [constructor; [exists es1; auto|exact A3']|]. repeat (split; [assumption|]). cbn [map fst concat]. rewrite app_assoc. exact A7.
  - symmetry in E. apply map_eq_app in E as (m1 & m2 & -> & <- & <-). apply Forall_app in S as (S1 & S2).
    destruct (IH cs m2 Hh P M F eq_refl S2) as (log & ans & later & pks & A1 & A2 & A3 & A3' & A4 & A5 & A6 & A7).
    exists log, ans, later, (m1 :: pks). repeat (split; [assumption|]). split; [cbn [map]; rewrite A5; reflexivity|]. split; [constructor; assumption|].
    cbn [concat]. rewrite <- !app_assoc. f_equal. exact A7.
  - destruct (IH cs ms Hh P M F E S) as (log & ans & later & pks & A). exists log, ans, later, pks. exact A.
Qed.

Lemma firstn_map {A B} (f : A -> B) l : forall k, firstn k (map f l) = map f (firstn k l).
Proof. induction l as [|x l IH]; intros [|k]; cbn; try reflexivity. f_equal. apply IH. Qed.
Lemma combine_maps {A B C} (f : A -> B) (g : A -> C) l : combine (map f l) (map g l) = map (fun x => (f x, g x)) l.
Proof. induction l; cbn; congruence. Qed.

Theorem together gw n es s h h' out evs cs : gateway_ok gw -> house_ok h -> plain h -> Forall call_ok cs ->
  crun (cinit n) es = Some s -> serial n es -> exchange gw h [] es h' out evs -> made (all_calls es) cs ->
  exists log heard, story gw h cs log evs h' /\ length log = length cs /\ length heard = length cs /\
    Forall2 (fun c x => alone c (fst x) (snd x)) cs (combine heard log) /\
    (exists k pend read, k_done s = firstn k (combine (map fst (all_calls es)) (map snd log)) /\ (length cs <= k + 1)%nat /\
       q_out (k_q s) = concat (map tagged_with (firstn k (combine (map fst (all_calls es)) heard))) ++ map (pair pend) read) /\
    (out = [] -> (forall j, cstep s (KRun j) = None) ->
       k_done s = combine (map fst (all_calls es)) (map snd log) /\
       q_out (k_q s) = concat (map tagged_with (combine (map fst (all_calls es)) heard)) /\ c_queue (q_conn (k_q s)) = []).
Proof.
  intros G Hh P F R Se X M.
  destruct (exchange_story gw G _ _ _ _ _ _ X cs [] Hh P M F eq_refl ltac:(constructor)) as (log & ans & later & pks & A1 & A2 & A3 & A3' & A4 & A5 & A6 & A7).
  assert (T : forall i, ~ In (KTimeout i) es).
  { clear - X. induction X; intros j Hj; cbn in Hj; try destruct Hj as [Hj|Hj]; try discriminate; try contradiction; apply (IHX j Hj). }
  assert (Q : SpecConc.answers es ++ later = concat (map fst ans)).
  { unfold SpecConc.answers, fresh. rewrite A5, feed_texts by assumption. symmetry. exact A7. }
  destruct (serial_reads n es s ans later R Se T A2 Q) as (ds & pend & read & C & Lp & Ds & Dn & O).
  assert (L : length (all_calls es) = length cs) by (eapply forall2_length; exact M).
  assert (La : length (all_calls es) = length ans) by (eapply forall2_length; exact A2).
  assert (Ll : length log = length cs) by (clear - A1; induction A1; cbn; congruence).
  assert (Fd : map fst ds = firstn (length ds) (all_calls es)).
  { rewrite C. replace (length ds) with (length (map fst ds)) by apply map_length. rewrite firstn_app, Nat.sub_diag, firstn_all. cbn. rewrite app_nil_r. reflexivity. }
  assert (Kd : k_done s = firstn (length ds) (combine (map fst (all_calls es)) (map snd log))).
  { rewrite Dn, <- A3, firstn_combine, !firstn_map, <- Fd, <- Ds, !map_map, combine_maps. reflexivity. }
  assert (Ko : concat (map read_by ds) = concat (map tagged_with (firstn (length ds) (combine (map fst (all_calls es)) (map fst ans))))).
  { rewrite firstn_combine, !firstn_map, <- Fd, <- Ds, !map_map, combine_maps, map_map. reflexivity. }
  exists log, (map fst ans). split; [exact A1|]. split; [exact Ll|]. split; [rewrite map_length; congruence|]. split; [exact A3'|].
  split.
  - destruct pend as [|[i x] pend].
    + exists (length ds), 0%nat, []. split; [exact Kd|]. split; [rewrite <- L, C, app_length, map_length; cbn [length]; unfold ended in *; lia|]. rewrite O, Ko. reflexivity.
    + exists (length ds), i, read. split; [exact Kd|]. split; [rewrite <- L, C, app_length, map_length; cbn in *; unfold ended in *; lia|]. rewrite O, Ko. reflexivity.
  - intros -> Hj. destruct later; [|discriminate]. destruct (serial_answers n es s ans [] R Se T A2 Q) as (_ & B). destruct (B eq_refl Hj) as (B1 & B2).
    rewrite A3 in B1. split; [exact B1|]. split; [|exact B2].
    assert (Lc : length (combine (map fst (all_calls es)) (map snd log)) = length (all_calls es)) by (rewrite combine_length, !map_length; lia).
    assert (Ld : length ds = length (all_calls es)) by (rewrite <- Lc, <- B1, Dn, map_length; reflexivity).
    assert (Pn : pend = []) by (rewrite C, app_length, map_length in Ld; destruct pend; [reflexivity|cbn in Ld; unfold ended in *; lia]). subst pend.
    rewrite O, Ko, Ld. cbn [so_far]. rewrite app_nil_r. rewrite firstn_all2; [reflexivity|]. rewrite combine_length, !map_length. lia.
Qed.
