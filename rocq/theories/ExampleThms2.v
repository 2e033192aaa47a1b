(** * What the plans of the examples amount to; conversations *)
From Coq Require Import String List NArith ZArith Bool Lia.
From Verif Require Import PyStr PyDate PyFloat Tags Messages MessageFacts SpecMsg SpecTag MessageThms MessageThms2 MessageThms3 TagThms AuthHmac IO Client
  HandshakeThms SpecItem Items Lighting SpecLight ItemThms LightThms LightThms2 FrameThms Gateway SpecGateway Energy Dispatch
  SpecHouse HouseThms HouseThms2 SpecMeter MeterThms SpecVisit VisitThms.
From Verif Require Log.
From Verif Require Import Examples SpecExamples ExampleThms.
Import ListNotations.
Open Scope N_scope.
Open Scope list_scope.

Lemma minute_is_11 n : doc_light n = Some (OnFor 600) -> n = 11.
Proof. destruct n as [|p]; [discriminate|]. do 5 (destruct p as [p|p|]; try discriminate; try reflexivity). Qed.

Lemma command_cases gw h c o h1 obs r evs : (forall o', stands_for c o' -> o' = o) -> asks c = false -> gdoes gw h (GCall c) h1 obs r evs ->
  obs = [] /\ ((existsb (at_whom gw o) h = false /\ h1 = h /\ r = Err ResponseError /\ evs = []) \/
               (existsb (at_whom gw o) h = true /\ r = Ok ANothing /\ exists ans, obeys gw h o h1 ans evs)).
Proof.
  intros U A D. inversion D as [c' h' obs' r' evs' Dd|g o' Gs X|g o' h' ans evs' N| |]; subst.
  - inversion Dd as [o' Sf X|o' h' ans evs' Sf A' X O|o' h' ans evs' yss Sf A' X O F]; subst; [| |congruence].
    + rewrite (U _ Sf) in X. auto 7.
    + rewrite (U _ Sf) in X, O. split; [reflexivity|]. right. split; [exact X|]. split; [reflexivity|]. eauto 8.
  - inversion Gs as [c' o2 Sf| | | |]; subst. rewrite (U _ Sf) in X. split; [reflexivity|left; auto].
  - exfalso. apply (N c). reflexivity.
Qed.

Lemma obeys_command gw h w what a h1 ans evs : obeys gw h (SpecHouse.Command w what a) h1 ans evs -> existsb (aimed gw w a) h = true ->
  h1 = done_to gw w a (moved gw what) h /\ evs = reports gw w a h1.
Proof. intros O X. inversion O; subst; [cbn in *; congruence|]. split; reflexivity. Qed.

Lemma aimed_done gw w a f h : (forall p, p_who (f p) = p_who p /\ p_where (f p) = p_where p) ->
  existsb (aimed gw w a) (done_to gw w a f h) = existsb (aimed gw w a) h.
Proof.
  intros F. unfold done_to. induction h as [|p h IH]; [reflexivity|]. cbn [map existsb]. rewrite IH. f_equal.
  destruct (aimed gw w a p) eqn:E; [|exact E]. unfold aimed in *. destruct (F p) as (-> & ->). exact E.
Qed.
Lemma aimed_moved gw w a what h : existsb (aimed gw w a) (done_to gw w a (moved gw what) h) = existsb (aimed gw w a) h.
Proof. apply aimed_done. intros p. split; reflexivity. Qed.

Theorem light_story gw h c lines r evs h' : performs gw h (light_plan c) lines r evs h' ->
  let a := lit "32" in
  (existsb (aimed gw LIGHTING a) h = false /\ lines = [] /\ r = Err ResponseError /\ evs = [] /\ h' = h) \/
  (existsb (aimed gw LIGHTING a) h = true /\ r = Ok tt /\ h' = commanded gw LIGHTING a ["11"%string] h /\
   lines = concat (map lamp_lines (filter (aimed gw LIGHTING a) h')) /\
   evs = reports gw LIGHTING a h' ++ (if echoes gw then reports gw LIGHTING a h' else [])).
Proof.
  intros P a. set (it := item_at c LIGHTING "32"). 
  assert (U : forall o, stands_for (CLight it (LBase turn_on_1_min)) o -> o = SpecHouse.Command LIGHTING (lit "11") a).
  { intros o Sf. inversion Sf as [it' k n Dl| | | | | | | | |]; subst. apply minute_is_11 in Dl as ->. reflexivity. }
  unfold light_plan in P. fold it in P. inversion P as [|? ? ? h1 obs x ev1 ls lines1 ? ev2 ? D Af P1|? ? ? h1 obs e ev1 D]; subst; cbn [plain a_call a_each a_after] in *.
  - destruct (command_cases _ _ _ _ _ _ _ _ U eq_refl D) as (-> & [(_ & _ & X & _)|(X & _ & ans & O)]); [discriminate|]. cbn [at_whom] in X.
    destruct (obeys_command _ _ _ _ _ _ _ _ O X) as (-> & ->). subst ls. right. split; [exact X|].
    set (h1 := done_to gw LIGHTING a (moved gw (lit "11")) h) in *.
    assert (X1 : existsb (aimed gw LIGHTING a) h1 = true) by (unfold h1; rewrite aimed_moved; exact X).
    assert (K : forall h2 obs r evs, gdoes gw h1 (GCall (CAskLight it)) h2 obs r evs ->
              r = Ok ANothing /\ h2 = h1 /\ map lamp_shown obs = concat (map lamp_lines (filter (aimed gw LIGHTING a) h1)) /\
              evs = if echoes gw then reports gw LIGHTING a h1 else []).
    { intros h2 obs r2 evs D2. inversion D2 as [c' h'' obs' r' evs' Dd|g o' Gs Y|g o' h'' ans' evs' N| |]; subst.
      - inversion Dd as [o' Sf Y|o' ? ans' evs' Sf A'|o' ? ans' ? yss Sf _ Y O2 F]; subst; [|discriminate A'|].
        + inversion Sf; subst. cbn [at_whom it item_at it_where] in Y. unfold a in X1. congruence.
        + inversion Sf; subst. cbn [it item_at it_where at_whom] in *. fold a in O2, F, Y. inversion O2; subst; [cbn [at_whom] in *; congruence|].
          split; [reflexivity|]. split; [reflexivity|]. split; [|reflexivity]. clear -F.
          induction F as [|p ys ps yss Hs F IH]; [reflexivity|]. cbn [concat map]. rewrite map_app, IH. f_equal.
          unfold lamp_lines. inversion Hs as [it' E|it' E|it' E1 E2| | | |]; subst; cbn.
          * rewrite E. reflexivity.
          * rewrite E. reflexivity.
          * rewrite (proj2 (str_eqb_neq _ _) E1), (proj2 (str_eqb_neq _ _) E2). reflexivity.
      - inversion Gs as [c' o2 Sf| | | |]; subst. inversion Sf; subst. cbn [at_whom it item_at it_where] in Y. unfold a in X1. congruence.
      - exfalso. eapply N. reflexivity. }
    inversion P1 as [|? ? ? h2 obs2 x2 ev3 ls2 lines2 ? ev4 ? D2 Af2 P2|? ? ? h2 obs2 e ev3 D2]; subst; cbn [a_call a_each a_after] in *.
    + destruct (K _ _ _ _ D2) as (_ & -> & E & ->). inversion P2; subst. rewrite app_nil_r. cbn [map app]. rewrite E, !app_nil_r.
      split; [reflexivity|]. split; [reflexivity|]. split; reflexivity.
    + destruct (K _ _ _ _ D2) as (Z & _). discriminate Z.
  - destruct (command_cases _ _ _ _ _ _ _ _ U eq_refl D) as (-> & [(X & -> & E & ->)|(_ & E & _)]); [|discriminate].
    injection E as ->. left. auto.
Qed.

Theorem automation_story gw h c lines r evs h' : performs gw h (automation_plan c) lines r evs h' ->
  let a := lit "15" in let after whats := commanded gw AUTOMATION a whats h in
  lines = [] /\
  ((existsb (aimed gw AUTOMATION a) h = false /\ r = Err ResponseError /\ evs = [] /\ h' = h) \/
   (existsb (aimed gw AUTOMATION a) h = true /\ r = Ok tt /\ h' = after ["1"; "0"; "2"; "0"]%string /\
    evs = concat (map (fun whats => reports gw AUTOMATION a (after whats)) [["1"]; ["1"; "0"]; ["1"; "0"; "2"]; ["1"; "0"; "2"; "0"]]%string))).
Proof.
  intros P. cbv zeta.
  assert (U : forall m o, stands_for (CAuto (item_at c AUTOMATION "15") m) o -> o = SpecHouse.Command AUTOMATION (dec (doc_automation m)) (lit "15")).
  { intros m o Sf. inversion Sf; subst. reflexivity. }
  assert (K : forall m plan h lines r evs h', performs gw h (plain (CAuto (item_at c AUTOMATION "15") m) :: plan) lines r evs h' ->
    (existsb (aimed gw AUTOMATION (lit "15")) h = false /\ lines = [] /\ r = Err ResponseError /\ evs = [] /\ h' = h) \/
    (existsb (aimed gw AUTOMATION (lit "15")) h = true /\ let h1 := done_to gw AUTOMATION (lit "15") (moved gw (dec (doc_automation m))) h in
     exists evs', performs gw h1 plan lines r evs' h' /\ evs = reports gw AUTOMATION (lit "15") h1 ++ evs')).
  { clear. intros m plan h lines r evs h' P.
    assert (U : forall m o, stands_for (CAuto (item_at c AUTOMATION "15") m) o -> o = SpecHouse.Command AUTOMATION (dec (doc_automation m)) (lit "15")).
    { intros m' o Sf. inversion Sf; subst. reflexivity. }
    inversion P as [|? ? ? h1 obs x ev1 ls lines1 ? ev2 ? D Af P1|? ? ? h1 obs e ev1 D]; subst; cbn [plain a_call a_each a_after] in *.
    - destruct (command_cases _ _ _ _ _ _ _ _ (U m) eq_refl D) as (-> & [(_ & _ & X & _)|(X & _ & ans & O)]); [discriminate|]. cbn [at_whom] in X.
      destruct (obeys_command _ _ _ _ _ _ _ _ O X) as (-> & ->). subst ls. right. split; [exact X|]. cbv zeta. exists ev2. auto.
    - destruct (command_cases _ _ _ _ _ _ _ _ (U m) eq_refl D) as (-> & [(X & -> & E & ->)|(_ & E & _)]); [|discriminate].
      injection E as ->. left. auto. }
  unfold automation_plan in P. cbn [map] in P.
  apply K in P as [(X & -> & -> & -> & ->)|(X & e1 & P & ->)]; [split; [reflexivity|left; auto]|].
  apply K in P as [(Y & _)|(_ & e2 & P & ->)]; [rewrite aimed_moved in Y; congruence|].
  apply K in P as [(Y & _)|(_ & e3 & P & ->)]; [rewrite !aimed_moved in Y; congruence|].
  apply K in P as [(Y & _)|(_ & e4 & P & ->)]; [rewrite !aimed_moved in Y; congruence|].
  inversion P; subst. split; [reflexivity|]. right. split; [exact X|]. split; [reflexivity|]. split; reflexivity.
Qed.

Lemma ask_cases gw h it q h1 obs r evs : gdoes gw h (GAsk it q) h1 obs r evs ->
  h1 = h /\ obs = [] /\ evs = [] /\
  ((exists x, r = Ok x /\ first_answer gw h (q_who q) (it_where it) q x) \/
   (r = Err ResponseError /\ no_answer gw h (q_who q) (it_where it) q)).
Proof.
  intros D. inversion D as [|g o Gs X|g o h' ans evs' N Gs St|it' q' X No|it' q' ha p hb vs x Eh No A Ev Sa]; subst.
  - inversion Gs; subst. cbn [at_whom] in X. split; [reflexivity|]. split; [reflexivity|]. split; [reflexivity|]. right. split; [reflexivity|].
    intros p I A. exfalso. assert (Y : existsb (aimed gw (q_who q) (it_where it)) h1 = true) by (apply existsb_exists; eauto). congruence.
  - inversion Gs; subst. discriminate St.
  - split; [reflexivity|]. split; [reflexivity|]. split; [reflexivity|]. right. split; [reflexivity|exact No].
  - split; [reflexivity|]. split; [reflexivity|]. split; [reflexivity|]. left. exists x. split; [reflexivity|].
    exists ha, p, hb, vs. auto 6.
Qed.

Lemma asking_step gw h it q f plan lines r evs h' : performs gw h (asking it q f :: plan) lines r evs h' ->
  (no_answer gw h (q_who q) (it_where it) q /\ lines = [] /\ r = Err ResponseError /\ evs = [] /\ h' = h) \/
  (exists x ls lines', first_answer gw h (q_who q) (it_where it) q x /\ f x ls /\ lines = ls ++ lines' /\ performs gw h plan lines' r evs h').
Proof.
  intros P. inversion P as [|? ? ? h1 obs x ev1 ls lines1 ? ev2 ? D Af P1|? ? ? h1 obs e ev1 D]; subst; cbn [asking a_call a_each a_after] in *.
  - destruct (ask_cases _ _ _ _ _ _ _ _ D) as (-> & -> & -> & [(y & E & Fa)|(E & _)]); [|discriminate]. injection E as <-. right. exists x, ls, lines1. auto.
  - destruct (ask_cases _ _ _ _ _ _ _ _ D) as (-> & -> & -> & [(y & E & _)|(E & No)]); [discriminate|]. injection E as ->. left. auto.
Qed.

Theorem energy_story gw h c lines r evs h' : performs gw h (energy_plan c) lines r evs h' ->
  evs = [] /\ h' = h /\
  ((no_answer gw h ENERGY_MANAGEMENT (lit "51") QPower /\ lines = [] /\ r = Err ResponseError) \/
   (exists f, first_answer gw h ENERGY_MANAGEMENT (lit "51") QPower (AFloat f) /\ r = Ok tt /\
      lines = [Logged Log.INFO (lit "Active power: ") (Some (VFloat f))])).
Proof.
  intros P. apply asking_step in P as [(No & -> & -> & -> & ->)|(x & ls & l' & Fa & Sh & -> & P)].
  - auto 6.
  - inversion P; subst. inversion Sh; subst. split; [reflexivity|]. split; [reflexivity|]. right. exists f. auto.
Qed.

Theorem gateway_story gw h c lines r evs h' : performs gw h (gateway_plan c) lines r evs h' ->
  evs = [] /\ h' = h /\
  ((exists ip model name d t k, r = Ok tt /\ first_answer gw h GATEWAY [] QIp (AIp ip) /\
      first_answer gw h GATEWAY [] QModel (AText (lit model)) /\ In (model, name) models /\
      first_answer gw h GATEWAY [] QDatetime (ADatetime d t) /\ first_answer gw h GATEWAY [] QKernel (AText k) /\
      lines = [Printed [] (Some (VAddr ip)); Printed (lit name) None; Printed [] (Some (VDateTime (d, t))); Printed k None]) \/
   (exists before q after, r = Err ResponseError /\ [QIp; QModel; QDatetime; QKernel] = before ++ q :: after /\
      no_answer gw h GATEWAY [] q /\ (forall q', In q' before -> exists x, first_answer gw h GATEWAY [] q' x) /\ length lines = length before)).
Proof.
  intros P. unfold gateway_plan in P. cbv zeta in P.
  assert (Own : forall q x ls, first_answer gw h GATEWAY [] q x -> own_shown x ls -> length ls = 1%nat) by (intros q x ls _ Hs; inversion Hs; reflexivity).
  apply asking_step in P as [(No & -> & -> & -> & ->)|(x1 & ls1 & l1 & F1 & S1 & -> & P)].
  { split; [reflexivity|]. split; [reflexivity|]. right. exists [], QIp, [QModel; QDatetime; QKernel]. split; [reflexivity|]. split; [reflexivity|]. split; [exact No|].
    split; [intros q' []|reflexivity]. }
  apply asking_step in P as [(No & -> & -> & -> & ->)|(x2 & ls2 & l2 & F2 & S2 & -> & P)].
  { split; [reflexivity|]. split; [reflexivity|]. right. exists [QIp], QModel, [QDatetime; QKernel]. split; [reflexivity|]. split; [reflexivity|]. split; [exact No|].
    split; [intros q' [<-|[]]; eauto|]. rewrite app_nil_r. exact (Own _ _ _ F1 S1). }
  apply asking_step in P as [(No & -> & -> & -> & ->)|(x3 & ls3 & l3 & F3 & S3 & -> & P)].
  { split; [reflexivity|]. split; [reflexivity|]. right. exists [QIp; QModel], QDatetime, [QKernel]. split; [reflexivity|]. split; [reflexivity|]. split; [exact No|].
    split; [intros q' [<-|[<-|[]]]; eauto|]. rewrite app_nil_r, app_length, (Own _ _ _ F1 S1). inversion S2; reflexivity. }
  apply asking_step in P as [(No & -> & -> & -> & ->)|(x4 & ls4 & l4 & F4 & S4 & -> & P)].
  { split; [reflexivity|]. split; [reflexivity|]. right. exists [QIp; QModel; QDatetime], QKernel, []. split; [reflexivity|]. split; [reflexivity|]. split; [exact No|].
    split; [intros q' [<-|[<-|[<-|[]]]]; eauto|]. rewrite app_nil_r, !app_length, (Own _ _ _ F1 S1), (Own _ _ _ F3 S3). inversion S2; reflexivity. }
  inversion P; subst. split; [reflexivity|]. split; [reflexivity|]. left. cbn [q_who item_at it_where] in *. change (lit "") with (@nil N) in *.
  assert (A1 : exists n, x1 = AIp n).
  { destruct F1 as (? & ? & ? & ? & _ & _ & _ & _ & Sa). inversion Sa; subst; eauto. match goal with H : In QIp _ |- _ => cbn in H; intuition discriminate end. }
  assert (A3 : exists d t, x3 = ADatetime d t).
  { destruct F3 as (? & ? & ? & ? & _ & _ & _ & _ & Sa). inversion Sa; subst; eauto. match goal with H : In QDatetime _ |- _ => cbn in H; intuition discriminate end. }
  assert (A4 : exists k, x4 = AText k).
  { destruct F4 as (? & ? & ? & ? & _ & _ & _ & _ & Sa). inversion Sa; subst; eauto. match goal with H : In QKernel _ |- _ => cbn in H; intuition discriminate end. }
  destruct A1 as (n & ->), A3 as (d & t & ->), A4 as (k & ->). inversion S1; subst. inversion S3; subst. inversion S4; subst. inversion S2; subst.
  exists n, v, n0, d, t, k. split; [reflexivity|]. auto 8.
Qed.

(** ** Conversations *)

Lemma carried_order b l (x k : io shown unit) s : answered b s (x s) -> (forall s', carried l s' (k s')) ->
  carried (Order b :: l) s (andthen x (fun _ => k) s).
Proof.
  intros A K. unfold andthen. destruct A as [s'|m s' N|s'|].
  - specialize (K s'). destruct (k s') as [[es s1] r]. constructor. exact K.
  - constructor. exact N.
  - constructor.
  - constructor.
Qed.
Lemma carried_say x l (k : io shown unit) s : carried l s (k s) -> carried (Say x :: l) s (andthen (yield x) (fun _ => k) s).
Proof. intros K. unfold andthen, yield. destruct (k s) as [[es s1] r]. constructor. exact K. Qed.
Lemma carried_last b (x : io shown unit) s : answered b s (x s) -> carried [Order b] s (x s).
Proof. intros A. rewrite <- (andthen_tt x s). apply carried_order; [exact A|]. intros s'. constructor. Qed.

Theorem camera_talk host c s : cl_session c <> Event -> cl_proto c = true -> carried (camera_plan host) s (camera_01 host c s).
Proof.
  intros Ht Hp. unfold camera_01. change (made c VIDEO_DOOR_ENTRY (lit "4000")) with (Ok (item_at c VIDEO_DOOR_ENTRY "4000")). rewrite andthen_lift.
  set (it := item_at c VIDEO_DOOR_ENTRY "4000"). assert (R : ready it) by (split; assumption).
  assert (Pl : placed it) by (apply tagtext_valid; reflexivity).
  unfold camera_plan, says_line, newline_line, print.
  apply carried_say, carried_order.
  { exact (camera_video (Y:=shown) it s R Pl eq_refl). }
  intros s1. apply carried_say, carried_say, carried_say, carried_order; [exact (camera_documented (Y:=shown) it zoom_in s1 R eq_refl)|].
  intros s2. apply carried_order; [exact (camera_documented (Y:=shown) it increase_luminosity s2 R eq_refl)|].
  intros s3. apply carried_order; [exact (camera_documented (Y:=shown) it increase_contrast s3 R eq_refl)|].
  intros s4. apply carried_say, carried_order.
  { refine (proj1 (dial_range (Y:=shown) it 1 1 s4 R eq_refl) _). lia. }
  intros s5. apply carried_say, (carried_last (frame_camera 9)). exact (camera_documented (Y:=shown) it free_resources s5 R eq_refl).
Qed.

Lemma sends_request (Y : Type) c w a d s : cl_session c <> Event -> cl_proto c = true -> tagtext a -> tagtext d ->
  client_send (Y:=Y) c false (MDimReq w a d) s = ([Sent (frame_dimreq w a d)], s, Ok tt).
Proof.
  intros Ht Hp Ha Hd. apply (item_send_ok (Y:=Y) {| it_client := c; it_who := w; it_where := a |}); [split; assumption|]. apply dimreq_bytes; assumption.
Qed.

Lemma last4_app {A} (front l : list A) : length l = 4%nat -> last4 (front ++ l) = l.
Proof. intros E. unfold last4. rewrite app_length, E. replace (length front + 4 - 4)%nat with (length front) by lia. rewrite skipn_app, skipn_all, PeanoNat.Nat.sub_diag. reflexivity. Qed.
Lemma last4_short {A} (l : list A) : (length l < 4)%nat -> last4 l = l.
Proof. intros E. unfold last4. replace (length l - 4)%nat with 0%nat by lia. reflexivity. Qed.

Theorem ip_talk c s : cl_session c <> Event -> cl_proto c = true ->
  exists es2 s2 r2, custom_message_01 c s = (es2, s2, r2) /\ sents es2 = [lit "*#13**10##"] /\ ip_asked s (gots es2) (yields es2) s2 r2.
Proof.
  intros Ht Hp. destruct (custom_message_01 c s) as [[es2 s2] r2] eqn:E. exists es2, s2, r2. split; [reflexivity|].
  unfold custom_message_01 in E. change (mk []) with (Ok (@nil N)) in E. change (mk (lit "10")) with (Ok (lit "10")) in E. rewrite !andthen_lift in E.
  rewrite (andthen_ok _ _ _ _ _ _ (sends_request shown c GATEWAY [] (lit "10") s Ht Hp ltac:(constructor) ltac:(apply tagtext_valid; reflexivity))) in E.
  unfold andthen, attempt, client_read in E. rewrite Hp in E. cbn [negb] in E.
  destruct s as [|[m|] s]; cbn [take] in E.
  - cbn in E. injection E as <- <- <-. split; [reflexivity|]. apply Ia_silent. auto.
  - destruct (msg_eq m MNack) eqn:N.
    + apply msg_eq_spec in N as ->. cbn in E. injection E as <- <- <-. split; [reflexivity|]. apply Ia_nack.
    + assert (Nm : m <> MNack) by (intros ->; rewrite (proj2 (msg_eq_spec MNack MNack) eq_refl) in N; discriminate).
      destruct s as [|[m'|] s]; cbn [take] in E.
      * cbn in E. injection E as <- <- <-. split; [reflexivity|]. apply Ia_one; auto.
      * unfold custom_message_01_end in E. destruct (msg_eq m' MAck) eqn:A.
        -- apply msg_eq_spec in A as ->. destruct (PeanoNat.Nat.lt_ge_cases (length (msg_tags m)) 4) as [L|L].
           ++ rewrite (last4_short _ L) in E. destruct (msg_tags m) as [|a [|b [|d [|f l]]]] eqn:Tm; [| | | |cbn in L; lia];
                cbn in E; injection E as <- <- <-; (split; [reflexivity|]); apply Ia_short; auto; rewrite Tm; cbn; lia.
           ++ rewrite <- (firstn_skipn (length (msg_tags m) - 4) (msg_tags m)) in E.
              assert (L4 : length (skipn (length (msg_tags m) - 4) (msg_tags m)) = 4%nat) by (rewrite skipn_length; lia).
              set (q := skipn (length (msg_tags m) - 4) (msg_tags m)) in *. rewrite (last4_app _ q L4) in E.
              destruct q as [|a [|b [|d [|f [|? ?]]]]] eqn:Q; try discriminate L4. cbn in E. injection E as <- <- <-. split; [reflexivity|].
              apply (Ia_four m (firstn (length (msg_tags m) - 4) (msg_tags m)) a b d f s Nm). rewrite <- Q. unfold q. symmetry. apply firstn_skipn.
        -- assert (Na : m' <> MAck) by (intros ->; rewrite (proj2 (msg_eq_spec MAck MAck) eq_refl) in A; discriminate).
           cbn in E. injection E as <- <- <-. split; [reflexivity|]. apply Ia_other; auto.
      * cbn in E. injection E as <- <- <-. split; [reflexivity|]. apply Ia_one; auto.
  - cbn in E. injection E as <- <- <-. split; [reflexivity|]. apply Ia_silent. auto.
Qed.

Lemma quoted_text l : list_text l = quoted l.
Proof.
  unfold list_text, quoted. destruct l as [|x l]; [reflexivity|]. 
  assert (K : forall l x, Log.join2 (map (fun x => [39] ++ x ++ [39]) (x :: l)) ++ lit "]" = [39] ++ x ++ [39] ++ quoted_rest l).
  { clear. induction l as [|y l IH]; intros x.
    - cbn [map Log.join2 quoted_rest]. rewrite <- !app_assoc. reflexivity.
    - change (Log.join2 (map (fun x => [39] ++ x ++ [39]) (x :: y :: l))) with
        (([39] ++ x ++ [39]) ++ lit ", " ++ Log.join2 (map (fun x => [39] ++ x ++ [39]) (y :: l))).
      rewrite <- !app_assoc. rewrite IH. reflexivity. }
  change (lit "[" ++ (Log.join2 (map (fun x => [39] ++ x ++ [39]) (x :: l)) ++ lit "]") = lit "[" ++ [39] ++ x ++ [39] ++ quoted_rest l). rewrite K. reflexivity.
Qed.

Lemma params_of d : has_params d (twp_parameters d).
Proof. destruct (twp_spec d) as (E & N & F). exists (twp_tag d). auto. Qed.

Lemma body_reading m : mtype_eqb (msg_type m) T_ACK = false -> reading m (fst (custom_message_02_body m)) (snd (custom_message_02_body m)).
Proof.
  intros H. destruct m as [| | | | | |w a d vs|]; try discriminate H; cbn [custom_message_02_body fst snd]; try (apply Rd_else; [discriminate|discriminate|intros (? & ? & ? & ? & ?); discriminate]).
  - apply Rd_nack.
  - rewrite quoted_text. pose proof (params_of d) as P. set (ps := twp_parameters d) in *.
    assert (Es : msg_str (MDimRes w a d vs) = wire ((35 :: who_str w) :: a :: d :: match vs with [] => [[]] | _ => vs end)).
    { rewrite msg_str_wire. destruct vs; reflexivity. }
    rewrite Es. destruct ps as [|month [|day ps]]; [|destruct vs as [|t [|v vs]]|destruct vs as [|t [|v vs]]]; cbn -[lit wire quoted];
      first [apply Rd_full; exact P | apply Rd_short; [exact P|cbn; lia]].
Qed.

Lemma sents_lines (ls : list shown) : sents (map Yielded ls) = [].
Proof. induction ls; auto. Qed.
Lemma gots_lines (ls : list shown) : gots (map Yielded ls) = [].
Proof. induction ls; auto. Qed.

Lemma loop_readings s : exists es s2 r, custom_message_02_loop s = (es, s2, r) /\ sents es = [] /\ readings s (gots es) (yields es) s2 r.
Proof.
  induction s as [|[m|] s IH]; cbn [custom_message_02_loop].
  - do 3 eexists. split; [reflexivity|]. split; [reflexivity|]. apply Rs_silent. auto.
  - destruct (mtype_eqb (msg_type m) T_ACK) eqn:A.
    + destruct m; try discriminate A. do 3 eexists. split; [reflexivity|]. split; [reflexivity|]. apply Rs_ack.
    + pose proof (body_reading m A) as B. destruct (custom_message_02_body m) as [ys [[]|e]]; cbn [fst snd] in B.
      * destruct IH as (es & s2 & r & -> & E1 & R). do 3 eexists. split; [reflexivity|]. cbn [sents gots yields].
        rewrite sents_app, gots_app, yields_app, sents_lines, gots_lines, yields_lines. split; [exact E1|]. cbn [app].
        eapply Rs_next; eassumption.
      * do 3 eexists. split; [reflexivity|]. cbn [sents gots yields]. rewrite sents_lines, gots_lines, yields_lines. split; [reflexivity|]. apply Rs_fail. exact B.
  - do 3 eexists. split; [reflexivity|]. split; [reflexivity|]. apply Rs_silent. auto.
Qed.

Theorem day_talk c s : cl_session c <> Event -> cl_proto c = true ->
  exists es2 s2 r2, custom_message_02 c s = (es2, s2, r2) /\ sents es2 = [lit "*#18*52*511#10#7##"] /\ readings s (gots es2) (yields es2) s2 r2.
Proof.
  intros Ht Hp. unfold custom_message_02. change (mk (lit "52")) with (Ok (lit "52")). change (mk (lit "511#10#7")) with (Ok (lit "511#10#7")). rewrite !andthen_lift.
  rewrite (andthen_ok _ _ _ _ _ _ (sends_request shown c ENERGY_MANAGEMENT (lit "52") (lit "511#10#7") s Ht Hp ltac:(apply tagtext_valid; reflexivity) ltac:(apply tagtext_valid; reflexivity))).
  destruct (loop_readings s) as (es & s2 & r & -> & E & R). do 3 eexists. split; [reflexivity|]. cbn [app sents gots yields]. rewrite E. split; [reflexivity|exact R].
Qed.

(** ** Conversations after start() *)

(** [follows body talk]: start() and then [talk], or only start(). *)
Theorem example_talk body (talk : script -> list (ev shown) * script * res unit -> Prop) C pw rnd s es s2 r : sane C ->
  (forall c s, cl_session c <> Event -> cl_proto c = true -> talk s (body c s)) ->
  example body C pw rnd true s = (es, s2, r) ->
  exists c es0 s1 r0 es2, @start Empty_set C (new_client Client.Command) pw rnd true s = (c, (es0, s1, r0)) /\ es = retag void es0 ++ es2 /\
    ((exists e, r0 = Err e /\ es2 = [] /\ s2 = s1 /\ r = Err e) \/
     (exists r2, r0 = Ok tt /\ talk s1 (es2, s2, r2) /\ r = ended Client.Command r2)).
Proof.
  intros HC H E. rewrite example_is in E. destruct (@start Empty_set C (new_client Client.Command) pw rnd true s) as [c [[es0 s1] r0]] eqn:E0.
  assert (Ec : c = joined Client.Command) by (cbn in E0; injection E0 as <- _; reflexivity).
  exists c, es0, s1, r0. destruct r0 as [[]|e].
  - specialize (H c s1 ltac:(rewrite Ec; discriminate) ltac:(rewrite Ec; reflexivity)). destruct (body c s1) as [[es2 s3] r2]. exists es2. split; [reflexivity|].
    assert (X : es = retag void es0 ++ es2 /\ s2 = s3 /\ r = ended Client.Command r2) by (destruct r2; injection E as <- <- <-; subst; auto).
    destruct X as (-> & -> & ->). split; [reflexivity|]. right. exists r2. auto.
  - injection E as <- <- <-. exists []. rewrite app_nil_r. split; [reflexivity|]. split; [reflexivity|]. left. eauto.
Qed.
