(** * The example programs against a gateway *)
From Coq Require Import String List NArith ZArith Bool Lia.
From Verif Require Import PyStr PyDate PyFloat Tags Messages MessageFacts SpecMsg SpecTag MessageThms MessageThms2 MessageThms3 TagThms AuthOpen SpecOpen OpenThms AuthHmac IO Client SpecClient
  HmacThms HandshakeThms HandshakeThms2 SpecLogin LoginThms SpecItem Items Lighting SpecLight ItemThms LightThms LightThms2 FrameThms Gateway SpecGateway GatewayThms Energy EnergyThms EnergyThms2 Dispatch
  SpecHouse HouseThms HouseThms2 SpecMeter MeterThms MeterThms2 SpecVisit VisitThms.
From Verif Require Log.
From Verif Require Import Examples SpecExamples.
Import ListNotations.
Open Scope N_scope.
Open Scope list_scope.

(** ** What does not yield is the same for every type of yields *)

Definition tagR {Y Z A} (f : Y -> Z) (g : io Y A) : io Z A := fun s => match g s with (es, s', r) => (retag f es, s', r) end.

Lemma retag_app {Y Z} (f : Y -> Z) a b : retag f (a ++ b) = retag f a ++ retag f b.
Proof. induction a as [|[] a IH]; cbn; congruence. Qed.
Lemma tag_bind {Y Z A B} (f : Y -> Z) (x : io Z A) (x' : io Y A) (k : A -> io Z B) (k' : A -> io Y B) s :
  (forall s, x s = tagR f x' s) -> (forall a s, k a s = tagR f (k' a) s) -> andthen x k s = tagR f (andthen x' k') s.
Proof.
  intros Hx Hk. unfold tagR, andthen. rewrite Hx. unfold tagR. destruct (x' s) as [[es s1] [a|e]]; [|reflexivity].
  rewrite Hk. unfold tagR. destruct (k' a s1) as [[es2 s2] r]. rewrite retag_app. reflexivity.
Qed.

Ltac polymorphic :=
  repeat match goal with
  | |- andthen _ _ _ = tagR _ (andthen _ _) _ => apply tag_bind; intros
  | |- take ?s = _ => destruct s as [|[?|] ?]; reflexivity
  | |- _ => reflexivity
  | |- (if ?b then _ else _) _ = _ => destruct b
  | |- (match ?x with Ok _ => _ | Err _ => _ end) _ = _ => destruct x
  end.

Section Poly.
  Context {Y Z : Type} (f : Y -> Z).
  Lemma send_poly c force m s : client_send c force m s = tagR f (client_send c force m) s.
  Proof. unfold client_send. polymorphic. Qed.
  Lemma read_poly c s : client_read c s = tagR f (client_read c) s.
  Proof. unfold client_read. polymorphic. Qed.
  Ltac polys := repeat first [apply send_poly | apply read_poly | progress polymorphic].
  Lemma handshake_poly C c pw rnd s : handshake C c pw rnd s = tagR f (handshake C c pw rnd) s.
  Proof. unfold handshake, auth_open, auth_hmac, tag_at. polys. Qed.
  Lemma normal_poly it w s : send_normal_message it w s = tagR f (send_normal_message it w) s.
  Proof. unfold send_normal_message, item_send, item_read, check_ack. polys. Qed.
End Poly.

Lemma drop_retag {Y Z W} (f : Z -> W) (es : list (ev Y)) : drop_yields es = retag f (drop_yields es).
Proof. induction es as [|[] es IH]; cbn; congruence. Qed.
Lemma collect_poly {Y Z W} (f : Z -> W) (g : io Y unit) s : collect g s = tagR f (collect g) s.
Proof. unfold collect, tagR. destruct (g s) as [[es s1] r]. rewrite <- drop_retag. reflexivity. Qed.
Lemma single_poly {Y Z} (f : Y -> Z) it d s : single_dim_req it d s = tagR f (single_dim_req it d) s.
Proof.
  unfold single_dim_req. apply tag_bind; [apply collect_poly|]. intros [|m a] s'; [reflexivity|]. destruct (is_dimres m); reflexivity.
Qed.
Lemma ask_poly {Y Z} (f : Y -> Z) it q s : ask_program it q s = tagR f (ask_program it q) s.
Proof.
  rewrite ask_is. unfold tagR. rewrite ask_is. rewrite (single_poly f). unfold tagR.
  destruct (single_dim_req it (q_dim q) s) as [[es s1] [m|e]]; reflexivity.
Qed.

(** ** Plans *)

Definition filled := (act * (answer -> list shown))%type.
Definition run_act (p : filled) : io shown unit := fun s =>
  match gprogram (a_call (fst p)) s with
  | (es, s1, Ok x) => (retag (a_each (fst p)) es ++ map Yielded (snd p x), s1, Ok tt)
  | (es, s1, Err e) => (retag (a_each (fst p)) es, s1, Err e)
  end.
Fixpoint run_plan (l : list filled) : io shown unit :=
  match l with [] => ret tt | p :: l => let* _ := run_act p in run_plan l end.
Definition fits (p : filled) : Prop :=
  forall gw h h1 obs x evs, gdoes gw h (a_call (fst p)) h1 obs (Ok x) evs -> a_after (fst p) x (snd p x).

Lemma serving_split gw {Y} (es1 : list (ev Y)) : forall es2 h out h' out' evs, serving gw h out (es1 ++ es2) h' out' evs ->
  exists h1 out1 e1 e2, serving gw h out es1 h1 out1 e1 /\ serving gw h1 out1 es2 h' out' e2 /\ evs = e1 ++ e2.
Proof.
  induction es1 as [|[b|m|y] es1 IH]; intros es2 h out h' out' evs H; cbn [app] in H.
  - exists h, out, [], evs. split; [constructor|auto].
  - inversion H as [|? ? ? h0 ans ev1 ? ? ? evs0 Sv H'| |]; subst. destruct (IH _ _ _ _ _ _ H') as (h1 & out1 & e1 & e2 & A & B & ->).
    exists h1, out1, (ev1 ++ e1), e2. split; [econstructor; eassumption|]. split; [exact B|apply app_assoc].
  - inversion H as [| |? g ? ? ? ? ? ? P H'|]; subst. destruct (IH _ _ _ _ _ _ H') as (h1 & out1 & e1 & e2 & A & B & ->).
    exists h1, out1, e1, e2. split; [econstructor; eassumption|auto].
  - inversion H as [| | |? ? ? ? ? ? ? H']; subst. destruct (IH _ _ _ _ _ _ H') as (h1 & out1 & e1 & e2 & A & B & ->).
    exists h1, out1, e1, e2. split; [econstructor; eassumption|auto].
Qed.
Lemma serving_join gw {Y} h out (es1 : list (ev Y)) h1 out1 e1 : serving gw h out es1 h1 out1 e1 -> forall es2 h' out' e2,
  serving gw h1 out1 es2 h' out' e2 -> serving gw h out (es1 ++ es2) h' out' (e1 ++ e2).
Proof.
  induction 1; intros es2 h2 out2 e2 B; cbn [app]; [exact B| | |].
  - rewrite <- app_assoc. econstructor; eauto.
  - econstructor; eauto.
  - constructor; auto.
Qed.
Lemma serving_lines gw (ls : list shown) h out h' out' evs : serving gw h out (map Yielded ls) h' out' evs -> h' = h /\ out' = out /\ evs = [].
Proof. induction ls as [|x ls IH]; cbn; intros H; inversion H; subst; auto. Qed.
Lemma lines_serving gw (ls : list shown) h out : serving gw h out (map Yielded ls) h out [].
Proof. induction ls; cbn; constructor; auto. Qed.
Lemma yields_lines (ls : list shown) : yields (map Yielded ls) = ls.
Proof. induction ls; cbn; congruence. Qed.

Theorem plan_performs gw l : forall h s es s1 r h' out' evs, ggateway_ok gw -> ghouse_ok h ->
  Forall (fun p => gcall_ok (a_call (fst p))) l -> Forall fits l ->
  run_plan l s = (es, s1, r) -> serving gw h [] es h' out' evs -> (r = Err TimeoutError -> out' = []) ->
  out' = [] /\ performs gw h (map fst l) (yields es) r evs h'.
Proof.
  induction l as [|p l IH]; intros h s es s1 r h' out' evs G Hh Fc Ff E S T; cbn [run_plan map] in *.
  - injection E as <- <- <-. inversion S; subst. split; [reflexivity|constructor].
  - inversion Fc as [|? ? C1 Fc']; subst. inversion Ff as [|? ? F1 Ff']; subst. unfold andthen, run_act in E.
    destruct (gprogram (a_call (fst p)) s) as [[e0 s0] [x|e]] eqn:E0.
    + destruct (run_plan l s0) as [[e2 s2] r2] eqn:E2. injection E as <- <- <-. rewrite <- app_assoc in S.
      apply serving_split in S as (h1 & out1 & v1 & v2 & S1 & S2 & ->). apply serving_retag in S1.
      destruct (gone_call gw h _ _ _ _ _ _ _ _ Hh C1 E0 S1 ltac:(discriminate)) as (-> & D).
      apply serving_split in S2 as (h2 & out2 & v3 & v4 & S2 & S3 & ->). apply serving_lines in S2 as (-> & -> & ->).
      destruct (IH _ _ _ _ _ _ _ _ G (gdoes_ok _ _ _ _ _ _ _ G Hh (proj1 (proj2 C1)) D) Fc' Ff' E2 S3 T) as (-> & P). split; [reflexivity|].
      rewrite !yields_app, yields_retag, yields_lines, <- app_assoc. cbn [app]. econstructor; [exact D|apply (F1 _ _ _ _ _ _ D)|exact P].
    + injection E as <- <- <-. apply serving_retag in S.
      destruct (gone_call gw h _ _ _ _ _ _ _ _ Hh C1 E0 S ltac:(intros X; injection X as ->; auto)) as (-> & D). split; [reflexivity|].
      rewrite yields_retag. eapply Pf_fail. exact D.
Qed.

Theorem plan_exists gw l : forall h, ggateway_ok gw -> ghouse_ok h -> Forall (fun p => gcall_ok (a_call (fst p))) l ->
  exists ms es s1 r h' evs, run_plan l (map Some ms) = (es, s1, r) /\ serving gw h [] es h' [] evs /\ r <> Err TimeoutError.
Proof.
  induction l as [|p l IH]; intros h G Hh Fc.
  - exists [], [], [], (Ok tt), h, []. split; [reflexivity|]. split; [constructor|discriminate].
  - inversion Fc as [|? ? C1 Fc']; subst. destruct (gcall_exists gw h _ Hh C1) as (ms & h1 & v1 & K).
    destruct (K []) as (es0 & r0 & E0 & S0 & T0). rewrite app_nil_r in E0.
    destruct (gone_call gw h _ _ _ _ _ _ _ _ Hh C1 E0 S0 ltac:(congruence)) as (_ & D).
    destruct (IH h1 G (gdoes_ok _ _ _ _ _ _ _ G Hh (proj1 (proj2 C1)) D) Fc') as (ms2 & es2 & s2 & r2 & h2 & v2 & E2 & S2 & T2).
    destruct (K (map Some ms2)) as (es & r & E & S & T). exists (ms ++ ms2). rewrite map_app. cbn [run_plan]. unfold andthen, run_act. rewrite E.
    destruct r as [x|e].
    + rewrite E2. do 5 eexists. split; [reflexivity|]. split; [|exact T2]. rewrite <- app_assoc. eapply serving_join; [apply serving_retag', S|].
      eapply (serving_join gw h1 [] _ h1 [] []); [apply lines_serving|exact S2].
    + do 5 eexists. split; [reflexivity|]. split; [apply serving_retag', S|]. congruence.
Qed.

(** ** The door *)

Lemma visit_split l gw {Y} (es1 : list (ev Y)) : forall es2 st h out st' h' out' evs, visit l gw st h out (es1 ++ es2) st' h' out' evs ->
  exists st1 h1 out1 e1 e2, visit l gw st h out es1 st1 h1 out1 e1 /\ visit l gw st1 h1 out1 es2 st' h' out' e2 /\ evs = e1 ++ e2.
Proof.
  induction es1 as [|[b|m|y] es1 IH]; intros es2 st h out st' h' out' evs H; cbn [app] in H.
  - exists st, h, out, [], evs. split; [constructor|auto].
  - inversion H as [|? ? ? ? ? ? ? ? ? ? ? D V|? ? ? ? ? ev1 ? ? ? ? evs0 Sv V| |]; subst; clear H.
    + destruct (IH _ _ _ _ _ _ _ _ V) as (sx & hx & ox & e1 & e2 & A & B & ->). exists sx, hx, ox, e1, e2. split; [eapply Vs_door; eassumption|auto].
    + destruct (IH _ _ _ _ _ _ _ _ V) as (sx & hx & ox & e1 & e2 & A & B & ->). exists sx, hx, ox, (ev1 ++ e1), e2.
      split; [eapply Vs_order; eassumption|]. split; [exact B|apply app_assoc].
  - inversion H; subst. match goal with V : visit _ _ _ _ _ (es1 ++ es2) _ _ _ _ |- _ => destruct (IH _ _ _ _ _ _ _ _ V) as (sx & hx & ox & e1 & e2 & A & B & ->) end.
    exists sx, hx, ox, e1, e2. split; [econstructor; eassumption|auto].
  - inversion H; subst. match goal with V : visit _ _ _ _ _ (es1 ++ es2) _ _ _ _ |- _ => destruct (IH _ _ _ _ _ _ _ _ V) as (sx & hx & ox & e1 & e2 & A & B & ->) end.
    exists sx, hx, ox, e1, e2. split; [econstructor; eassumption|auto].
Qed.
Lemma visit_retag l gw {Y Z} (f : Y -> Z) es : forall st h out st' h' out' evs,
  visit l gw st h out (retag f es) st' h' out' evs -> visit l gw st h out es st' h' out' evs.
Proof.
  induction es as [|[b|m|y] es IH]; intros st h out st' h' out' evs H; cbn [retag] in H; inversion H; subst.
  - constructor.
  - eapply Vs_door; eauto.
  - eapply Vs_order; eauto.
  - eapply Vs_got; eauto.
  - eapply Vs_yield; eauto.
Qed.
Lemma visit_retag' l gw {Y Z} (f : Y -> Z) st h out es st' h' out' evs :
  visit l gw st h out es st' h' out' evs -> visit l gw st h out (retag f es) st' h' out' evs.
Proof.
  induction 1; cbn [retag]; [constructor|eapply Vs_door; eauto|eapply Vs_order; eauto|eapply Vs_got; eauto|eapply Vs_yield; eauto].
Qed.

Definition void {Z} (y : Empty_set) : Z := match y with end.
Lemma yields_void {Z} (es : list (ev Empty_set)) : yields (retag (void (Z:=Z)) es) = [].
Proof. induction es as [|[b|m|[]] es IH]; cbn; auto. Qed.

Lemma opened_is {Z} C t pw rnd ok s :
  (opened C t pw rnd ok s : list (ev Z) * script * res client) =
  match @start Empty_set C (new_client t) pw rnd ok s with
  | (c, (es, s1, r)) => (retag void es, s1, match r with Ok _ => Ok c | Err e => Err e end)
  end.
Proof.
  unfold opened, start. destruct ok; [|reflexivity]. rewrite (handshake_poly void). unfold tagR.
  destruct (handshake C _ pw rnd s) as [[es s1] [x|e]]; reflexivity.
Qed.

Lemma login_exists C t l gw pw rnd h : sane C -> lock_ok l ->
  exists ms, forall rest, exists es r st, @start Empty_set C (new_client t) pw rnd true (map Some ms ++ rest) = (joined t, (es, rest, r)) /\
    r <> Err TimeoutError /\ visit l gw Waiting h [SpecHouse.frame_ack] es st h [] [].
Proof.
  intros HC L. destruct l as [|q nonce].
  - exists [MAck; MAck]. intros rest. exists (hello t ++ [Got MAck]), (Ok tt), Inside. split; [|split; [discriminate|]].
    + apply start_iff; [exact HC|]. split; [reflexivity|]. split; [apply L_free|reflexivity].
    + eapply (visit_app _ _ _ _ _ _ _ _ _ []); [apply hello_free|]. eapply Vs_got; [exact ack_parse|]. apply Vs_nil.
  - pose proof (hello_open q nonce gw t h L) as V0. destruct (py_int_value pw) as [[p P]|P].
    + destruct (pass_numeral pw (35 :: nonce) p P) as (n & ans & A & _). pose proof (right_iff q nonce pw p ans P A) as Ri.
      assert (X : opens (OpenLock q nonce) pw \/ ~ opens (OpenLock q nonce) pw).
      { destruct (Z.eq_dec (p mod 2 ^ 32) (q mod 2 ^ 32)) as [E|E]; [left; exists p; auto|right; intros (p' & P' & E'); congruence]. }
      destruct X as [X|X].
      * exists [MAck; MGeneric [35 :: nonce]; MAck]. intros rest. exists (open_to t (35 :: nonce) ans ++ [Got MAck]), (Ok tt), Inside.
        split; [|split; [discriminate|]].
        -- apply start_iff; [exact HC|]. split; [reflexivity|]. split; [apply L_open, A|reflexivity].
        -- unfold open_to. change [Got (MGeneric [35 :: nonce]); Sent (wire [35 :: ans])] with ([Got (MGeneric [35 :: nonce])] ++ [Sent (Y:=Empty_set) (wire [35 :: ans])]).
           rewrite (app_assoc (hello t)), <- (app_assoc (hello t ++ _)). eapply (visit_app _ _ _ _ _ _ _ _ _ []); [exact V0|]. cbn [app].
           eapply Vs_door; [apply Dr_right, Ri, X|]. eapply Vs_got; [exact ack_parse|]. apply Vs_nil.
      * exists [MAck; MGeneric [35 :: nonce]; MNack]. intros rest. exists (open_to t (35 :: nonce) ans ++ [Got MNack]), (Err InvalidAuthentication), Refused.
        split; [|split; [discriminate|]].
        -- apply start_iff; [exact HC|]. split; [reflexivity|]. split; [apply R_open; [exact A|discriminate]|reflexivity].
        -- unfold open_to. change [Got (MGeneric [35 :: nonce]); Sent (wire [35 :: ans])] with ([Got (MGeneric [35 :: nonce])] ++ [Sent (Y:=Empty_set) (wire [35 :: ans])]).
           rewrite (app_assoc (hello t)), <- (app_assoc (hello t ++ _)). eapply (visit_app _ _ _ _ _ _ _ _ _ []); [exact V0|]. cbn [app].
           eapply Vs_door; [apply Dr_wrong; intros Y; apply X, Ri, Y|]. eapply Vs_got; [exact nack_parse|]. apply Vs_nil.
    + exists [MAck; MGeneric [35 :: nonce]]. intros rest. exists (hello t ++ [Got (MGeneric [35 :: nonce])]), (Err ValueError), Challenged.
      split; [|split; [discriminate|exact V0]].
      apply start_iff; [exact HC|]. split; [reflexivity|]. split; [|reflexivity]. eapply V_password. apply pass_raises. exact P.
Qed.

(** ** The examples are their plans *)

Definition program_of (x : house_example) : client -> io shown unit :=
  match x with ExLight => light_01 | ExAutomation => automation_01 | ExEnergy => energy_management_01 | ExGateway => gateway_01 end.

Definition no_lines (x : answer) : list shown := [].
Definition model_line (x : answer) : list shown := match x with AText t => [Printed (gateway_model_name t) None] | _ => [] end.
Definition own_line (x : answer) : list shown :=
  match x with
  | AIp n => [Printed [] (Some (VAddr n))] | ADatetime d t => [Printed [] (Some (VDateTime (d, t)))] | AText t => [Printed t None]
  | _ => [] end.
Definition power_line (x : answer) : list shown :=
  match x with AFloat f => [Logged Log.INFO (lit "Active power: ") (Some (VFloat f))] | _ => [] end.
Definition fillers (x : house_example) : list (answer -> list shown) :=
  match x with
  | ExLight => [no_lines; no_lines] | ExAutomation => [no_lines; no_lines; no_lines; no_lines]
  | ExEnergy => [power_line] | ExGateway => [own_line; model_line; own_line; own_line]
  end.
Definition filled_plan (x : house_example) (c : client) : list filled := combine (plan_of x c) (fillers x).

Lemma filled_fst x c : map fst (filled_plan x c) = plan_of x c.
Proof. destruct x; reflexivity. Qed.

Lemma showing_retag {Y Z} (f : Y -> Z) es : showing f es = retag f es.
Proof. induction es as [|[] es IH]; cbn; congruence. Qed.
Lemma retag_retag {Y Z W} (f : Y -> Z) (g : Z -> W) es : retag g (retag f es) = retag (fun y => g (f y)) es.
Proof. induction es as [|[] es IH]; cbn; congruence. Qed.
Lemma retag_ext {Y Z} (f g : Y -> Z) es : (forall y, f y = g y) -> retag f es = retag g es.
Proof. intros E. induction es as [|[] es IH]; cbn; congruence. Qed.

Lemma act_command c w (g : io (str * seen) unit) (g' : io shown unit) s : program c = g ->
  (forall s, g' s = tagR w g s) -> w = a_each (plain c) ->
  run_act (plain c, no_lines) s = g' s.
Proof.
  intros E P ->. unfold run_act. cbn [fst snd plain a_call a_each gprogram]. unfold mapres. rewrite E, P. unfold tagR.
  destruct (g s) as [[es s1] [[]|e]]; cbn [rmap map no_lines]; rewrite ?app_nil_r; reflexivity.
Qed.
Lemma act_ask it q f k s : run_act (asking it q f, k) s = andthen (ask_program it q) (fun x s => (map Yielded (k x), s, Ok tt)) s.
Proof.
  unfold run_act. cbn [fst snd asking a_call a_each gprogram]. unfold andthen. rewrite (ask_poly (fun _ : str * seen => Printed [] None)). unfold tagR.
  destruct (ask_program it q s) as [[es s1] [x|e]]; reflexivity.
Qed.

Lemma andthen_ext {Y A B} (x x' : io Y A) (k k' : A -> io Y B) s : x s = x' s -> (forall a s, k a s = k' a s) -> andthen x k s = andthen x' k' s.
Proof. intros E K. unfold andthen. rewrite E. destruct (x' s) as [[es s1] [a|e]]; [rewrite K|]; reflexivity. Qed.
Lemma andthen_assoc {Y A B D} (x : io Y A) (k : A -> io Y B) (m : B -> io Y D) s :
  andthen (andthen x k) m s = andthen x (fun a => andthen (k a) m) s.
Proof.
  unfold andthen. destruct (x s) as [[es s1] [a|e]]; [|reflexivity]. destruct (k a s1) as [[es2 s2] [b|e]]; [|reflexivity].
  destruct (m b s2) as [[es3 s3] r]. rewrite app_assoc. reflexivity.
Qed.
Lemma andthen_tt {Y} (x : io Y unit) s : andthen x (fun _ => ret tt) s = x s.
Proof. unfold andthen. destruct (x s) as [[es s1] [[]|e]]; cbn; rewrite ?app_nil_r; reflexivity. Qed.
Lemma andthen_map {Y A B D} (f : A -> B) (x : io Y A) (k : B -> io Y D) s : andthen (mapres f x) k s = andthen x (fun a => k (f a)) s.
Proof. unfold andthen, mapres. destruct (x s) as [[es s1] [a|e]]; reflexivity. Qed.

(** Asking, showing and going on. *)
Lemma ask_then {A} it q f (k : answer -> list shown) (inj : A -> answer) (x : io shown A) (m : A -> io shown unit) rest s :
  ask_program it q = mapres inj x -> (forall a s, m a s = andthen (fun s => (map Yielded (k (inj a)), s, Ok tt)) (fun _ : unit => rest) s) ->
  andthen x m s = andthen (run_act (asking it q f, k)) (fun _ => rest) s.
Proof.
  intros E M. transitivity (andthen (andthen (ask_program it q) (fun y s => (map Yielded (k y), s, Ok tt))) (fun _ : unit => rest) s).
  - rewrite andthen_assoc, E, andthen_map. apply andthen_ext; [reflexivity|]. exact M.
  - apply andthen_ext; [symmetry; apply act_ask|reflexivity].
Qed.

Lemma program_plan x c s : program_of x c s = run_plan (filled_plan x c) s.
Proof.
  destruct x; cbn [program_of filled_plan plan_of fillers].
  - unfold light_01. change (made c LIGHTING (lit "32")) with (Ok (item_at c LIGHTING "32")). rewrite andthen_lift. cbn [light_plan combine run_plan].
    apply andthen_ext.
    + symmetry. eapply act_command; [reflexivity| |reflexivity]. intros s0. apply normal_poly.
    + intros _ s0. rewrite andthen_tt. unfold run_act, async_for. cbn [fst snd a_call a_each gprogram program]. unfold mapres, tagged.
      destruct (light_get_status _ s0) as [[es s1] r]. rewrite showing_retag, retag_retag.
      replace (retag (fun y : str * bool => lamp_shown (fst y, SLamp (snd y))) es) with
        (retag (fun y : str * bool => Printed (lit "Light " ++ fst y ++ lit " status: " ++ (if snd y then lit "ON" else lit "OFF")) None) es)
        by (apply retag_ext; intros [a []]; reflexivity).
      destruct r as [[]|e]; cbn [rmap no_lines map]; rewrite ?app_nil_r; reflexivity.
  - unfold automation_01. change (made c AUTOMATION (lit "15")) with (Ok (item_at c AUTOMATION "15")). rewrite andthen_lift.
    unfold automation_plan. cbn [map combine run_plan].
    assert (X : forall m s, run_auto (item_at c AUTOMATION "15") m s = run_act (plain (CAuto (item_at c AUTOMATION "15") m), no_lines) s).
    { intros m s0. symmetry. eapply act_command; [reflexivity| |reflexivity]. intros s1. apply normal_poly. }
    repeat (apply andthen_ext; [apply X|intros _ ?]). rewrite andthen_tt. apply X.
  - unfold energy_management_01. change (energy_management c (lit "51")) with (Ok (item_at c ENERGY_MANAGEMENT "51")). rewrite andthen_lift.
    unfold energy_plan. cbn [combine run_plan]. eapply (ask_then _ QPower); [reflexivity|]. intros a s0. reflexivity.
  - unfold gateway_01. change (Gateway.gateway c) with (item_at c GATEWAY ""). unfold gateway_plan. cbn [combine run_plan]. cbv zeta.
    eapply (ask_then _ QIp); [reflexivity|]. intros ip s0. apply andthen_ext; [reflexivity|]. intros _ s1.
    eapply (ask_then _ QModel); [reflexivity|]. intros model s2. apply andthen_ext; [reflexivity|]. intros _ s3.
    eapply (ask_then _ QDatetime); [reflexivity|]. intros [d t] s4. apply andthen_ext; [reflexivity|]. intros _ s5.
    eapply (ask_then _ QKernel); [reflexivity|]. intros k s6. rewrite andthen_tt. reflexivity.
Qed.

(** ** What is shown is what was answered *)

Lemma ask_says gw h it q h1 obs x evs : gdoes gw h (GAsk it q) h1 obs (Ok x) evs -> exists vs, says q vs x.
Proof.
  intros D. inversion D as [|? ? ? ? |? ? ? ? ? N Gs So ? ?| |]; subst.
  - inversion Gs; subst; discriminate So.
  - eauto.
Qed.
Lemma no_fit c : fits (plain c, no_lines).
Proof. intros gw h h1 obs x evs _. reflexivity. Qed.
Lemma plan_fits x c : Forall fits (filled_plan x c).
Proof.
  assert (A : forall it q (f : answer -> list shown -> Prop) k, (forall vs y, says q vs y -> f y (k y)) -> fits (asking it q f, k)).
  { intros it q f k H gw h h1 obs y evs D. apply ask_says in D as (vs & S). exact (H vs y S). }
  destruct x; cbn [filled_plan plan_of fillers combine light_plan automation_plan energy_plan gateway_plan map];
    repeat (apply Forall_cons; [first [apply no_fit | apply A | intros ? ? ? ? ? ? _; reflexivity]|]); try apply Forall_nil.
  - intros vs y S. inversion S; subst. constructor.
  - intros vs y S. inversion S; subst. + constructor. + match goal with H : In QIp _ |- _ => cbn in H; intuition discriminate end.
  - intros vs y S. inversion S as [| | | | |v more n M| | | | | |q' v more f I|]; subst.
    + inversion M as [v' K|v' K]; subst.
      * destruct K; cbn [model_line]; [apply (MS "0" "GENERIC")|apply (MS "2" "MHServer")|apply (MS "4" "MH200")|apply (MS "6" "F452")|apply (MS "7" "F452V")|apply (MS "11" "MHServer2")
          |apply (MS "12" "H4684")|apply (MS "23" "HL4684")|apply (MS "200" "MH202")]; cbn; tauto.
      * apply (MS "0" "GENERIC"). cbn. tauto.
    + cbn in I. intuition discriminate.
  - intros vs y S. inversion S; subst; [constructor|]. match goal with H : In QDatetime _ |- _ => cbn in H; intuition discriminate end.
  - intros vs y S. inversion S; subst; [constructor|]. match goal with H : In QKernel _ |- _ => cbn in H; intuition discriminate end.
Qed.

Lemma wire32 : wiretag (lit "32") /\ wiretag (lit "15") /\ wiretag (lit "51") /\ wiretag [].
Proof. repeat split; try (apply FrameThms.digits_wire; apply digits_all; reflexivity). Qed.
Lemma plan_ok x t : t <> Event -> Forall (fun p => gcall_ok (a_call (fst p))) (filled_plan x (joined t)).
Proof.
  intros Ht. destruct wire32 as (W1 & W2 & W3 & W4).
  assert (R : forall w a, ready (item_at (joined t) w a)) by (intros w a; split; [exact Ht|reflexivity]).
  destruct x; cbn [filled_plan plan_of fillers combine light_plan automation_plan energy_plan gateway_plan map];
    repeat (apply Forall_cons; [split; [apply R|split; [assumption|split; [reflexivity|]]]|]); try apply Forall_nil; cbn [fst a_call plain asking].
  - eexists. apply G_call. apply (F_light _ _ 11). reflexivity.
  - eexists. apply G_call. apply F_ask_light.
  - eexists. apply G_call. apply F_auto.
  - eexists. apply G_call. apply F_auto.
  - eexists. apply G_call. apply F_auto.
  - eexists. apply G_call. apply F_auto.
  - eexists. apply G_ask.
  - eexists. apply G_ask.
  - eexists. apply G_ask.
  - eexists. apply G_ask.
  - eexists. apply G_ask.
Qed.

(** ** Whole runs *)

Definition ended (t : session) (r : res unit) : res client := match r with Ok _ => Ok (close (joined t)) | Err e => Err e end.

Lemma example_is body C pw rnd s : example body C pw rnd true s =
  match @start Empty_set C (new_client Client.Command) pw rnd true s with
  | (c, (es, s1, Ok _)) => match body c s1 with (es2, s2, Ok _) => (retag void es ++ es2, s2, Ok (close c)) | (es2, s2, Err e) => (retag void es ++ es2, s2, Err e) end
  | (_, (es, s1, Err e)) => (retag void es, s1, Err e)
  end.
Proof.
  unfold example, andthen. rewrite opened_is. destruct (start C _ pw rnd true s) as [c [[es s1] [x|e]]]; [|reflexivity].
  destruct (body c s1) as [[es2 s2] [y|e]]; [|reflexivity]. cbn. rewrite app_nil_r. reflexivity.
Qed.

Theorem example_house x C l gw pw rnd s es s1 r h st h' out' evs : sane C -> lock_ok l -> ggateway_ok gw -> ghouse_ok h ->
  example (program_of x) C pw rnd true s = (es, s1, r) -> visit l gw Waiting h [SpecHouse.frame_ack] es st h' out' evs ->
  (r = Err TimeoutError -> out' = []) ->
  out' = [] /\
  ((opens l pw /\ exists r0, performs gw h (plan_of x (joined Client.Command)) (yields es) r0 evs h' /\ r = ended Client.Command r0) \/
   (~ opens l pw /\ r = Err InvalidAuthentication /\ yields es = [] /\ evs = [] /\ h' = h) \/
   (l <> NoLock /\ py_int pw = Err ValueError /\ r = Err ValueError /\ yields es = [] /\ evs = [] /\ h' = h)).
Proof.
  intros HC L G Hh E V T. rewrite example_is in E. destruct (@start Empty_set C (new_client Client.Command) pw rnd true s) as [c [[es0 s0] r0]] eqn:E0.
  destruct r0 as [[]|e].
  - destruct (program_of x c s0) as [[es2 s2] r2] eqn:E2.
    assert (X : es = retag void es0 ++ es2 /\ r = match r2 with Ok _ => Ok (close c) | Err e => Err e end) by (destruct r2; injection E as <- <- <-; auto).
    destruct X as (-> & ->). apply visit_split in V as (sx & hx & ox & e1 & e2 & V1 & V2 & ->). apply visit_retag in V1.
    destruct (login_visit _ _ _ _ _ _ _ _ _ _ _ _ _ _ _ _ HC L E0 V1 ltac:(discriminate)) as (-> & -> & -> & -> & [(_ & O & ->)|[(X & _)|(X & _)]]); [|discriminate X|discriminate X].
    destruct (visit_inside _ _ _ _ _ _ _ _ _ _ V2 eq_refl) as (_ & S). rewrite program_plan in E2.
    destruct (plan_performs gw (filled_plan x (joined Client.Command)) h s0 es2 s2 r2 h' out' e2 G Hh (plan_ok x Client.Command ltac:(discriminate)) (plan_fits x _) E2 S) as (-> & P).
    { intros ->. apply T. reflexivity. }
    split; [reflexivity|]. left. split; [exact O|]. exists r2. rewrite yields_app, yields_void. rewrite filled_fst in P. split; [exact P|]. destruct r2; reflexivity.
  - injection E as <- <- <-. apply visit_retag in V. rewrite yields_void.
    destruct (login_visit _ _ _ _ _ _ _ _ _ _ _ _ _ _ _ _ HC L E0 V ltac:(intros X; apply T; congruence)) as (-> & -> & -> & -> & [(X & _)|[(X & O & ->)|(X & P & -> & q & n & ->)]]); [discriminate X| |].
    + injection X as ->. split; [reflexivity|]. right. left. auto 6.
    + injection X as ->. split; [reflexivity|]. right. right. split; [discriminate|]. auto 6.
Qed.

Theorem example_possible x C l gw pw rnd h : sane C -> lock_ok l -> ggateway_ok gw -> ghouse_ok h ->
  exists s es s1 r st h' evs, example (program_of x) C pw rnd true s = (es, s1, r) /\
    visit l gw Waiting h [SpecHouse.frame_ack] es st h' [] evs /\ r <> Err TimeoutError.
Proof.
  intros HC L G Hh. destruct (plan_exists gw (filled_plan x (joined Client.Command)) h G Hh (plan_ok x Client.Command ltac:(discriminate))) as (ms & es2 & s2 & r2 & h2 & v2 & E2 & S2 & T2).
  destruct (login_exists C Client.Command l gw pw rnd h HC L) as (ms0 & K). destruct (K (map Some ms)) as (es & r & st & E & T & V).
  exists (map Some ms0 ++ map Some ms). rewrite example_is, E. destruct r as [[]|e].
  - rewrite program_plan, E2.
    destruct (login_visit _ _ _ _ _ _ _ _ _ _ _ _ _ _ _ _ HC L E V ltac:(discriminate)) as (_ & _ & _ & _ & [(_ & O & ->)|[(X & _)|(X & _)]]); [|discriminate X|discriminate X].
    assert (W : visit l gw Waiting h [SpecHouse.frame_ack] (retag void es ++ es2) Inside h2 [] ([] ++ v2)).
    { eapply visit_app; [apply visit_retag', V|]. apply inside_visit, S2. }
    destruct r2 as [[]|e]; do 6 eexists; (split; [reflexivity|split; [exact W|congruence]]).
  - do 6 eexists. split; [reflexivity|]. split; [apply visit_retag', V|congruence].
Qed.
