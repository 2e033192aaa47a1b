(** * The library against a house *)
From Coq Require Import String List NArith ZArith Bool Lia.
From Verif Require Import PyStr Tags Messages MessageFacts SpecMsg SpecTag MessageThms MessageThms2 MessageThms3 TagThms SpecProto ProtoThms IO Client SpecItem Items
  Lighting SpecLight HandshakeThms ItemThms LightThms LightThms2 FrameThms SpecHouse.
Import ListNotations.
Open Scope N_scope.
Open Scope list_scope.

(** ** Running calls against the gateway *)

Fixpoint retag {Y Z} (f : Y -> Z) (es : list (ev Y)) : list (ev Z) :=
  match es with
  | [] => []
  | Sent b :: r => Sent b :: retag f r
  | Got m :: r => Got m :: retag f r
  | Yielded y :: r => Yielded (f y) :: retag f r
  end.
Definition tagged {Y Z} (f : Y -> Z) (g : io Y unit) : io Z unit :=
  fun s => match g s with (es, s', r) => (retag f es, s', r) end.

Definition run_req (it : item) (r : light_req) : io (str * list Z) unit :=
  match r with
  | RTemporization => temporization_request it
  | RWorkingTime => request_working_time_lamp it
  | RBrightness => request_current_brightness_speed it
  | RHsv => request_current_hsv it
  | RWhite => request_current_white_temperature it
  end.

(** The program of a call. *)
Definition program (c : call) : io (str * seen) unit :=
  match c with
  | CLight it c => light_run it c
  | CAuto it c => run_auto it c
  | CTemporization it h m s => temporization_command it h m s
  | CBrightness it l s => set_brightness_with_speed it (AInt (Z.of_N l)) (AInt (Z.of_N s))
  | CHsv it h s v => set_hsv it h s v
  | CWhite it t => set_white_temperature it t
  | CAskLight it => tagged (fun y => (fst y, SLamp (snd y))) (light_get_status it)
  | CAskDimmer it => tagged (fun y => (fst y, SLevel (snd y))) (dimmer_get_status it)
  | CAskAuto it => tagged (fun y => (fst y, SMove (snd y))) (auto_get_status it)
  | CAskNumbers it r => tagged (fun y => (fst y, SNumbers (snd y))) (run_req it r)
  end.

(** [serving gw h out es h' out' evs]: the events [es] of a program fit a gateway
    in the state [h] that has sent the frames [out] which are not yet read: what
    is written is obeyed, what is read is what was sent, frame by frame. *)
Inductive serving (gw : gateway) {Y} : house -> list (list N) -> list (ev Y) -> house -> list (list N) -> list (list N) -> Prop :=
| Sv_nil h out : serving gw h out [] h out []
| Sv_sent h out b h1 ans ev1 es h' out' evs : serves gw h b h1 ans ev1 -> serving gw h1 (out ++ ans) es h' out' evs ->
    serving gw h out (Sent b :: es) h' out' (ev1 ++ evs)
| Sv_got h f out m es h' out' evs : parse_message f = Ok m -> serving gw h out es h' out' evs ->
    serving gw h (f :: out) (Got m :: es) h' out' evs
| Sv_yield h out y es h' out' evs : serving gw h out es h' out' evs -> serving gw h out (Yielded y :: es) h' out' evs.

(** Calls one after the other on one connection.  The script is whatever the
    connection delivers; a read times out only when the gateway has nothing more
    to say. *)
Inductive session_with (gw : gateway) : house -> list (list N) -> list call -> script ->
  list (list (str * seen) * res unit) -> list (list N) -> house -> list (list N) -> Prop :=
| Ss_nil h out s : session_with gw h out [] s [] [] h out
| Ss_call h out c cs s es s1 r h1 out1 evs log evs' h' out' :
    program c s = (es, s1, r) -> serving gw h out es h1 out1 evs -> (r = Err TimeoutError -> out1 = []) ->
    session_with gw h1 out1 cs s1 log evs' h' out' ->
    session_with gw h out (c :: cs) s ((yields es, r) :: log) (evs ++ evs') h' out'.

(** A call that can be made: the client is connected, the item is of the right
    class and has an address that can be sent; the arguments are in range, and
    it is not turn_on_30_min (C48). *)
Definition call_ok (c : call) : Prop :=
  ready (call_item c) /\ wiretag (it_where (call_item c)) /\ it_who (call_item c) = call_who c /\ exists o, stands_for c o.

(** ** The gateway understands what is sent *)

Definition order_msg (o : order) : msg :=
  match o with
  | Command w what a => MNormal w what a
  | Writing w a d vs => MDimWri w a d vs
  | Status w a => MStatus w a
  | Dimension w a d => MDimReq w a d
  end.

Lemma order_parse o : order_ok o -> parse_message (order_frame o) = Ok (order_msg o).
Proof.
  intros H. assert (W : wellformed (order_msg o)).
  { destruct o; cbn in H |- *.
    - split; [|exact I]. destruct H. do 2 (apply Forall_cons; [assumption|]). apply Forall_nil.
    - destruct H as (A & B & C & D). split; [|auto]. constructor; [assumption|]. constructor; [apply digits_wire, B|assumption].
    - split; [|exact I]. apply Forall_cons; [exact H|apply Forall_nil].
    - destruct H as (A & B). split; [|assumption]. apply Forall_cons; [exact A|]. apply Forall_cons; [apply digits_wire, B|apply Forall_nil]. }
  rewrite <- (print_parse _ W). f_equal.
  assert (E : msg_bytes (order_msg o) = Ok (order_frame o)).
  { destruct o; cbn in H |- *.
    - apply cmd_bytes; apply H.
    - destruct H as (A & B & C & D). destruct vs as [|v vs]; [congruence|]. apply dimwri_bytes; [apply A|apply digits_wire, B|].
      eapply Forall_impl; [|exact C]. intros x X. apply X.
    - apply status_bytes, H.
    - apply dimreq_bytes; [apply H|apply digits_wire, H]. }
  unfold msg_bytes in E. destruct (encode_ascii _) eqn:Ee in E; [|discriminate].
  unfold encode_ascii in Ee. destruct (forallb _ _) in Ee; congruence.
Qed.

Lemma order_inj o o' : order_ok o -> order_ok o' -> order_frame o = order_frame o' -> o = o'.
Proof.
  intros H H' E. pose proof (order_parse o H) as P. rewrite E, (order_parse o' H') in P. injection P as P.
  destruct o, o'; cbn in P; congruence.
Qed.

Lemma serves_order gw h o h' ans evs : order_ok o -> serves gw h (order_frame o) h' ans evs -> obeys gw h o h' ans evs.
Proof. intros H (o' & H' & E & O). apply order_inj in E; [subst; assumption|assumption|assumption]. Qed.

(** ** Frames of the gateway are read as what they say *)

Definition state_msg (p : point) : msg := MNormal (p_who p) (p_state p) (p_where p).
Lemma state_parse p : point_ok p -> parse_message (frame_state p) = Ok (state_msg p).
Proof. intros (A & _ & B & _). apply (order_parse (Command (p_who p) (p_state p) (p_where p))). split; assumption. Qed.
Lemma ack_parse : parse_message frame_ack = Ok MAck.
Proof. vm_compute. reflexivity. Qed.
Lemma nack_parse : parse_message frame_nack = Ok MNack.
Proof. vm_compute. reflexivity. Qed.

Lemma join_wire vs v : [c_star] ++ join c_star (v :: vs) = concat (map (cons 42) (v :: vs)).
Proof.
  revert v. induction vs as [|x vs IH]; intros v.
  - cbn. rewrite app_nil_r. reflexivity.
  - change (join c_star (v :: x :: vs)) with (v ++ [c_star] ++ join c_star (x :: vs)). rewrite IH. cbn [map concat]. cbn [app]. reflexivity.
Qed.

Lemma dimres_frame w a d v vs : frame_dimres w a d (v :: vs) = msg_str (MDimRes w a d (v :: vs)).
Proof.
  unfold frame_dimres, wire, msg_str. cbn [map concat].
  change ([c_star] ++ d ++ [c_star] ++ join c_star (v :: vs) ++ hh) with ([c_star] ++ d ++ ([c_star] ++ join c_star (v :: vs) ++ hh)).
  rewrite (app_assoc [c_star] (join c_star (v :: vs)) hh), join_wire. cbn [map concat]. cbn [app lit]. repeat first [rewrite <- app_assoc | progress cbn [app]]. reflexivity.
Qed.

Lemma dim_parse w a d vs : wiretag a -> digits d -> Forall wiretag vs -> vs <> [] ->
  parse_message (frame_dimres w a d vs) = Ok (MDimRes w a d vs).
Proof.
  intros A D V N. destruct vs as [|v vs]; [congruence|]. rewrite dimres_frame. apply print_parse. split.
  - constructor; [assumption|]. constructor; [apply digits_wire, D|assumption].
  - split; [|discriminate]. intros e ->. inversion D; subst. unfold digitchar in *. lia.
Qed.

(** ** Traces *)

Lemma yields_retag {Y Z} (f : Y -> Z) es : yields (retag f es) = map f (yields es).
Proof. induction es as [|[] es IH]; cbn; congruence. Qed.
Lemma serving_retag gw {Y Z} (f : Y -> Z) es : forall h out h' out' evs,
  serving gw h out (retag f es) h' out' evs -> serving gw h out es h' out' evs.
Proof.
  induction es as [|[b|m|y] es IH]; intros h out h' out' evs H; cbn [retag] in H; inversion H; subst; econstructor; eauto.
Qed.
Lemma serving_retag' gw {Y Z} (f : Y -> Z) h out es h' out' evs :
  serving gw h out es h' out' evs -> serving gw h out (retag f es) h' out' evs.
Proof. induction 1; cbn [retag]; econstructor; eauto. Qed.

Lemma serving_yielded gw {Y} (ys : list Y) es h out h' out' evs :
  serving gw h out (map Yielded ys ++ es) h' out' evs <-> serving gw h out es h' out' evs.
Proof.
  induction ys as [|y ys IH]; cbn [map app]; [reflexivity|]. rewrite <- IH. split; intros H; [inversion H; assumption|constructor; assumption].
Qed.

(** The events in which nothing is written. *)
Lemma serving_got gw {Y} h f out m (es : list (ev Y)) h' out' evs :
  serving gw h (f :: out) (Got m :: es) h' out' evs -> parse_message f = Ok m /\ serving gw h out es h' out' evs.
Proof. intros H. inversion H; subst. auto. Qed.
Lemma serving_nil gw {Y} h out h' out' evs : serving gw (Y:=Y) h out [] h' out' evs -> h' = h /\ out' = out /\ evs = [].
Proof. intros H. inversion H; subst. auto. Qed.

(** A stream of replies. *)
Lemma stream_served gw {Y} (want : msg -> Prop) (body : msg -> res (list Y)) s es s' r :
  (forall m, want m -> m <> MAck /\ m <> MNack) ->
  streamed want body s (es, s', r) -> forall fs yss h h1 out1 evs,
  serving gw h (fs ++ [frame_ack]) es h1 out1 evs -> (r = Err TimeoutError -> out1 = []) ->
  Forall2 (fun f ys => exists m, parse_message f = Ok m /\ want m /\ body m = Ok ys) fs yss ->
  h1 = h /\ out1 = [] /\ evs = [] /\ r = Ok tt /\ yields es = concat yss.
Proof.
  intros Wn H. remember (es, s', r) as x eqn:E. revert es s' r E.
  induction H as [s|m s Hm Hw|s| |m s e Hw Hb|m ys s es0 s0 r0 Hw Hb Hs IH]; intros es s' r E fs yss h h1 out1 evs S T F; injection E as <- <- <-.
  - destruct F as [|f ys fs yss (m & P & W & B) F]; cbn [app] in S; apply serving_got in S as (P' & S).
    + apply serving_nil in S as (-> & -> & ->). auto.
    + rewrite P in P'. injection P' as ->. destruct (Wn _ W) as [X _]. congruence.
  - destruct F as [|f ys fs yss (m' & P & W & B) F]; cbn [app] in S; apply serving_got in S as (P' & S).
    + rewrite ack_parse in P'. congruence.
    + rewrite P in P'. injection P' as ->. contradiction.
  - apply serving_nil in S as (-> & -> & ->). specialize (T eq_refl). destruct fs; discriminate.
  - apply serving_nil in S as (-> & -> & ->). specialize (T eq_refl). destruct fs; discriminate.
  - destruct F as [|f ys fs yss (m' & P & W & B) F]; cbn [app] in S; apply serving_got in S as (P' & S).
    + rewrite ack_parse in P'. injection P' as <-. destruct (Wn _ Hw) as [X _]. congruence.
    + rewrite P in P'. injection P' as ->. congruence.
  - destruct F as [|f ys' fs yss (m' & P & W & B) F]; cbn [app] in S; apply serving_got in S as (P' & S).
    + rewrite ack_parse in P'. injection P' as <-. destruct (Wn _ Hw) as [X _]. congruence.
    + rewrite P in P'. injection P' as ->. rewrite Hb in B. injection B as <-.
      apply serving_yielded in S. destruct (IH _ _ _ eq_refl _ _ _ _ _ _ S T F) as (A1 & A2 & A3 & A4 & A5).
      repeat (split; [assumption|]). cbn [yields concat]. rewrite yields_app, A5. f_equal. apply yields_map.
Qed.

(** A refusal. *)
Lemma nack_served gw {Y} (want : msg -> Prop) (body : msg -> res (list Y)) s es s' r h h1 out1 evs :
  ~ want MNack -> streamed want body s (es, s', r) ->
  serving gw h [frame_nack] es h1 out1 evs -> (r = Err TimeoutError -> out1 = []) ->
  h1 = h /\ out1 = [] /\ evs = [] /\ r = Err ResponseError /\ yields es = [].
Proof.
  intros Wn H. remember (es, s', r) as x eqn:E.
  destruct H as [s|m s Hm Hw|s| |m s e Hw Hb|m ys s es0 s0 r0 Hw Hb Hs]; injection E as <- <- <-; intros S T.
  - apply serving_got in S as (P & S). rewrite nack_parse in P. discriminate.
  - apply serving_got in S as (P & S). apply serving_nil in S as (-> & -> & ->). auto.
  - apply serving_nil in S as (-> & -> & ->). discriminate (T eq_refl).
  - apply serving_nil in S as (-> & -> & ->). discriminate (T eq_refl).
  - apply serving_got in S as (P & S). rewrite nack_parse in P. injection P as <-. contradiction.
  - apply serving_got in S as (P & S). rewrite nack_parse in P. injection P as <-. contradiction.
Qed.

(** One command. *)
Definition changes (o : order) : Prop := match o with Command _ _ _ | Writing _ _ _ _ => True | _ => False end.
Lemma command_served gw {Y} o s (es : list (ev Y)) s1 r h h1 out1 evs :
  order_ok o -> changes o -> answered (order_frame o) s (es, s1, r) ->
  serving gw h [] es h1 out1 evs -> (r = Err TimeoutError -> out1 = []) ->
  out1 = [] /\ yields es = [] /\
  ((existsb (at_whom gw o) h = false /\ h1 = h /\ evs = [] /\ r = Err ResponseError) \/
   (existsb (at_whom gw o) h = true /\ exists ans, obeys gw h o h1 ans evs /\ r = Ok tt)).
Proof.
  intros Hok Hc H S T.
  assert (X : exists es', es = Sent (order_frame o) :: es') by (inversion H; eauto). destruct X as (es' & ->).
  inversion S as [|? ? ? h2 ans ev1 ? ? ? evs2 Sv S2| |]; subst. cbn [app] in S2. apply serves_order in Sv; [|assumption].
  assert (A : (existsb (at_whom gw o) h = false /\ h2 = h /\ ev1 = [] /\ ans = [frame_nack]) \/
              (existsb (at_whom gw o) h = true /\ ans = [frame_ack])).
  { inversion Sv; subst; cbn in Hc; try contradiction; [left; auto|right; auto|right; auto]. }
  remember (Sent (order_frame o) :: es', s1, r) as x eqn:E.
  destruct H as [s|m s Hm|s|]; injection E as <- <- <-.
  - destruct A as [(A1 & -> & -> & ->)|(A1 & ->)]; apply serving_got in S2 as (P & S2).
    + rewrite nack_parse in P. discriminate.
    + apply serving_nil in S2 as (-> & -> & ->). rewrite app_nil_r. split; [reflexivity|]. split; [reflexivity|]. right. eauto.
  - destruct A as [(A1 & -> & -> & ->)|(A1 & ->)]; apply serving_got in S2 as (P & S2).
    + apply serving_nil in S2 as (-> & -> & ->). split; [reflexivity|]. split; [reflexivity|]. left. auto.
    + rewrite ack_parse in P. congruence.
  - apply serving_nil in S2 as (-> & -> & ->). specialize (T eq_refl). destruct A as [(_ & _ & _ & A)|(_ & A)]; subst; discriminate.
  - apply serving_nil in S2 as (-> & -> & ->). specialize (T eq_refl). destruct A as [(_ & _ & _ & A)|(_ & A)]; subst; discriminate.
Qed.

(** ** The programs write the orders *)

Definition code_of (e : effect) : N :=
  match e with
  | Off => 0 | On => 1 | Level p => p / 10 | Blink t => t / 5 + 19 | StepUp => 30 | StepDown => 31
  | OnFor t => if t =? 5 then 18 else if t =? 300 then 17 else if t =? 9000 then 16 else t / 600 + 10
  end.
Lemma doc_code n e : doc_light n = Some e -> n = code_of e.
Proof.
  destruct n as [|p]; [intros H; injection H as <-; reflexivity|].
  do 5 (destruct p as [p|p|]; try (intros H; discriminate H); try (intros H; injection H as <-; reflexivity)).
Qed.

Lemma dec_wire n : wiretag (dec n).
Proof. apply digits_wire, digits_all, dec_digits. Qed.

Lemma stands_ok c o : wiretag (it_where (call_item c)) -> stands_for c o -> order_ok o.
Proof.
  intros W H. inversion H; subst; cbn in W |- *; repeat split; auto using dec_wire; try discriminate; try apply (dec_wire _);
    try (apply W); try (repeat (apply Forall_cons; [apply dec_wire|]); apply Forall_nil);
    try (apply digits_all; reflexivity); try (destruct r; apply digits_all; reflexivity).
Qed.

Lemma command_program c o (s : script) : call_ok c -> stands_for c o -> asks c = false ->
  changes o /\ answered (order_frame o) s (program c s).
Proof.
  intros (Hr & Hw & Hk & _) H Ha. pose proof (proj1 Hw) as Hp. change (placed (call_item c)) in Hp.
  inversion H; subst; cbn in Ha, Hr, Hp, Hk; cbn [program order_frame changes]; try discriminate; (split; [exact I|]).
  - assert (N30 : c0 <> LBase turn_on_30_min).
    { intros ->. destruct (light_30_min (Y:=Empty_set) it Hr Hp Hk) as (_ & _ & _ & X). apply (X n). rewrite H0. reflexivity. }
    destruct (light_documented (Y:=str * seen) it c0 Hr Hp Hk N30) as (n' & E & A).
    rewrite (doc_code _ _ H0), <- (doc_code _ _ E). apply A.
  - apply auto_documented; assumption.
  - rewrite <- Hk. apply temporization_in_range; assumption.
  - rewrite <- Hk. apply brightness_any; try assumption; apply small_len; lia.
  - rewrite <- Hk. apply hsv_range; auto.
  - rewrite <- Hk. apply white_range; auto.
Qed.

(** ** Requests *)

Definition frames_of (o : order) (p : point) : list (list N) :=
  match o with Dimension _ _ d => frame_dim d p | _ => [frame_state p] end.
Lemma obeys_ask gw h o h' ans evs : ~ changes o -> existsb (at_whom gw o) h = true -> obeys gw h o h' ans evs ->
  h' = h /\ ans = concat (map (frames_of o) (filter (at_whom gw o) h)) ++ [frame_ack].
Proof.
  intros C X H. inversion H; subst; cbn in C; try (destruct C; exact I); cbn [at_whom frames_of] in *.
  - congruence.
  - split; [reflexivity|]. apply (f_equal (fun l => l ++ [frame_ack])). symmetry. exact (concat_singles frame_state _).
  - auto.
Qed.
Lemma obeys_nobody gw h o h' ans evs : existsb (at_whom gw o) h = false -> obeys gw h o h' ans evs -> h' = h /\ ans = [frame_nack] /\ evs = [].
Proof. intros X H. inversion H; subst; cbn [at_whom] in *; try congruence. auto. Qed.

(** The frames about one point are read as [ys]. *)
Definition read_as {Y} (want : msg -> Prop) (body : msg -> res (list Y)) (fs : list (list N)) (ys : list Y) : Prop :=
  exists yss, ys = concat yss /\ Forall2 (fun f ys => exists m, parse_message f = Ok m /\ want m /\ body m = Ok ys) fs yss.
Lemma read_all {Y} (want : msg -> Prop) (body : msg -> res (list Y)) (fr : point -> list (list N)) ps (R : point -> list Y -> Prop) :
  Forall (fun p => exists ys, R p ys /\ read_as want body (fr p) ys) ps ->
  exists yss fyss, Forall2 R ps yss /\ concat yss = concat fyss /\
    Forall2 (fun f ys => exists m, parse_message f = Ok m /\ want m /\ body m = Ok ys) (concat (map fr ps)) fyss.
Proof.
  induction 1 as [|p ps (ys & HR & (yss0 & -> & F0)) _ (yss & fyss & F & E & G)].
  - exists [], []. cbn. repeat constructor.
  - exists (concat yss0 :: yss), (yss0 ++ fyss). split; [constructor; assumption|]. split.
    + cbn [concat]. rewrite concat_app, E. reflexivity.
    + cbn [map concat]. apply Forall2_app; assumption.
Qed.

Lemma ask_served gw {Y} (f : Y -> str * seen) o (want : msg -> Prop) body (g : io Y unit) s es s1 r h h1 out1 evs (R : point -> list Y -> Prop) :
  order_ok o -> ~ changes o -> (exists x, streamed want body s x /\ g s = pre [Sent (order_frame o)] x) ->
  (forall m, want m -> m <> MAck /\ m <> MNack) ->
  Forall (fun p => exists ys, R p ys /\ read_as want body (frames_of o p) ys) (filter (at_whom gw o) h) ->
  tagged f g s = (es, s1, r) -> serving gw h [] es h1 out1 evs -> (r = Err TimeoutError -> out1 = []) ->
  out1 = [] /\
  ((existsb (at_whom gw o) h = false /\ h1 = h /\ evs = [] /\ r = Err ResponseError /\ yields es = []) \/
   (existsb (at_whom gw o) h = true /\ exists ans yss, obeys gw h o h1 ans evs /\ r = Ok tt /\
      Forall2 R (filter (at_whom gw o) h) yss /\ yields es = map f (concat yss))).
Proof.
  intros Hok Hc (x & Hx & E) Wn V Et S T. unfold tagged in Et. rewrite E in Et. destruct x as [[es0 s0] r0]. cbn in Et. injection Et as <- <- <-.
  change (Sent (order_frame o) :: retag f es0) with (retag f (Sent (order_frame o) :: es0)) in *.
  rewrite yields_retag. apply serving_retag in S. cbn [yields].
  inversion S as [|? ? ? h2 ans ev1 ? ? ? evs2 Sv S2| |]; subst. cbn [app] in S2. apply serves_order in Sv; [|assumption].
  destruct (existsb (at_whom gw o) h) eqn:X.
  - destruct (obeys_ask _ _ _ _ _ _ Hc X Sv) as (-> & ->).
    destruct (read_all want body (frames_of o) _ R V) as (yss & fyss & F & Ec & G).
    destruct (stream_served gw want body _ _ _ _ Wn Hx _ _ _ _ _ _ S2 T G) as (-> & -> & -> & -> & Ey).
    split; [reflexivity|]. right. split; [reflexivity|]. exists (concat (map (frames_of o) (filter (at_whom gw o) h)) ++ [frame_ack]), yss.
    rewrite app_nil_r. split; [assumption|]. split; [reflexivity|]. split; [assumption|]. rewrite Ey, Ec. reflexivity.
  - destruct (obeys_nobody _ _ _ _ _ _ X Sv) as (-> & -> & ->).
    assert (Wk : ~ want MNack) by (intros W; destruct (Wn _ W); congruence).
    destruct (nack_served gw want body _ _ _ _ _ _ _ _ Wk Hx S2 T) as (-> & -> & -> & -> & ->). split; [reflexivity|]. left. auto.
Qed.

(** ** What is read about one point *)

Lemma normal_not_ack m : normal m -> m <> MAck /\ m <> MNack.
Proof. intros (? & ? & ? & ->). split; discriminate. Qed.
Lemma dimres_not_ack m : dimres m -> m <> MAck /\ m <> MNack.
Proof. intros (? & ? & ? & ? & ->). split; discriminate. Qed.

Lemma read_state {Y} (body : msg -> res (list Y)) p ys : point_ok p -> body (state_msg p) = Ok ys -> read_as normal body [frame_state p] ys.
Proof.
  intros H B. exists [ys]. split; [cbn; rewrite app_nil_r; reflexivity|]. constructor; [|constructor].
  exists (state_msg p). split; [apply state_parse, H|]. split; [repeat eexists|exact B].
Qed.

Lemma light_read it p : point_ok p ->
  exists ys, shows p (CAskLight it) (map (fun y => (fst y, SLamp (snd y))) ys) /\ read_as normal light_status_body [frame_state p] ys.
Proof.
  intros H. destruct (str_eqb (p_state p) [49]) eqn:E1.
  - exists [(p_where p, true)]. split; [apply Sh_on, str_eqb_spec, E1|]. apply read_state; [assumption|].
    unfold light_status_body, state_msg, get_what, get_where. cbn [msg_where bind]. change (lit "1") with [49]. rewrite E1. reflexivity.
  - destruct (str_eqb (p_state p) [48]) eqn:E0.
    + exists [(p_where p, false)]. split; [apply Sh_off, str_eqb_spec, E0|]. apply read_state; [assumption|].
      unfold light_status_body, state_msg, get_what, get_where. cbn [msg_where bind]. change (lit "1") with [49]. change (lit "0") with [48]. rewrite E1, E0. reflexivity.
    + exists []. split.
      * apply Sh_other; intros E; apply str_eqb_spec in E; congruence.
      * apply read_state; [assumption|].
        unfold light_status_body, state_msg, get_what, get_where. cbn [msg_where bind]. change (lit "1") with [49]. change (lit "0") with [48]. rewrite E1, E0. reflexivity.
Qed.

Lemma dimmer_read it p : point_ok p -> p_who p = LIGHTING ->
  exists ys, shows p (CAskDimmer it) (map (fun y => (fst y, SLevel (snd y))) ys) /\ read_as normal dimmer_status_body [frame_state p] ys.
Proof.
  intros H L. pose proof H as (_ & _ & _ & HL & _). destruct (HL L) as ((n & Hn) & _).
  exists [(p_where p, (10 * Z.of_N n)%Z)]. split; [apply Sh_level, Hn|]. apply read_state; [assumption|].
  unfold dimmer_status_body, state_msg, get_what, get_where. cbn [msg_where bind]. rewrite (tagnum_int _ _ Hn). cbn [bind]. rewrite Z.mul_comm. reflexivity.
Qed.

Lemma auto_read it p : point_ok p -> p_who p = AUTOMATION ->
  exists ys, shows p (CAskAuto it) (map (fun y => (fst y, SMove (snd y))) ys) /\ read_as normal auto_status_body [frame_state p] ys.
Proof.
  intros H L. pose proof H as (_ & _ & _ & _ & HA). destruct (HA L) as (c & Hc).
  exists [(p_where p, p_state p)]. split; [apply (Sh_auto p it c), Hc|]. apply read_state; [assumption|].
  unfold auto_status_body, state_msg, get_what, get_where. cbn [msg_where bind]. rewrite Hc. destruct c; reflexivity.
Qed.

Lemma req_enough r : enough (req_dim r) = req_count r.
Proof. destruct r; reflexivity. Qed.
Lemma req_digits r : digits (req_dim r).
Proof. apply digits_all. destruct r; reflexivity. Qed.

Lemma numbers_read it r p : point_ok p -> p_who p = LIGHTING ->
  exists ys, shows p (CAskNumbers it r) (map (fun y => (fst y, SNumbers (snd y))) ys) /\ read_as dimres (ints_body (req_count r)) (frame_dim (req_dim r) p) ys.
Proof.
  intros H L. pose proof H as (Hw & _ & _ & HL & _). destruct (HL L) as (_ & HD). unfold frame_dim.
  destruct (p_dims p (req_dim r)) as [vs|] eqn:E.
  - destruct (HD _ _ E) as (Wv & vs1 & more & ns & -> & F & Ln). rewrite req_enough in Ln.
    exists [(p_where p, map Z.of_N ns)]. split; [apply (Sh_numbers p it r vs1 more ns E F Ln)|].
    exists [[(p_where p, map Z.of_N ns)]]. split; [reflexivity|]. constructor; [|constructor].
    exists (MDimRes (p_who p) (p_where p) (req_dim r) (vs1 ++ more)). split; [|split; [repeat eexists|]].
    + apply dim_parse; [assumption|apply req_digits|assumption|]. destruct F; [|discriminate].
      destruct r; discriminate Ln.
    + destruct (ints_ok (MDimRes (p_who p) (p_where p) (req_dim r) (vs1 ++ more)) (p_where p, ns)) as (_ & B).
      { exists (p_who p), (req_dim r), vs1, more. auto. }
      cbn [fst snd] in B. rewrite Ln in B. exact B.
  - exists []. split; [apply (Sh_unknown p it r E)|]. exists []. split; [reflexivity|constructor].
Qed.

(** ** One call *)

Definition house_ok (h : house) : Prop := Forall point_ok h.

Lemma who_eqb_true a b : who_eqb a b = true -> a = b.
Proof. apply who_eqb_spec. Qed.
Lemma aimed_points gw w a h : house_ok h -> Forall (fun p => point_ok p /\ p_who p = w) (filter (aimed gw w a) h).
Proof.
  intros H. apply Forall_forall. intros p Hp. apply filter_In in Hp as (I & A). unfold house_ok in H. rewrite Forall_forall in H.
  split; [apply H, I|]. unfold aimed in A. apply andb_true_iff in A as (A & _). apply who_eqb_true, A.
Qed.

Theorem one_call gw h c s es s1 r h1 out1 evs : house_ok h -> call_ok c -> program c s = (es, s1, r) ->
  serving gw h [] es h1 out1 evs -> (r = Err TimeoutError -> out1 = []) ->
  out1 = [] /\ does gw h c h1 (yields es) r evs.
Proof.
  intros Hh Hok E S T. pose proof Hok as (Hr & Hw & Hk & o & Ho). pose proof (stands_ok c o Hw Ho) as Oo.
  pose proof (proj1 Hw : placed (call_item c)) as Hp.
  destruct (asks c) eqn:Ac.
  - assert (Nc : ~ changes o) by (inversion Ho; subst; try discriminate Ac; intros []).
    assert (G : exists ans yss, out1 = [] /\
      ((existsb (at_whom gw o) h = false /\ h1 = h /\ evs = [] /\ r = Err ResponseError /\ yields es = []) \/
       (existsb (at_whom gw o) h = true /\ obeys gw h o h1 ans evs /\ r = Ok tt /\
        Forall2 (fun p ys => shows p c ys) (filter (at_whom gw o) h) yss /\ yields es = concat yss))).
    { assert (K : forall Y (f : Y -> str * seen) yss0 ps, Forall2 (fun p ys => shows p c (map f ys)) ps yss0 ->
        Forall2 (fun p ys => shows p c ys) ps (map (map f) yss0)) by (intros Y f yss0 ps F; induction F; constructor; assumption).
      inversion Ho; subst; try discriminate Ac; cbn [call_item call_who] in *.
      - destruct (ask_served gw (fun y : str * bool => (fst y, SLamp (snd y))) (Status LIGHTING (it_where it)) normal light_status_body (light_get_status it) s es s1 r h h1 out1 evs
          (fun p ys => shows p (CAskLight it) (map (fun y : str * bool => (fst y, SLamp (snd y))) ys))) as (-> & [X|(X & ans & yss & O & R1 & F & Y)]); try assumption.
        + cbn [order_frame]. rewrite <- Hk. apply status_streamed; assumption.
        + exact normal_not_ack.
        + eapply Forall_impl; [|apply (aimed_points gw LIGHTING (it_where it) h Hh)]. intros p (P & _). apply light_read, P.
        + exists [], []. split; [reflexivity|]. left. exact X.
        + exists ans, (map (map (fun y : str * bool => (fst y, SLamp (snd y)))) yss). split; [reflexivity|]. right. rewrite <- concat_map. split; [exact X|]. split; [exact O|]. split; [exact R1|]. split; [apply K, F|exact Y].
      - destruct (ask_served gw (fun y : str * Z => (fst y, SLevel (snd y))) (Status LIGHTING (it_where it)) normal dimmer_status_body (dimmer_get_status it) s es s1 r h h1 out1 evs
          (fun p ys => shows p (CAskDimmer it) (map (fun y : str * Z => (fst y, SLevel (snd y))) ys))) as (-> & [X|(X & ans & yss & O & R1 & F & Y)]); try assumption.
        + cbn [order_frame]. rewrite <- Hk. apply status_streamed; assumption.
        + exact normal_not_ack.
        + eapply Forall_impl; [|apply (aimed_points gw LIGHTING (it_where it) h Hh)]. intros p (P & Pw). apply dimmer_read; assumption.
        + exists [], []. split; [reflexivity|]. left. exact X.
        + exists ans, (map (map (fun y : str * Z => (fst y, SLevel (snd y)))) yss). split; [reflexivity|]. right. rewrite <- concat_map. split; [exact X|]. split; [exact O|]. split; [exact R1|]. split; [apply K, F|exact Y].
      - destruct (ask_served gw (fun y : str * str => (fst y, SMove (snd y))) (Status AUTOMATION (it_where it)) normal auto_status_body (auto_get_status it) s es s1 r h h1 out1 evs
          (fun p ys => shows p (CAskAuto it) (map (fun y : str * str => (fst y, SMove (snd y))) ys))) as (-> & [X|(X & ans & yss & O & R1 & F & Y)]); try assumption.
        + cbn [order_frame]. rewrite <- Hk. apply status_streamed; assumption.
        + exact normal_not_ack.
        + eapply Forall_impl; [|apply (aimed_points gw AUTOMATION (it_where it) h Hh)]. intros p (P & Pw). apply auto_read; assumption.
        + exists [], []. split; [reflexivity|]. left. exact X.
        + exists ans, (map (map (fun y : str * str => (fst y, SMove (snd y)))) yss). split; [reflexivity|]. right. rewrite <- concat_map. split; [exact X|]. split; [exact O|]. split; [exact R1|]. split; [apply K, F|exact Y].
      - destruct (ask_served gw (fun y : str * list Z => (fst y, SNumbers (snd y))) (Dimension LIGHTING (it_where it) (req_dim r0)) dimres (ints_body (req_count r0)) (run_req it r0) s es s1 r h h1 out1 evs
          (fun p ys => shows p (CAskNumbers it r0) (map (fun y : str * list Z => (fst y, SNumbers (snd y))) ys))) as (-> & [X|(X & ans & yss & O & R1 & F & Y)]); try assumption.
        + cbn [order_frame]. rewrite <- Hk.
          destruct r0; (apply dimension_streamed; [assumption|assumption|]); apply (digits_wire _ (req_digits _)).
        + exact dimres_not_ack.
        + eapply Forall_impl; [|apply (aimed_points gw LIGHTING (it_where it) h Hh)]. intros p (P & Pw). apply numbers_read; assumption.
        + exists [], []. split; [reflexivity|]. left. exact X.
        + exists ans, (map (map (fun y : str * list Z => (fst y, SNumbers (snd y)))) yss). split; [reflexivity|]. right. rewrite <- concat_map. split; [exact X|]. split; [exact O|]. split; [exact R1|]. split; [apply K, F|exact Y]. }
    destruct G as (ans & yss & -> & [(X & -> & -> & -> & ->)|(X & O & -> & F & ->)]); (split; [reflexivity|]).
    + eapply Do_nobody; eassumption.
    + eapply Do_ask; eassumption.
  - destruct (command_program c o s Hok Ho Ac) as (Hc & A). rewrite E in A.
    destruct (command_served gw o s es s1 r h h1 out1 evs Oo Hc A S T) as (-> & -> & [(X & -> & -> & ->)|(X & ans & O & ->)]); (split; [reflexivity|]).
    + eapply Do_nobody; eassumption.
    + eapply Do_command; eassumption.
Qed.
