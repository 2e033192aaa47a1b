(** * A house behind a gateway

    An abstract gateway that does what docs/original/ (introduction, who1.md,
    who2.md) says about commands, status requests, dimension writings and
    dimension requests.  It deals in frames, as bytes; nothing here mentions the
    programs of the library. *)
From Coq Require Import String List NArith ZArith Bool Lia.
From Verif Require Import PyStr Tags Messages SpecMsg SpecProto SpecItem Items Lighting SpecLight LightThms2.
Import ListNotations.
Open Scope N_scope.
Open Scope list_scope.

(** A point of the installation: its WHO and address, its state (the WHAT it
    reports) and the values of its dimensions. *)
Record point := { p_who : who; p_where : str; p_state : str; p_dims : str -> option (list str) }.
Definition house := list point.

(** What is left open about the gateway: which address stands for which points
    (one, a group, all), what a command makes of a state, and whether the answer
    to a status request is also reported as an event. *)
Record gateway := { covers : str -> str -> bool; react : who -> str -> str -> str; echoes : bool }.

Definition aimed (gw : gateway) (w : who) (a : str) (p : point) : bool :=
  who_eqb (p_who p) w && covers gw a (p_where p).
Definition frame_ack : list N := lit "*#*1##".
Definition frame_nack : list N := lit "*#*0##".
Definition frame_state (p : point) : list N := frame_cmd (p_who p) (p_state p) (p_where p).
Definition frame_dimres (w : who) (a d : str) (vs : list str) : list N := wire ((35 :: who_str w) :: a :: d :: vs).
Definition frame_dim (d : str) (p : point) : list (list N) :=
  match p_dims p d with Some vs => [frame_dimres (p_who p) (p_where p) d vs] | None => [] end.

Definition moved (gw : gateway) (what : str) (p : point) : point :=
  {| p_who := p_who p; p_where := p_where p; p_state := react gw (p_who p) what (p_state p); p_dims := p_dims p |}.
Definition written (d : str) (vs : list str) (p : point) : point :=
  {| p_who := p_who p; p_where := p_where p; p_state := p_state p;
     p_dims := fun d' => if str_eqb d d' then Some vs else p_dims p d' |}.
(** The house after [f] was done to the points aimed at. *)
Definition done_to (gw : gateway) (w : who) (a : str) (f : point -> point) (h : house) : house :=
  map (fun p => if aimed gw w a p then f p else p) h.

(** What a client asks for. *)
Inductive order :=
| Command (w : who) (what a : str) | Writing (w : who) (a d : str) (vs : list str)
| Status (w : who) (a : str) | Dimension (w : who) (a d : str).
Definition order_frame (o : order) : list N :=
  match o with
  | Command w what a => frame_cmd w what a
  | Writing w a d vs => frame_dimwri w a d vs
  | Status w a => frame_status w a
  | Dimension w a d => frame_dimreq w a d
  end.
Definition order_ok (o : order) : Prop :=
  match o with
  | Command _ what a => wiretag what /\ wiretag a
  | Writing _ a d vs => wiretag a /\ digits d /\ Forall wiretag vs /\ vs <> []
  | Status _ a => wiretag a
  | Dimension _ a d => wiretag a /\ digits d
  end.
Definition at_whom (gw : gateway) (o : order) : point -> bool :=
  match o with Command w _ a | Writing w a _ _ | Status w a | Dimension w a _ => aimed gw w a end.

(** [obeys gw h o h' answer events]. *)
Inductive obeys (gw : gateway) (h : house) : order -> house -> list (list N) -> list (list N) -> Prop :=
| Ob_nobody o : existsb (at_whom gw o) h = false -> obeys gw h o h [frame_nack] []
| Ob_command w what a : existsb (aimed gw w a) h = true ->
    let h' := done_to gw w a (moved gw what) h in
    obeys gw h (Command w what a) h' [frame_ack] (map frame_state (filter (aimed gw w a) h'))
| Ob_writing w a d vs : existsb (aimed gw w a) h = true ->
    obeys gw h (Writing w a d vs) (done_to gw w a (written d vs) h) [frame_ack] []
| Ob_status w a : existsb (aimed gw w a) h = true ->
    let fs := map frame_state (filter (aimed gw w a) h) in
    obeys gw h (Status w a) h (fs ++ [frame_ack]) (if echoes gw then fs else [])
| Ob_dimension w a d : existsb (aimed gw w a) h = true ->
    obeys gw h (Dimension w a d) h (concat (map (frame_dim d) (filter (aimed gw w a) h)) ++ [frame_ack]) [].

(** The same for the bytes that arrive at the gateway. *)
Definition serves gw h (b : list N) h' answer events : Prop :=
  exists o, order_ok o /\ b = order_frame o /\ obeys gw h o h' answer events.

(** ** The calls of an application, and what they mean *)

Inductive light_req := RTemporization | RWorkingTime | RBrightness | RHsv | RWhite.
Inductive call :=
| CLight (it : item) (c : light_cmd)
| CAuto (it : item) (c : auto_cmd)
| CTemporization (it : item) (h m s : Z)
| CBrightness (it : item) (level speed : N)
| CHsv (it : item) (h s v : Z)
| CWhite (it : item) (t : Z)
| CAskLight (it : item)
| CAskDimmer (it : item)
| CAskAuto (it : item)
| CAskNumbers (it : item) (r : light_req).

Definition call_item (c : call) : item :=
  match c with
  | CLight it _ | CAuto it _ | CTemporization it _ _ _ | CBrightness it _ _ | CHsv it _ _ _ | CWhite it _
  | CAskLight it | CAskDimmer it | CAskAuto it | CAskNumbers it _ => it
  end.
Definition call_who (c : call) : who := match c with CAuto _ _ | CAskAuto _ => AUTOMATION | _ => LIGHTING end.

(** The dimension that each request asks for, and how many numbers it reports.
    (Two of them are not the documented ones: C67.) *)
Definition req_dim (r : light_req) : str :=
  match r with RTemporization => [50] | RWorkingTime => [51] | RBrightness => [49] | RHsv => [49; 50] | RWhite => [49; 52] end.
Definition req_count (r : light_req) : nat :=
  match r with RTemporization => 3 | RWorkingTime => 1 | RBrightness => 2 | RHsv => 3 | RWhite => 1 end.

(** The order that a call stands for. *)
Inductive stands_for : call -> order -> Prop :=
| F_light it c n : doc_light n = Some (promise c) -> stands_for (CLight it c) (Command LIGHTING (dec n) (it_where it))
| F_auto it c : stands_for (CAuto it c) (Command AUTOMATION (dec (doc_automation c)) (it_where it))
| F_temporization it h m s : (0 <= h < 24)%Z -> (0 <= m < 60)%Z -> (0 <= s < 60)%Z ->
    stands_for (CTemporization it h m s) (Writing LIGHTING (it_where it) [50] [dec (Z.to_N h); dec (Z.to_N m); dec (Z.to_N s)])
| F_brightness it l s : l <= 255 -> s <= 255 -> stands_for (CBrightness it l s) (Writing LIGHTING (it_where it) [49] [dec l; dec s])
| F_hsv it h s v : (0 <= h <= 359)%Z -> (0 <= s <= 100)%Z -> (0 <= v <= 100)%Z ->
    stands_for (CHsv it h s v) (Writing LIGHTING (it_where it) [49; 50] [dec (Z.to_N h); dec (Z.to_N s); dec (Z.to_N v)])
| F_white it t : (1 <= t <= 65534)%Z -> stands_for (CWhite it t) (Writing LIGHTING (it_where it) [49; 51] [dec (Z.to_N t)])
| F_ask_light it : stands_for (CAskLight it) (Status LIGHTING (it_where it))
| F_ask_dimmer it : stands_for (CAskDimmer it) (Status LIGHTING (it_where it))
| F_ask_auto it : stands_for (CAskAuto it) (Status AUTOMATION (it_where it))
| F_ask_numbers it r : stands_for (CAskNumbers it r) (Dimension LIGHTING (it_where it) (req_dim r)).

(** What a call yields about one point. *)
Inductive seen := SLamp (on : bool) | SLevel (percent : Z) | SMove (state : str) | SNumbers (ns : list Z).
Inductive shows (p : point) : call -> list (str * seen) -> Prop :=
| Sh_on it : p_state p = [49] -> shows p (CAskLight it) [(p_where p, SLamp true)]
| Sh_off it : p_state p = [48] -> shows p (CAskLight it) [(p_where p, SLamp false)]
| Sh_other it : p_state p <> [49] -> p_state p <> [48] -> shows p (CAskLight it) []
| Sh_level it n : tagnum (p_state p) n -> shows p (CAskDimmer it) [(p_where p, SLevel (10 * Z.of_N n))]
| Sh_auto it c : p_state p = dec (doc_automation c) -> shows p (CAskAuto it) [(p_where p, SMove (p_state p))]
| Sh_numbers it r vs more ns : p_dims p (req_dim r) = Some (vs ++ more) -> Forall2 valnum vs ns -> length ns = req_count r ->
    shows p (CAskNumbers it r) [(p_where p, SNumbers (map Z.of_N ns))]
| Sh_unknown it r : p_dims p (req_dim r) = None -> shows p (CAskNumbers it r) [].

Definition asks (c : call) : bool :=
  match c with CAskLight _ | CAskDimmer _ | CAskAuto _ | CAskNumbers _ _ => true | _ => false end.

(** What a call does to the house, what it yields and how it ends: every point
    that is aimed at is reported, in the order of the house. *)
Inductive does (gw : gateway) (h : house) (c : call) : house -> list (str * seen) -> res unit -> list (list N) -> Prop :=
| Do_nobody o : stands_for c o -> existsb (at_whom gw o) h = false -> does gw h c h [] (Err ResponseError) []
| Do_command o h' answer evs : stands_for c o -> asks c = false -> existsb (at_whom gw o) h = true ->
    obeys gw h o h' answer evs -> does gw h c h' [] (Ok tt) evs
| Do_ask o h' answer evs yss : stands_for c o -> asks c = true -> existsb (at_whom gw o) h = true ->
    obeys gw h o h' answer evs -> Forall2 (fun p ys => shows p c ys) (filter (at_whom gw o) h) yss ->
    does gw h c h' (concat yss) (Ok tt) evs.

(** A sequence of calls: what each yields and returns, the events, the house
    afterwards. *)
Inductive story (gw : gateway) : house -> list call -> list (list (str * seen) * res unit) -> list (list N) -> house -> Prop :=
| Story_nil h : story gw h [] [] [] h
| Story_cons h c cs h1 obs r evs log evs' h' : does gw h c h1 obs r evs -> story gw h1 cs log evs' h' ->
    story gw h (c :: cs) ((obs, r) :: log) (evs ++ evs') h'.

(** ** Houses whose reports can be read *)

(** The number of values of each dimension of a light. *)
Definition enough (d : str) : nat :=
  if str_eqb d [49] then 2 else if str_eqb d [50] || str_eqb d [49; 50] then 3 else 1.
Definition point_ok (p : point) : Prop :=
  wiretag (p_where p) /\ ~ ends_hash (p_where p) /\ wiretag (p_state p) /\
  (p_who p = LIGHTING -> (exists n, tagnum (p_state p) n) /\
    forall d vs, p_dims p d = Some vs -> Forall wiretag vs /\
      exists vs1 more ns, vs = vs1 ++ more /\ Forall2 valnum vs1 ns /\ length ns = enough d) /\
  (p_who p = AUTOMATION -> exists c, p_state p = dec (doc_automation c)).
(** Commands lead to states that can be read. *)
Definition gateway_ok (gw : gateway) : Prop :=
  (forall n st k, doc_light n <> None -> wiretag st -> tagnum st k ->
     wiretag (react gw LIGHTING (dec n) st) /\ exists m, tagnum (react gw LIGHTING (dec n) st) m) /\
  (forall c c', exists c'', react gw AUTOMATION (dec (doc_automation c)) (dec (doc_automation c')) = dec (doc_automation c'')).

(** ** The history of one point *)

Definition effect_of (gw : gateway) (o : order) (p : point) : point :=
  match o with Command _ what _ => moved gw what p | Writing _ _ d vs => written d vs p | _ => p end.
Definition step (gw : gateway) (p : point) (o : order) : point := if at_whom gw o p then effect_of gw o p else p.
(** What a point has become after these orders. *)
Definition life (gw : gateway) (os : list order) (p : point) : point := fold_left (step gw) os p.
Definition sets (o : order) : bool := match o with Command _ _ _ | Writing _ _ _ _ => true | _ => false end.

(** [tells gw c ask v]: what [c] sets is what [ask] reports, as [v], provided the
    command puts the point into the state of the same number. *)
Inductive tells (gw : gateway) : call -> call -> seen -> Prop :=
| T_on it it' : (forall st, react gw LIGHTING [49] st = [49]) -> tells gw (CLight it (LBase turn_on)) (CAskLight it') (SLamp true)
| T_off it it' : (forall st, react gw LIGHTING [48] st = [48]) -> tells gw (CLight it (LBase turn_off)) (CAskLight it') (SLamp false)
| T_level it it' c n percent : promise c = Level percent -> doc_light n = Some (Level percent) ->
    (forall st, react gw LIGHTING (dec n) st = dec n) -> tells gw (CLight it c) (CAskDimmer it') (SLevel (Z.of_N percent))
| T_auto it it' c : (forall st, react gw AUTOMATION (dec (doc_automation c)) st = dec (doc_automation c)) ->
    tells gw (CAuto it c) (CAskAuto it') (SMove (dec (doc_automation c)))
| T_temporization it it' h m s : tells gw (CTemporization it h m s) (CAskNumbers it' RTemporization) (SNumbers [h; m; s])
| T_brightness it it' l s : tells gw (CBrightness it l s) (CAskNumbers it' RBrightness) (SNumbers [Z.of_N l; Z.of_N s])
| T_hsv it it' h s v : tells gw (CHsv it h s v) (CAskNumbers it' RHsv) (SNumbers [h; s; v]).
