(** * What the example programs are supposed to do

    Plans in terms of the calls of SpecHouse.v and SpecMeter.v, and of documented
    frames; conversations as scripts.  Nothing here mentions the programs of
    Examples.v (only its type of lines). *)
From Coq Require Import String List NArith ZArith Bool Lia.
From Verif Require Import PyStr PyDate PyFloat Tags Messages SpecMsg SpecTag SpecItem IO Client Items Lighting SpecLight SpecGateway Energy Dispatch SpecHouse SpecMeter.
From Verif Require Log.
From Verif Require Import Examples.
Import ListNotations.
Open Scope N_scope.
Open Scope list_scope.

(** ** Plans for a house *)

(** A call, what is shown for each thing it yields, and what is shown for its
    answer. *)
Record act := { a_call : gcall; a_each : str * seen -> shown; a_after : answer -> list shown -> Prop }.
Definition plain (c : call) : act := {| a_call := GCall c; a_each := fun _ => Printed [] None; a_after := fun _ ls => ls = [] |}.
Definition item_at (c : client) (w : who) (a : string) : item := {| it_client := c; it_who := w; it_where := lit a |}.

(** [performs gw h plan lines r evs h']: the calls one after the other, up to the
    first that fails. *)
Inductive performs (gw : gateway) : house -> list act -> list shown -> res unit -> list (list N) -> house -> Prop :=
| Pf_nil h : performs gw h [] [] (Ok tt) [] h
| Pf_call h a plan h1 obs x evs ls lines r evs' h' : gdoes gw h (a_call a) h1 obs (Ok x) evs -> a_after a x ls ->
    performs gw h1 plan lines r evs' h' ->
    performs gw h (a :: plan) (map (a_each a) obs ++ ls ++ lines) r (evs ++ evs') h'
| Pf_fail h a plan h1 obs e evs : gdoes gw h (a_call a) h1 obs (Err e) evs ->
    performs gw h (a :: plan) (map (a_each a) obs) (Err e) evs h1.

(** "Light 32 status: ON" *)
Definition lamp_text (a : str) (on : bool) : str := lit "Light " ++ a ++ lit " status: " ++ lit (if on then "ON" else "OFF").
Definition lamp_shown (y : str * seen) : shown :=
  Printed match snd y with SLamp on => lamp_text (fst y) on | _ => [] end None.
Definition light_plan (c : client) : list act :=
  let it := item_at c LIGHTING "32" in
  [plain (CLight it (LBase turn_on_1_min)); {| a_call := GCall (CAskLight it); a_each := lamp_shown; a_after := fun _ ls => ls = [] |}].

Definition automation_plan (c : client) : list act :=
  let it := item_at c AUTOMATION "15" in map (fun m => plain (CAuto it m)) [up; stop; down; stop].

Definition asking (it : item) (q : query) (f : answer -> list shown -> Prop) : act :=
  {| a_call := GAsk it q; a_each := fun _ => Printed [] None; a_after := f |}.
Inductive power_shown : answer -> list shown -> Prop :=
| PS f : power_shown (AFloat f) [Logged Log.INFO (lit "Active power: ") (Some (VFloat f))].
Definition energy_plan (c : client) : list act := [asking (item_at c ENERGY_MANAGEMENT "51") QPower power_shown].

(** The names of the models. *)
Definition models : list (string * string) :=
  [("0", "GENERIC"); ("2", "MHServer"); ("4", "MH200"); ("6", "F452"); ("7", "F452V"); ("11", "MHServer2");
   ("12", "H4684"); ("23", "HL4684"); ("200", "MH202")]%string.
Inductive own_shown : answer -> list shown -> Prop :=
| OS_ip n : own_shown (AIp n) [Printed [] (Some (VAddr n))]
| OS_datetime d t : own_shown (ADatetime d t) [Printed [] (Some (VDateTime (d, t)))]
| OS_text t : own_shown (AText t) [Printed t None].
Inductive model_shown : answer -> list shown -> Prop :=
| MS v n : In (v, n) models -> model_shown (AText (lit v)) [Printed (lit n) None].
Definition gateway_plan (c : client) : list act :=
  let it := item_at c GATEWAY "" in
  [asking it QIp own_shown; asking it QModel model_shown; asking it QDatetime own_shown; asking it QKernel own_shown].

(** The four examples that this covers. *)
Inductive house_example := ExLight | ExAutomation | ExEnergy | ExGateway.
Definition plan_of (x : house_example) : client -> list act :=
  match x with ExLight => light_plan | ExAutomation => automation_plan | ExEnergy => energy_plan | ExGateway => gateway_plan end.

(** ** Conversations *)

(** Lines and frames that wait for an ACK, in turn. *)
Inductive step := Say (x : shown) | Order (b : list N).
Inductive carried : list step -> script -> list (ev shown) * script * res unit -> Prop :=
| Ca_nil s : carried [] s ([], s, Ok tt)
| Ca_say x l s es s' r : carried l s (es, s', r) -> carried (Say x :: l) s (Yielded x :: es, s', r)
| Ca_ack b l s es s' r : carried l s (es, s', r) -> carried (Order b :: l) (Some MAck :: s) (Sent b :: Got MAck :: es, s', r)
| Ca_other b l m s : m <> MAck -> carried (Order b :: l) (Some m :: s) ([Sent b; Got m], s, Err ResponseError)
| Ca_silent b l s : carried (Order b :: l) (None :: s) ([Sent b], s, Err TimeoutError)
| Ca_dry b l : carried (Order b :: l) [] ([Sent b], [], Err TimeoutError).

Definition says_line (t : string) : step := Say (Printed (lit t) None).
Definition newline_line (t : string) : step := Say (Printed (10 :: lit t) None).
(** The camera example: the frames of C48 and C50. *)
Definition camera_plan (host : str) : list step :=
  [says_line "Activating camera..."; Order (lit "*7*0*4000##"); says_line "Camera activated!";
   Say (Printed (lit "Video stream available at: http://" ++ host ++ lit "/telecamera.php") None);
   newline_line "Adjusting camera settings..."; Order (lit "*7*120##"); Order (lit "*7*150##"); Order (lit "*7*160##");
   newline_line "Displaying dial 1-1..."; Order (lit "*7*311##");
   newline_line "Freeing video resources..."; Order (lit "*7*9##")].

Definition error_line (t : string) : shown := Logged Log.ERROR (lit t) None.
Definition info_line (t : str) : shown := Logged Log.INFO t None.

(** custom_message_01: what is read, what is shown, what is left unread, how it
    ends. *)
Inductive ip_asked : script -> list msg -> list shown -> script -> res unit -> Prop :=
| Ia_silent s s' : s = None :: s' \/ (s = [] /\ s' = []) ->
    ip_asked s [] [error_line "Timeout while waiting for response"; error_line "The server did not acknowledge the message"] s' (Ok tt)
| Ia_nack s : ip_asked (Some MNack :: s) [MNack] [error_line "The server did not acknowledge the message"] s (Ok tt)
| Ia_one m s s' : m <> MNack -> s = None :: s' \/ (s = [] /\ s' = []) ->
    ip_asked (Some m :: s) [m] [error_line "Timeout while waiting for response"; error_line "The server did not acknowledge the message"] s' (Ok tt)
| Ia_other m m' s : m <> MNack -> m' <> MAck ->
    ip_asked (Some m :: Some m' :: s) [m; m'] [error_line "The server did not acknowledge the message"] s (Ok tt)
| Ia_short m s : m <> MNack -> (length (msg_tags m) < 4)%nat ->
    ip_asked (Some m :: Some MAck :: s) [m; MAck] [info_line (lit "The server acknowledged the message")] s (Err IndexError)
| Ia_four m front a b c d s : m <> MNack -> msg_tags m = front ++ [a; b; c; d] ->
    ip_asked (Some m :: Some MAck :: s) [m; MAck]
      [info_line (lit "The server acknowledged the message");
       Printed (lit "The ip address of the server is " ++ a ++ lit "." ++ b ++ lit "." ++ c ++ lit "." ++ d) None] s (Ok tt).

(** The dimension is a tag followed by these parameters. *)
Definition has_params (d : str) (ps : list str) : Prop :=
  exists tag, d = with_params tag ps /\ ~ In 35 tag /\ Forall (fun p => ~ In 35 p) ps.
(** A list of texts as Python prints it. *)
Fixpoint quoted_rest (l : list str) : str := match l with [] => lit "]" | x :: r => lit ", '" ++ x ++ lit "'" ++ quoted_rest r end.
Definition quoted (l : list str) : str := match l with [] => lit "[]" | x :: r => lit "['" ++ x ++ lit "'" ++ quoted_rest r end.

(** custom_message_02: what is shown for a message other than an ACK, and
    whether the program goes on. *)
Inductive reading : msg -> list shown -> res unit -> Prop :=
| Rd_nack : reading MNack [error_line "Received NACK"] (Ok tt)
| Rd_full w a d month day ps t v vs : has_params d (month :: day :: ps) ->
    reading (MDimRes w a d (t :: v :: vs))
      [info_line (lit "Received response: " ++ wire ((35 :: who_str w) :: a :: d :: t :: v :: vs)); Printed (quoted (month :: day :: ps)) None;
       info_line (lit "Month: " ++ month ++ lit ", Day: " ++ day ++ lit ", Number of the measure: " ++ t ++ lit ", Value: " ++ v)] (Ok tt)
| Rd_short w a d ps vs : has_params d ps -> (length ps < 2 \/ length vs < 2)%nat ->
    reading (MDimRes w a d vs)
      [info_line (lit "Received response: " ++ wire ((35 :: who_str w) :: a :: d :: match vs with [] => [[]] | _ => vs end)); Printed (quoted ps) None]
      (Err IndexError)
| Rd_else m : m <> MAck -> m <> MNack -> ~ dimres m -> reading m [] (Ok tt).

Inductive readings : script -> list msg -> list shown -> script -> res unit -> Prop :=
| Rs_ack s : readings (Some MAck :: s) [MAck] [] s (Ok tt)
| Rs_silent s s' : s = None :: s' \/ (s = [] /\ s' = []) -> readings s [] [error_line "Timeout"] s' (Ok tt)
| Rs_fail m s ls e : reading m ls (Err e) -> readings (Some m :: s) [m] ls s (Err e)
| Rs_next m s ls ms lines s' r : reading m ls (Ok tt) -> readings s ms lines s' r ->
    readings (Some m :: s) (m :: ms) (ls ++ lines) s' r.

(** ** What the plans amount to *)

(** The line for one lamp, if it is on or off. *)
Definition lamp_lines (p : point) : list shown :=
  if str_eqb (p_state p) (lit "1") then [Printed (lamp_text (p_where p) true) None]
  else if str_eqb (p_state p) (lit "0") then [Printed (lamp_text (p_where p) false) None] else [].
(** The reports of the points at an address. *)
Definition reports (gw : gateway) (w : who) (a : str) (h : house) : list (list N) := map frame_state (filter (aimed gw w a) h).
(** The house after these commands. *)
Definition commanded (gw : gateway) (w : who) (a : str) (whats : list string) (h : house) : house :=
  fold_left (fun h what => done_to gw w a (moved gw (lit what)) h) whats h.
(** The first answer to a question. *)
Definition first_answer (gw : gateway) (h : house) (w : who) (a : str) (q : query) (x : answer) : Prop :=
  exists h1 p h2 vs, h = h1 ++ p :: h2 /\ (forall p', In p' h1 -> aimed gw w a p' = true -> p_dims p' (q_dim q) = None) /\
    aimed gw w a p = true /\ p_dims p (q_dim q) = Some vs /\ says q vs x.
Definition no_answer (gw : gateway) (h : house) (w : who) (a : str) (q : query) : Prop :=
  forall p, In p h -> aimed gw w a p = true -> p_dims p (q_dim q) = None.
