(** * Calls over the whole line, and a gateway at its end *)
From Coq Require Import String List NArith ZArith Bool Lia.
From Verif Require Import PyStr Tags Messages Protocol Queue Sender Conc SpecConc SpecSerial SpecHouse Line.
Import ListNotations.
Open Scope list_scope.

(** What the events are for each side. *)
Fixpoint sending (es : list levent) : list sevent :=
  match es with
  | [] => []
  | LCall i _ m k :: r => ESend i m k :: sending r
  | LWake i k :: r => EWake i k :: sending r
  | LCancel i :: r => ECancelSend i :: sending r
  | LDrain k :: r => EDrain k :: sending r
  | LLost :: r => ELost :: sending r
  | _ :: r => sending r
  end.
Fixpoint packets (es : list levent) : list (list N) :=
  match es with [] => [] | LPacket d :: r => d :: packets r | _ :: r => packets r end.
(** All calls, in the order in which they start. *)
Fixpoint started (es : list levent) : list (nat * (pc * list N)) :=
  match es with [] => [] | LCall i p m _ :: r => (i, (p, msg_str m)) :: started r | _ :: r => started r end.

(** A call starts only when no other is in progress, asleep or reading. *)
Definition locked (high low n : nat) (es : list levent) : Prop :=
  forall pre i p m k post l, es = pre ++ LCall i p m k :: post -> lrun high low (linit n) pre = Some l ->
    Forall (eq SIdle) (s_tasks (l_s l)) /\ Forall (eq PIdle) (k_pc (l_c l)).

(** No timeouts, no cancellations, the connection lasts, and every message can
    be encoded. *)
Definition undisturbed (es : list levent) : Prop :=
  Forall (fun e => match e with LTimeout _ | LCancel _ | LLost => False | LCall _ _ m _ => msg_bytes m = Ok (msg_str m) | _ => True end) es.

(** The same with timeouts. *)
Definition calm (es : list levent) : Prop :=
  Forall (fun e => match e with LCancel _ | LLost => False | LCall _ _ m _ => msg_bytes m = Ok (msg_str m) | _ => True end) es.

(** The frames that the transport took between two moments. *)
Definition taken (l l' : lstate) : list (list N) :=
  map (fun x => msg_str (snd (fst x))) (filter (fun x => match snd x with OWritten => true | _ => false end) (skipn (length (s_done (l_s l))) (s_done (l_s l')))).

(** A gateway at the other end.  [inn]: frames the transport took and the
    gateway has not dealt with; [out]: answers on their way.  It deals with frames
    in order, at any time, and its answers arrive in packets cut anywhere between
    frames. *)
Inductive watched (gw : gateway) (high low : nat) : lstate -> house -> list (list N) -> list (list N) -> list levent ->
  lstate -> house -> list (list N) -> list (list N) -> list (list N) -> Prop :=
| Wa_nil l h inn out : watched gw high low l h inn out [] l h inn out []
| Wa_obey l h b inn out h1 ans ev1 es l' h' inn' out' evs : serves gw h b h1 ans ev1 ->
    watched gw high low l h1 inn (out ++ ans) es l' h' inn' out' evs ->
    watched gw high low l h (b :: inn) out es l' h' inn' out' (ev1 ++ evs)
| Wa_step l h inn out e l1 es l' h' inn' out' evs : (forall d, e <> LPacket d) -> lstep high low l e = Some l1 ->
    watched gw high low l1 h (inn ++ taken l l1) out es l' h' inn' out' evs ->
    watched gw high low l h inn out (e :: es) l' h' inn' out' evs
| Wa_packet l h inn fs out l1 es l' h' inn' out' evs : lstep high low l (LPacket (concat fs)) = Some l1 ->
    watched gw high low l1 h inn out es l' h' inn' out' evs ->
    watched gw high low l h inn (fs ++ out) (LPacket (concat fs) :: es) l' h' inn' out' evs.
