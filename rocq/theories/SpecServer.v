(** * Any gateway at the end of the line *)
From Coq Require Import String List NArith ZArith Bool Lia.
From Verif Require Import PyStr Tags Messages SpecProto Protocol Queue IO Sender Conc SpecSerial SpecItem SpecHouse Line SpecLine SpecTogether Energy SpecMeter.
Import ListNotations.
Open Scope list_scope.

Section server.
(** Anything that deals with one frame at a time: [replies s b s1 ans], dealing
    with [b] in the state [s] may lead to [s1] and send the frames [ans]. *)
Variable State : Type.
Variable replies : State -> list N -> State -> list (list N) -> Prop.

(** It stands at the other end of the line: [inn] are the frames that the
    transport took and that were not dealt with, [out] the frames on their way
    back.  It deals with frames in order, whenever it likes, and what it sends
    arrives in packets cut anywhere between frames. *)
Inductive attended (high low : nat) : lstate -> State -> list (list N) -> list (list N) -> list levent ->
  lstate -> State -> list (list N) -> list (list N) -> Prop :=
| At_nil l s inn out : attended high low l s inn out [] l s inn out
| At_reply l s b inn out s1 ans es l' s' inn' out' : replies s b s1 ans ->
    attended high low l s1 inn (out ++ ans) es l' s' inn' out' ->
    attended high low l s (b :: inn) out es l' s' inn' out'
| At_step l s inn out e l1 es l' s' inn' out' : (forall d, e <> LPacket d) -> lstep high low l e = Some l1 ->
    attended high low l1 s (inn ++ taken l l1) out es l' s' inn' out' ->
    attended high low l s inn out (e :: es) l' s' inn' out'
| At_packet l s inn fs out l1 es l' s' inn' out' : lstep high low l (LPacket (concat fs)) = Some l1 ->
    attended high low l1 s inn out es l' s' inn' out' ->
    attended high low l s inn (fs ++ out) (LPacket (concat fs) :: es) l' s' inn' out'.

(** The calls dealt with one after the other, nothing else happening; each with
    the messages it is answered with, and how an exchange ends that reads them. *)
Inductive serially : State -> list (nat * (pc * list N)) -> list (list msg * res unit) -> State -> Prop :=
| Se_nil s : serially s [] [] s
| Se_cons s i p b s1 ms r ks log s' : replies s b s1 (map msg_str ms) -> Forall streamable ms -> whole_answer p ms r ->
    serially s1 ks log s' -> serially s ((i, (p, b)) :: ks) ((ms, r) :: log) s'.

(** As long as [good] holds of its state, a call of this kind gets a whole answer
    in frames that can be told apart, and [good] holds of the state after it. *)
Definition civil (good : State -> Prop) (kind : pc -> list N -> Prop) : Prop :=
  forall s p b s1 ans, good s -> kind p b -> replies s b s1 ans ->
    good s1 /\ exists ms r, ans = map msg_str ms /\ Forall streamable ms /\ whole_answer p ms r.
End server.

(** The messages of the [k] calls that have ended, each with the task that read it. *)
Definition heard_by (x : nat * list msg) : list (nat * msg) := map (pair (fst x)) (snd x).

(** ** Clock and meters *)

(** How the client waits for the answer. *)
Inductive gwaits : gcall -> pc -> Prop :=
| GW_call c p : waits c p -> gwaits (GCall c) p
| GW_date it d : gwaits (GSetDate it d) PCommand
| GW_time it h m s us : gwaits (GSetTime it h m s us) PCommand
| GW_energy it c : gwaits (GEnergy it c) PCommand
| GW_ask it q keep : (forall m, keep m = true <-> dimres m) -> gwaits (GAsk it q) (PRequest keep).

(** The calls of the tasks, as events, are these. *)
Definition gmade (ks : list (nat * (pc * list N))) (gs : list gcall) : Prop :=
  Forall2 (fun k g => exists o, gstands g o /\ gwaits g (fst (snd k)) /\ snd (snd k) = order_frame o) ks gs.

(** How an exchange ends: well exactly when the last message is an ACK. *)
Definition verdict (ms : list msg) : res unit := match last ms MNack with MAck => Ok tt | _ => Err ResponseError end.
