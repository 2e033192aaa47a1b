(** * Tasks that share one client, in front of a house

    The events of Conc.v seen from the gateway: it obeys the order of every call
    as it arrives and its answers reach the client in order, in any packets made
    of whole frames. *)
From Coq Require Import String List NArith ZArith Bool Lia.
From Verif Require Import PyStr Tags Messages SpecMsg SpecProto SpecItem Protocol Queue IO Items Conc SpecConc SpecSerial SpecHouse.
Import ListNotations.
Open Scope N_scope.
Open Scope list_scope.

(** [exchange gw h out es h' out' evs]: [out] are the frames on their way. *)
Inductive exchange (gw : gateway) : house -> list (list N) -> list kevent -> house -> list (list N) -> list (list N) -> Prop :=
| X_nil h out : exchange gw h out [] h out []
| X_call h out i p b h1 ans ev1 es h' out' evs : serves gw h b h1 ans ev1 -> exchange gw h1 (out ++ ans) es h' out' evs ->
    exchange gw h out (KCall i p b :: es) h' out' (ev1 ++ evs)
| X_packet h fs out es h' out' evs : exchange gw h out es h' out' evs ->
    exchange gw h (fs ++ out) (KPacket (concat fs) :: es) h' out' evs
| X_run h out i es h' out' evs : exchange gw h out es h' out' evs -> exchange gw h out (KRun i :: es) h' out' evs.

(** How the client waits for the answer to a call: one message; or messages of
    the kind that was asked for, until another one. *)
Inductive waits : call -> pc -> Prop :=
| W_command c : asks c = false -> waits c PCommand
| W_status c keep : asks c = true -> (forall it r, c <> CAskNumbers it r) -> (forall m, keep m = true <-> normal m) -> waits c (PRequest keep)
| W_numbers it r keep : (forall m, keep m = true <-> dimres m) -> waits (CAskNumbers it r) (PRequest keep).

(** The calls of the tasks, as events, are these. *)
Definition made (ks : list (nat * (pc * list N))) (cs : list call) : Prop :=
  Forall2 (fun k c => exists o, stands_for c o /\ waits c (fst (snd k)) /\ snd (snd k) = order_frame o) ks cs.

(** Values that can be told apart from the terminator of a frame in a stream. *)
Definition plain (h : house) : Prop := Forall (fun p => forall d vs, p_dims p d = Some vs -> Forall (fun v => ~ ends_hash v) vs) h.
