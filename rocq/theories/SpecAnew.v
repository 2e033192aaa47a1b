(** * What the loops of a client owe to its connections *)
From Coq Require Import String List NArith ZArith Bool Lia.
From Verif Require Import PyStr Tags Messages Protocol Queue IO Client Items Dispatch Loops Anew.
Import ListNotations.
Open Scope N_scope.
Open Scope list_scope.

(** How often the client was started, and the connection it has: that of the last
    start() after which there was no close(). *)
Fixpoint starts (es : list aevent) : nat := match es with [] => 0 | AStart :: es => S (starts es) | _ :: es => starts es end.
Inductive holds : list aevent -> option nat -> Prop :=
| Ho_nil : holds [] None
| Ho_start es : holds (es ++ [AStart]) (Some (starts es))
| Ho_close es : holds (es ++ [AClose]) None
| Ho_other es e o : holds es o -> e <> AStart -> e <> AClose -> holds (es ++ [e]) o.

(** [delivered k es ms l]: on connection [k] the messages [ms] arrived, and it is not
    yet there, up or down. *)
Inductive line := NotYet | Up | Down.
Definition elsewhere (k : nat) (e : aevent) : Prop :=
  match e with AStart | AClose => False | APacket k' _ | ADrop k' => k' <> k | _ => True end.
Inductive delivered (k : nat) : list aevent -> list msg -> line -> Prop :=
| V_nil : delivered k [] [] NotYet
| V_start es ms l : delivered k es ms l -> delivered k (es ++ [AStart]) ms (if Nat.eqb (starts es) k then Up else l)
| V_packet es ms d new : delivered k es ms Up -> packet_messages d = Ok new -> delivered k (es ++ [APacket k d]) (ms ++ new) Up
| V_bad es ms d e : delivered k es ms Up -> packet_messages d = Err e -> delivered k (es ++ [APacket k d]) ms Down
| V_late es ms d : delivered k es ms Down -> delivered k (es ++ [APacket k d]) ms Down
| V_drop es ms l : delivered k es ms l -> delivered k (es ++ [ADrop k]) ms Down
| V_closed es ms l : delivered k es ms l -> holds es (Some k) -> delivered k (es ++ [AClose]) ms Down
| V_close es ms l o : delivered k es ms l -> holds es o -> o <> Some k -> delivered k (es ++ [AClose]) ms l
| V_other es ms l e : delivered k es ms l -> elsewhere k e -> delivered k (es ++ [e]) ms l.

(** The callbacks registered at the end. *)
Fixpoint regs (r : registry) (es : list aevent) : registry :=
  match es with [] => r | ARegister key c :: es => regs (register r key c) es | _ :: es => regs r es end.

(** What was taken from connection [k]; what is unread there. *)
Definition from (k : nat) (tk : list (nat * nat * (registry * msg))) : list msg :=
  map (fun t => snd (snd t)) (filter (fun t => Nat.eqb (fst (fst t)) k) tk).
Definition unread (s : again) (k : nat) : list msg := match nth_error (a_qs s) k with Some q => c_queue (q_conn q) | None => [] end.

(** Task [i] is in loop(), waiting on connection [k]. *)
Definition waits_at (s : again) (i k : nat) : Prop := nth_error (a_at s) i = Some (Some k).
(** Nothing is scheduled. *)
Definition calm (v : N) (s : again) : Prop := forall i, astep v s (ARun i) = None.
