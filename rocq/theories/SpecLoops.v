(** * Vocabulary for several readers of the events *)
From Coq Require Import String List NArith ZArith Bool Lia.
From Verif Require Import PyStr Tags Messages SpecMsg Protocol Queue IO Client Items Dispatch SpecDispatch Loop SpecLoop Loops.
Import ListNotations.
Open Scope N_scope.
Open Scope list_scope.

(** Who got a message: a loop, with the callbacks registered at that time, or a
    call of read_message. *)
Inductive taking := ByLoop (i : nat) (r : registry) (m : msg) | ByRead (i : nat) (m : msg).
Definition message (t : taking) : msg := match t with ByLoop _ _ m | ByRead _ m => m end.
Definition events (tk : list taking) : list (registry * msg) :=
  concat (map (fun t => match t with ByLoop _ r m => [(r, m)] | ByRead _ _ => [] end) tk).

Fixpoint registry_after (r : registry) (es : list mevent) : registry :=
  match es with
  | [] => r
  | MRegister k c :: es => registry_after (fun k' => if evkey_eq k k' then r k' ++ [c] else r k') es
  | _ :: es => registry_after r es
  end.

(** The task that moves in an event. *)
Definition mover (e : mevent) : option nat := match e with MLoop i | MRead i | MRun i => Some i | _ => None end.

(** The last call that task [i] made: loop() or read_message(). *)
Fixpoint looping (i : nat) (b : bool) (es : list mevent) : bool :=
  match es with
  | [] => b
  | MLoop k :: es => looping i (Nat.eqb k i || b) es
  | MRead k :: es => looping i (negb (Nat.eqb k i) && b) es
  | _ :: es => looping i b es
  end.
Definition taken_by (i : nat) (loop : bool) (r : registry) (t : taking) : Prop := t = if loop then ByLoop i r (message t) else ByRead i (message t).

(** The packets of a history. *)
Definition mpackets (e : mevent) : list (list N) := match e with MPacket d => [d] | _ => [] end.

(** [shared r es tk q]: in the history [es] of an open connection the messages
    were taken as in [tk], in order of arrival, each by one task while it moved, for the call it had made,
    and [q] are unread. *)
Inductive shared (r : registry) : list mevent -> list taking -> list msg -> Prop :=
| H_begin : shared r [] [] []
| H_packet es tk q d ms : shared r es tk q -> packet_messages d = Ok ms -> shared r (es ++ [MPacket d]) tk (q ++ ms)
| H_move es tk q e i tk' q' : shared r es tk q -> mover e = Some i -> q = map message tk' ++ q' ->
    Forall (taken_by i (looping i false (es ++ [e])) (registry_after r es)) tk' -> shared r (es ++ [e]) (tk ++ tk') q'
| H_other es tk q e : shared r es tk q -> mover e = None -> (forall d, e <> MPacket d) -> shared r (es ++ [e]) tk q.

(** Which calls ended, given who took what. *)
Inductive endings : list taking -> list (nat * outcome) -> Prop :=
| X_nil : endings [] []
| X_loop tk o i r m : endings tk o -> ~ stray m -> endings (tk ++ [ByLoop i r m]) o
| X_stray tk o i r m e : endings tk o -> stray m -> endings (tk ++ [ByLoop i r m]) (o ++ [(i, OFailed e)])
| X_read tk o i m : endings tk o -> endings (tk ++ [ByRead i m]) (o ++ [(i, OMessage m)])
| X_cancel tk o i : endings tk o -> endings tk (o ++ [(i, OCancelled)]).

(** Packets decode, lookups are well-formed, the connection stays. *)
Definition steady (e : mevent) : Prop :=
  match e with
  | MPacket d => exists ms, packet_messages d = Ok ms
  | MLookup _ whr => tagtext whr
  | MLost | MClose => False
  | _ => True
  end.

(** The same history for the single loop of Loop.v. *)
Definition erase (e : mevent) : list lact :=
  match e with
  | MLoop _ => [Call]
  | MPacket d => [Do (Packet d)]
  | MRun _ => [Do Wake]
  | MLost => [Do Lost]
  | MClose => [Do Close]
  | MRegister k c => [Do (Register k c)]
  | MLookup w whr => [Do (Lookup w whr)]
  | MRead _ | MCancel _ => []
  end.
Definition only_loop (e : mevent) : Prop := match e with MRead _ | MCancel _ => False | _ => True end.

(** The last outcome, as the status of Dispatch.v. *)
Definition last_status (o : list (nat * outcome)) : status :=
  match last (map Some (map snd o)) None with
  | Some OReturned => Returned
  | Some (OFailed e) => Failed e
  | _ => Idle
  end.

(** How often task [i] was cancelled, and how often it ended for that. *)
Definition cancels (i : nat) (es : list mevent) : nat :=
  length (filter (fun e => match e with MCancel k => Nat.eqb k i | _ => false end) es).
Definition given_up (i : nat) (o : list (nat * outcome)) : nat :=
  length (filter (fun x => match x with (k, OCancelled) => Nat.eqb k i | _ => false end) o).
