(** * Coroutines against a gateway

    A coroutine of the library that is run by one task is a function from the
    messages still to come to the events it causes, the messages it leaves and
    its result.  Theorems quantify over every script, which covers a gateway
    that reacts to what it is sent: whatever it does, the messages it delivers
    form some script. *)
From Coq Require Import String List NArith ZArith Bool Lia.
From Verif Require Import PyStr Tags Messages.
Import ListNotations.
Open Scope N_scope.
Open Scope list_scope.

(** What the next read finds: a message, or nothing before its timeout. *)
Definition script := list (option msg).

(** What can be observed: bytes written, a message taken from the queue, a
    value yielded by an async generator. *)
Inductive ev (Y : Type) :=
| Sent (b : list N)
| Got (m : msg)
| Yielded (y : Y).
Arguments Sent {Y} b.
Arguments Got {Y} m.
Arguments Yielded {Y} y.

Definition io (Y A : Type) := script -> list (ev Y) * script * res A.

Definition ret {Y A} (a : A) : io Y A := fun s => ([], s, Ok a).
Definition raise {Y A} (e : exn) : io Y A := fun s => ([], s, Err e).
Definition lift {Y A} (r : res A) : io Y A := fun s => ([], s, r).

Definition andthen {Y A B} (x : io Y A) (f : A -> io Y B) : io Y B :=
  fun s =>
    match x s with
    | (es, s', Ok a) => match f a s' with (es', s'', r) => (es ++ es', s'', r) end
    | (es, s', Err e) => (es, s', Err e)
    end.
Notation "'let*' x := a 'in' b" := (andthen a (fun x => b))
  (at level 200, x name, a at level 100, b at level 200).

Definition yield {Y} (y : Y) : io Y unit := fun s => ([Yielded y], s, Ok tt).

(** Bytes handed to the transport.  Waiting for the transport (the paused
    state) is modelled in Sender.v; here the write happens. *)
Definition put {Y} (b : list N) : io Y unit := fun s => ([Sent b], s, Ok tt).

(** One read from the queue under a timeout.  An exhausted script is a gateway
    that stays silent. *)
Definition take {Y} : io Y msg :=
  fun s =>
    match s with
    | Some m :: s' => ([Got m], s', Ok m)
    | None :: s' => ([], s', Err TimeoutError)
    | [] => ([], [], Err TimeoutError)
    end.

(** An async generator is modelled as a function of the body of the loop that
    consumes it ([async for y in g: body]), with [yield y] replaced by
    [body y]: the generators of the library have no try/finally around their
    yields, so a consumer that stops early simply leaves the rest of the
    script unread.  The generator seen from outside is the instance
    [body := yield]. *)

(** The parts of an outcome. *)
Definition evs_of {Y A} (x : list (ev Y) * script * res A) : list (ev Y) := fst (fst x).
Definition rest_of {Y A} (x : list (ev Y) * script * res A) : script := snd (fst x).
Definition res_of {Y A} (x : list (ev Y) * script * res A) : res A := snd x.

(** The bytes written, the messages read, the values yielded. *)
Fixpoint sents {Y} (l : list (ev Y)) : list (list N) :=
  match l with [] => [] | Sent b :: r => b :: sents r | _ :: r => sents r end.
Fixpoint gots {Y} (l : list (ev Y)) : list msg :=
  match l with [] => [] | Got m :: r => m :: gots r | _ :: r => gots r end.
Fixpoint yields {Y} (l : list (ev Y)) : list Y :=
  match l with [] => [] | Yielded y :: r => y :: yields r | _ :: r => yields r end.

Lemma sents_app {Y} (a b : list (ev Y)) : sents (a ++ b) = sents a ++ sents b.
Proof. induction a as [|[] a IH]; cbn; congruence. Qed.
Lemma gots_app {Y} (a b : list (ev Y)) : gots (a ++ b) = gots a ++ gots b.
Proof. induction a as [|[] a IH]; cbn; congruence. Qed.
Lemma yields_app {Y} (a b : list (ev Y)) : yields (a ++ b) = yields a ++ yields b.
Proof. induction a as [|[] a IH]; cbn; congruence. Qed.
