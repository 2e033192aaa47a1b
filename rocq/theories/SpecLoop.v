(** * Specification vocabulary for loop() called late and again *)
From Coq Require Import String List NArith ZArith Bool Lia.
From Verif Require Import PyStr Tags Messages SpecMsg Protocol IO Client Items Dispatch SpecDispatch Loop.
Import ListNotations.
Open Scope N_scope.
Open Scope list_scope.

(** The messages of all packets, in order of arrival. *)
Inductive arrived : list lact -> list msg -> Prop :=
| A_nil : arrived [] []
| A_packet xs l data ms : arrived xs l -> packet_messages data = Ok ms -> arrived (xs ++ [Do (Packet data)]) (l ++ ms)
| A_other xs l x : arrived xs l -> (forall data, x <> Do (Packet data)) -> arrived (xs ++ [x]) l.

(** The callbacks registered at the end. *)
Fixpoint callbacks (r : registry) (xs : list lact) : registry :=
  match xs with
  | [] => r
  | Do (Register k c) :: xs => callbacks (fun k' => if evkey_eq k k' then r k' ++ [c] else r k') xs
  | _ :: xs => callbacks r xs
  end.

(** The moments at which a loop gets to the queue: it is called, or it was
    waiting and is resumed. *)
Definition turn (up : bool) (x : lact) : Prop := x = if up then Do Wake else Call.

(** [story r xs up evs q]: after [xs] on an open connection a loop is running
    ([up]) or not, it got to the events [evs], each with the callbacks registered
    at that time, and the messages [q] are unread.  Only a stray event ends a
    loop. *)
Inductive story (r : registry) : list lact -> bool -> list (registry * msg) -> list msg -> Prop :=
| S_begin : story r [] false [] []
| S_packet xs up evs q data ms : story r xs up evs q -> packet_messages data = Ok ms ->
    story r (xs ++ [Do (Packet data)]) up evs (q ++ ms)
| S_register xs up evs q k c : story r xs up evs q -> story r (xs ++ [Do (Register k c)]) up evs q
| S_lookup xs up evs q w whr : story r xs up evs q -> tagtext whr -> story r (xs ++ [Do (Lookup w whr)]) up evs q
| S_nothing xs evs q : story r xs false evs q -> story r (xs ++ [Do Wake]) false evs q
| S_all xs up evs q x : story r xs up evs q -> turn up x -> Forall (fun m => ~ stray m) q ->
    story r (xs ++ [x]) true (evs ++ map (fun m => (callbacks r xs, m)) q) []
| S_stray xs up evs pre m post x : story r xs up evs (pre ++ m :: post) -> turn up x -> Forall (fun m => ~ stray m) pre -> stray m ->
    story r (xs ++ [x]) false (evs ++ map (fun m => (callbacks r xs, m)) (pre ++ [m])) post.

(** The histories that are covered: packets that decode, no loss, no close, and
    loop() is not called while it runs (first argument: whether it runs). *)
Definition calm (x : lact) : Prop :=
  match x with
  | Do (Packet data) => exists ms, packet_messages data = Ok ms
  | Do (Lookup _ whr) => tagtext whr
  | Do Lost | Do Close => False
  | Do (Register _ _) | Do Wake | Call => True
  end.

(** The tasks of one event: none for a stray one. *)
Definition handled (its : items) (ev : registry * msg) (ts : list task) : Prop :=
  (stray (snd ev) /\ ts = []) \/ (~ stray (snd ev) /\ made its (fst ev) (snd ev) ts).
