(** * What is expected of callbacks that send commands *)
From Coq Require Import String List NArith ZArith Bool Lia.
From Verif Require Import PyStr Tags Messages SpecMsg Items Lighting SpecItem SpecLight LightThms2 Dispatch SpecDispatch SpecHouse SpecNotice SpecMirror Reflex.
Import ListNotations.
Open Scope N_scope.
Open Scope list_scope.

(** The calls of the callbacks and the calls of others, in the order in which
    they were done. *)
Definition of_callbacks (l : list (option nat * call)) : list call :=
  concat (map (fun x => match fst x with Some _ => [snd x] | None => [] end) l).
Definition of_others (l : list (option nat * call)) : list call :=
  concat (map (fun x => match fst x with None => [snd x] | Some _ => [] end) l).
Definition pressed (ls : list label) : list call := concat (map (fun l => match l with Pressed c => [c] | _ => [] end) ls).

(** Nothing is left to be done: no event on its way or unread, no task ready, no
    task inside or in front of the lock. *)
Definition at_rest (v : N) (r : registry) (w : world) : Prop :=
  w_wire w = [] /\ st_queue (listener v r (w_acts w)) = [] /\ w_ready w = [] /\ w_inside w = Nobody /\ w_waiters w = [].

Definition sum {A} (f : A -> nat) (l : list A) : nat := list_sum (map f l).

(** A callback that makes one lamp follow another: the lamp at [a] goes on, [it]
    is switched on; it goes off, [it] is switched off. *)
Definition follow (a : str) (it : item) : reflex := fun _ k args =>
  match k with
  | (LIGHTING, a') => if str_eqb a a' then match args with
                      | [VBool true] => [CLight it (LBase turn_on)]
                      | [VBool false] => [CLight it (LBase turn_off)]
                      | _ => []
                      end else []
  | _ => []
  end.

(** A command that is heard by somebody in the house. *)
Definition reaches (gw : gateway) (h : house) (c : call) : Prop :=
  forall o, stands_for c o -> exists w what a, o = Command w what a /\ existsb (aimed gw w a) h = true.

(** Weights that get less along every chain of events and answers: a call counts
    more than all the events it causes, an event at least as much as the calls
    that the callbacks answer it with. *)
Definition weighs_calls (gw : gateway) (h : house) (wt : who * str -> nat) (wc : call -> nat) : Prop :=
  forall h1 c h' obs res ps, Forall point_ok h1 -> map place h1 = map place h -> does gw h1 c h' obs res (map frame_state ps) -> Forall point_ok ps ->
    (1 + sum (fun p => wt (place p)) ps <= wc c)%nat.
Definition weighs_events (r : registry) (body : reflex) (wt : who * str -> nat) (wc : call -> nat) : Prop :=
  forall its p ts, point_ok p -> noticed its r (frame_state p) ts -> (sum wc (concat (map (answer body its) ts)) <= wt (place p))%nat.

(** Whatever is done next, and as long as only [Act] steps are made, one comes to
    a state with [P]. *)
Inductive surely (gw : gateway) (v : N) (r : registry) (body : reflex) (P : world -> Prop) (w : world) : Prop :=
| Now : P w -> surely gw v r body P w
| Later : (exists w', wstep gw v r body w Act w') -> (forall w', wstep gw v r body w Act w' -> surely gw v r body P w') -> surely gw v r body P w.
