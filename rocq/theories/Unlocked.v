(** * Callbacks that send commands without a lock

    The application of [Reflex], but every callback has a command client of its
    own and uses no lock: any callback
    that has been started may make its next call at any moment.  The event client
    is the one of [Dispatch] (client.py:105-143), the tasks are those of
    items/base.py:84-85 [_create_tasks].

    Simplifications: those of [Reflex]; a task that has been made may make its
    first call at once (its connection is there already). *)
From Coq Require Import String List NArith ZArith Bool Lia.
From Verif Require Import PyStr Tags Messages SpecMsg Items Dispatch SpecDispatch SpecTag SpecHouse Reflex.
Import ListNotations.
Open Scope N_scope.
Open Scope list_scope.

(** As [world]; [u_todo]: the calls that the n-th task has still to make. *)
Record uworld := {
  u_house : house; u_wire : list (list N); u_acts : list act; u_todo : list (list call);
  u_by : list (option nat * call); u_evs : list (list N) }.

Fixpoint put_at (n : nat) (cs : list call) (l : list (list call)) : list (list call) :=
  match l, n with
  | [], _ => []
  | _ :: l, O => cs :: l
  | x :: l, S n => x :: put_at n cs l
  end.

Definition u_told (u : uworld) (wire : list (list N)) (acts : list act) (todo : list (list call)) : uworld :=
  {| u_house := u_house u; u_wire := wire; u_acts := acts; u_todo := todo; u_by := u_by u; u_evs := u_evs u |}.
Definition u_call (u : uworld) (h : house) (evs : list (list N)) (by_ : option nat) (c : call) (todo : list (list call)) : uworld :=
  {| u_house := h; u_wire := u_wire u ++ evs; u_acts := u_acts u; u_todo := todo; u_by := u_by u ++ [(by_, c)]; u_evs := u_evs u ++ evs |}.

(** The calls of the tasks made by a run of the loop. *)
Definition made_todo (v : N) (r : registry) (body : reflex) (acts : list act) : list (list call) :=
  let n := length (st_started (listener v r acts)) in
  map (answers_of v r body (acts ++ [Wake])) (seq n (length (st_started (listener v r (acts ++ [Wake]))) - n)).

Inductive ustep (gw : gateway) (v : N) (r : registry) (body : reflex) (u : uworld) : label -> uworld -> Prop :=
| U_press c h' obs res evs : does gw (u_house u) c h' obs res evs ->
    ustep gw v r body u (Pressed c) (u_call u h' evs None c (u_todo u))
| U_packet f fs rest : u_wire u = (f :: fs) ++ rest ->
    ustep gw v r body u Act (u_told u rest (u_acts u ++ [Packet (concat (f :: fs))]) (u_todo u))
| U_lookup k whr : tagtext whr -> ustep gw v r body u Quiet (u_told u (u_wire u) (u_acts u ++ [Lookup k whr]) (u_todo u))
| U_wake m q : st_queue (listener v r (u_acts u)) = m :: q ->
    ustep gw v r body u Act (u_told u (u_wire u) (u_acts u ++ [Wake]) (u_todo u ++ made_todo v r body (u_acts u)))
| U_idle : st_queue (listener v r (u_acts u)) = [] ->
    ustep gw v r body u Quiet (u_told u (u_wire u) (u_acts u ++ [Wake]) (u_todo u ++ made_todo v r body (u_acts u)))
| U_serve n c cs h' obs res evs : nth_error (u_todo u) n = Some (c :: cs) -> does gw (u_house u) c h' obs res evs ->
    ustep gw v r body u Act (u_call u h' evs (Some n) c (put_at n cs (u_todo u))).

Inductive uruns (gw : gateway) (v : N) (r : registry) (body : reflex) (u : uworld) : list label -> uworld -> Prop :=
| UR_nil : uruns gw v r body u [] u
| UR_snoc ls l u1 u2 : uruns gw v r body u ls u1 -> ustep gw v r body u1 l u2 -> uruns gw v r body u (ls ++ [l]) u2.

Definition calm_house (h : house) : uworld := {| u_house := h; u_wire := []; u_acts := []; u_todo := []; u_by := []; u_evs := [] |}.
