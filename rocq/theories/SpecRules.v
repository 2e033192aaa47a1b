(** * Rules between lamps

    An application whose callback obeys a list of rules: the rule [(a, it)] makes
    the lamp [it] follow the lamp at [a] ([SpecReflex.follow]). *)
From Coq Require Import String List NArith ZArith Bool Lia.
From Verif Require Import PyStr Tags Messages SpecMsg Items Lighting Dispatch SpecDispatch SpecTag SpecHouse Reflex SpecReflex.
Import ListNotations.
Open Scope nat_scope.
Open Scope list_scope.

Definition by_rules (rules : list (str * item)) : reflex := fun f k args => concat (map (fun ru => follow (fst ru) (snd ru) f k args) rules).

(** The lamps can be numbered such that every rule goes from a lamp to lamps with
    smaller numbers: no lamp follows itself, not even through others. *)
Definition ranked (gw : gateway) (rules : list (str * item)) (rank : str -> nat) : Prop :=
  forall a it b, In (a, it) rules -> covers gw (it_where it) b = true -> rank b < rank a.

(** A bound on the calls that follow from one event: [n] callbacks and rules, [m]
    lamps, and a lamp with the number [k]. *)
Fixpoint heavy (n m : nat) (k : nat) : nat := match k with O => n | S k => n * (1 + m * heavy n m k) end.

(** [pb] follows [pa] only, and nobody else switches it. *)
Definition link (gw : gateway) (rules : list (str * item)) (others : list SpecHouse.call) (h : house) (pa pb : point) : Prop :=
  In pb h /\ p_who pa = LIGHTING /\ (exists it, In (p_where pa, it) rules /\ aimed gw LIGHTING (it_where it) pb = true) /\
  (forall a it, In (a, it) rules -> aimed gw LIGHTING (it_where it) pb = true -> a = p_where pa) /\
  Forall (fun c => forall o, stands_for c o -> at_whom gw o pb = true -> sets o = false) others.

Inductive downstream (gw : gateway) (rules : list (str * item)) (others : list SpecHouse.call) (h : house) (pa : point) : point -> Prop :=
| D_one pb : link gw rules others h pa pb -> downstream gw rules others h pa pb
| D_more pb pc : downstream gw rules others h pa pb -> link gw rules others h pb pc -> downstream gw rules others h pa pc.
