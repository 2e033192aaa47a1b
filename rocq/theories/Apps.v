(** * Several applications in one house

    Every application has an event client (client.py:105-143, as in [Dispatch])
    with its own callbacks; the callbacks answer events with calls on command
    clients of their own and use no lock, as in [Unlocked].  Events go to all of
    the applications; each reads them in its own time and in its own portions.

    Simplifications: those of [Unlocked]. *)
From Coq Require Import String List NArith ZArith Bool Lia PeanoNat.
From Verif Require Import PyStr Tags Messages SpecMsg Items Dispatch SpecDispatch SpecTag SpecHouse Reflex Unlocked.
Import ListNotations.
Open Scope nat_scope.
Open Scope list_scope.

(** Python's version as in [Dispatch], the registered callbacks and their bodies. *)
Record app := { a_ver : N; a_reg : registry; a_body : reflex }.
(** As in [uworld], for one application. *)
Record ear := { e_wire : list (list N); e_acts : list act; e_todo : list (list call) }.
(** [m_by]: the calls done so far, with the application and the task. *)
Record many := { m_house : house; m_ears : nat -> ear; m_by : list (option (nat * nat) * call); m_evs : list (list N) }.

Definition at_ear (i : nat) (e : ear) (es : nat -> ear) : nat -> ear := fun j => if Nat.eqb i j then e else es j.
Definition hear (evs : list (list N)) (e : ear) : ear := {| e_wire := e_wire e ++ evs; e_acts := e_acts e; e_todo := e_todo e |}.

Definition m_told (s : many) (i : nat) (wire : list (list N)) (acts : list act) (todo : list (list call)) : many :=
  {| m_house := m_house s; m_ears := at_ear i {| e_wire := wire; e_acts := acts; e_todo := todo |} (m_ears s); m_by := m_by s; m_evs := m_evs s |}.
Definition m_call (s : many) (h : house) (evs : list (list N)) (by_ : option (nat * nat)) (c : call) (es : nat -> ear) : many :=
  {| m_house := h; m_ears := fun j => hear evs (es j); m_by := m_by s ++ [(by_, c)]; m_evs := m_evs s ++ evs |}.

Inductive mstep (gw : gateway) (apps : nat -> app) (N : nat) (s : many) : label -> many -> Prop :=
| M_press c h' obs res evs : does gw (m_house s) c h' obs res evs -> mstep gw apps N s (Pressed c) (m_call s h' evs None c (m_ears s))
| M_packet i f fs rest : i < N -> e_wire (m_ears s i) = (f :: fs) ++ rest ->
    mstep gw apps N s Act (m_told s i rest (e_acts (m_ears s i) ++ [Packet (concat (f :: fs))]) (e_todo (m_ears s i)))
| M_lookup i k whr : i < N -> tagtext whr ->
    mstep gw apps N s Quiet (m_told s i (e_wire (m_ears s i)) (e_acts (m_ears s i) ++ [Lookup k whr]) (e_todo (m_ears s i)))
| M_wake i m q : i < N -> st_queue (listener (a_ver (apps i)) (a_reg (apps i)) (e_acts (m_ears s i))) = m :: q ->
    mstep gw apps N s Act (m_told s i (e_wire (m_ears s i)) (e_acts (m_ears s i) ++ [Wake])
      (e_todo (m_ears s i) ++ made_todo (a_ver (apps i)) (a_reg (apps i)) (a_body (apps i)) (e_acts (m_ears s i))))
| M_idle i : i < N -> st_queue (listener (a_ver (apps i)) (a_reg (apps i)) (e_acts (m_ears s i))) = [] ->
    mstep gw apps N s Quiet (m_told s i (e_wire (m_ears s i)) (e_acts (m_ears s i) ++ [Wake])
      (e_todo (m_ears s i) ++ made_todo (a_ver (apps i)) (a_reg (apps i)) (a_body (apps i)) (e_acts (m_ears s i))))
| M_serve i n c cs h' obs res evs : i < N -> nth_error (e_todo (m_ears s i)) n = Some (c :: cs) -> does gw (m_house s) c h' obs res evs ->
    mstep gw apps N s Act (m_call s h' evs (Some (i, n)) c
      (at_ear i {| e_wire := e_wire (m_ears s i); e_acts := e_acts (m_ears s i); e_todo := put_at n cs (e_todo (m_ears s i)) |} (m_ears s))).

Inductive mruns (gw : gateway) (apps : nat -> app) (N : nat) (s : many) : list label -> many -> Prop :=
| MR_nil : mruns gw apps N s [] s
| MR_snoc ls l s1 s2 : mruns gw apps N s ls s1 -> mstep gw apps N s1 l s2 -> mruns gw apps N s (ls ++ [l]) s2.

Definition still_house (h : house) : many :=
  {| m_house := h; m_ears := fun _ => {| e_wire := []; e_acts := []; e_todo := [] |}; m_by := []; m_evs := [] |}.
