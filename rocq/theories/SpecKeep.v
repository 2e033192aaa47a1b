(** * What a client keeps of the events

    The addresses it has met.  Nothing here mentions the dictionary of the items. *)
From Coq Require Import String List NArith ZArith Bool Lia.
From Verif Require Import PyStr Tags Messages SpecTag Energy SpecEnergy Dispatch.
Import ListNotations.
Open Scope N_scope.
Open Scope list_scope.

(** [met acts evs k]: an event that the loop got to, or a call of get_item, named
    the WHO and WHERE [k]. *)
Inductive met (acts : list act) (evs : list (registry * msg)) : who * str -> Prop :=
| Met_event r m w whr : In (r, m) evs -> msg_who m = Some w -> msg_where m = Some whr -> met acts evs (w, whr)
| Met_lookup w whr : In (Lookup w whr) acts -> met acts evs (w, whr).

(** There is a class of items for it: lights, automation and the gateway anywhere,
    energy at an energy address. *)
Inductive has_item : who * str -> Prop :=
| HI_light whr : has_item (LIGHTING, whr)
| HI_auto whr : has_item (AUTOMATION, whr)
| HI_gateway whr : has_item (GATEWAY, whr)
| HI_energy whr t : energy_class whr t -> has_item (ENERGY_MANAGEMENT, whr).

(** [counts P n]: [P] holds of exactly [n] things. *)
Definition counts {A} (P : A -> Prop) (n : nat) : Prop := exists l, NoDup l /\ (forall x, In x l <-> P x) /\ length l = n.
