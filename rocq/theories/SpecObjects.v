(** * Which client an item sends with, and which class it has

    Nothing here mentions the programs of Objects.v other than the kinds of
    steps of a history. *)
From Coq Require Import String List NArith ZArith Bool Lia.
From Verif Require Import PyStr Tags Messages SpecMsg SpecEnergy IO Client Items Energy Dispatch Objects.
Import ListNotations.
Open Scope N_scope.
Open Scope list_scope.

(** [names a k cl]: the step asks for the item [k] and offers the client [cl]. *)
Inductive names : oact -> who * str -> nat -> Prop :=
| N_lookup w whr cl : names (OLookup w whr cl) (w, whr) cl
| N_event lc r m w whr : msg_who m = Some w -> msg_where m = Some whr -> names (OEvent lc r m) (w, whr) lc.

(** The items that can be made: the four supported WHO; energy items have an
    energy address. *)
Definition makeable (k : who * str) : Prop :=
  match fst k with
  | LIGHTING | AUTOMATION | GATEWAY => True
  | ENERGY_MANAGEMENT => exists t, energy_class (snd k) t
  | _ => False
  end.

(** The client of object [n] after further steps, if it was [cl]: the last one
    assigned to it. *)
Fixpoint reassigned (n cl : nat) (h : list oact) : nat :=
  match h with
  | [] => cl
  | OAssign m c :: h => reassigned n (if Nat.eqb m n then c else cl) h
  | _ :: h => reassigned n cl h
  end.

(** The Python classes, and the ones that offer a method to register callbacks
    for a kind of event (lighting/base.py, lighting/dimmer.py, automation.py,
    gateway.py, energy.py, camera.py). *)
Inductive pyclass := PLight | PDimmer | PAutomation | PGateway | PEnergy | PCamera.
Inductive offers : pyclass -> evkey -> Prop :=
| Of_light e : In e [STATUS_CHANGE; LIGHT_TEMPORIZATION] -> offers PLight (K_light e)
| Of_dimmer e : offers PDimmer (K_light e)
| Of_auto : offers PAutomation K_auto
| Of_gateway w : offers PGateway (K_gateway w)
| Of_energy d :
    In d [DAILY_TOTALIZERS_HOURLY_16BIT; MONTHLY_AVERAGE_HOURLY_16BIT; MONTHLY_TOTALIZERS_CURRENT_YEAR_32BIT;
          MONTHLY_TOTALIZERS_LAST_YEAR_32BIT; STATUS_STOP_GO_GENERAL; ACTIVE_POWER; ENERGY_UNIT_TOTALIZER; ENERGY_UNIT_PER_MONTH;
          PARTIAL_TOTALIZER_CURRENT_MONTH; PARTIAL_TOTALIZER_CURRENT_DAY; ACTUATORS_INFO; TOTALIZERS; DIFFERENTIAL_CURRENT_LEVEL] ->
    offers PEnergy (K_energy d)
| Of_camera : offers PCamera K_cam.

Definition pyclass_of (f : factory) : pyclass :=
  match f with F_Light => PLight | F_Automation => PAutomation | F_Gateway => PGateway | F_Energy => PEnergy end.

(** The class of the items of a WHO. *)
Inductive class_for : who -> pyclass -> Prop :=
| CF_light : class_for LIGHTING PLight
| CF_auto : class_for AUTOMATION PAutomation
| CF_gateway : class_for GATEWAY PGateway
| CF_energy : class_for ENERGY_MANAGEMENT PEnergy.

(** A client in a command session with a connection. *)
Definition commanding (c : client) : Prop := (cl_session c = Command \/ cl_session c = OldCommand) /\ cl_proto c = true.

(** The WHERE that commands to the item [k] carry: none for the gateway. *)
Definition key_where (k : who * str) : str := match fst k with GATEWAY => [] | _ => snd k end.
