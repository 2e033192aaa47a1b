(** * What an item should be, by what it was made with *)
From Coq Require Import String List NArith ZArith Bool Lia.
From Verif Require Import PyStr Tags Messages SpecMsg SpecTag IO Client Items SpecItem Energy SpecEnergy Making.
Import ListNotations.
Open Scope N_scope.
Open Scope list_scope.

(** The text of the WHERE asked for; a tag object was checked when it was made. *)
Definition asked_where (a : where_arg) : str := match a with WText s | WTag s => s end.
Definition checked (a : where_arg) : Prop := match a with WText _ => True | WTag s => tagtext s end.

(** The WHO asked for, if any is; [Badly]: a text that is none of the numbers. *)
Inductive asks_who : who_arg -> option who -> Prop :=
| As_left : asks_who WhoLeft None
| As_none : asks_who WhoNone None
| As_text w : asks_who (WhoText (who_str w)) (Some w)
| As_who w : asks_who (WhoIs w) (Some w).

(** The WHO of each class, by its documentation. *)
Definition says_who (k : iclass) : who :=
  match k with
  | I_Automation => AUTOMATION | I_Camera => VIDEO_DOOR_ENTRY | I_Gateway => GATEWAY | I_Energy | I_StopGo => ENERGY_MANAGEMENT
  | _ => LIGHTING
  end.

(** The addresses of each class. *)
Definition address (k : iclass) (s : str) : Prop :=
  match k with
  | I_Energy => exists t, energy_class s t
  | I_StopGo => energy_class s STOP_GO
  | _ => tagtext s
  end.

(** An item that can be made with these arguments, other than a gateway, and what
    it is. *)
Definition as_asked (k : iclass) (c : client) (a : where_arg) (u : who_arg) (it : item) : Prop :=
  k <> I_BaseLight /\ k <> I_Gateway /\ address k (asked_where a) /\
  exists o, asks_who u o /\ it = {| it_client := c; it_who := match o with Some w => w | None => says_who k end; it_where := asked_where a |}.

(** [sends it w whr]: everything that the four ways of sending write is addressed
    to the WHO [w] and the WHERE [whr]. *)
Definition sends (it : item) (w : who) (whr : str) : Prop :=
  (forall Y what s, tagtext what -> @answered Y (frame_cmd w what whr) s (send_normal_message it what s)) /\
  (forall Y dim x xs s, tagtext dim -> Forall tagtext (x :: xs) -> @answered Y (frame_dimwri w whr dim (x :: xs)) s (send_dimension_writing it dim (x :: xs) s)) /\
  (forall s, requested (frame_status w whr) normal s (send_status_request it as_is s)) /\
  (forall dim s, tagtext dim -> requested (frame_dimreq w whr dim) dimres s (send_dimension_request it dim as_is s)).
