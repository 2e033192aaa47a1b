(** * Items made by the user: pyown/items/base.py:30-77 and the constructors of
      the item classes

    The client is any value; the WHERE is a str or a tag object, as annotated
    (a tag object was checked when it was made).  Not modelled: arguments of other
    types, and positional arguments for [who], which is keyword-only. *)
From Coq Require Import String List NArith ZArith Bool Lia.
From Verif Require Import PyStr Tags Messages IO Client Items Energy.
Import ListNotations.
Open Scope N_scope.
Open Scope list_scope.

(** The classes that [pyown.items] has: BaseItem, BaseLight and the seven kinds
    of items. *)
Inductive iclass := I_Base | I_BaseLight | I_Light | I_Dimmer | I_Automation | I_Camera | I_Gateway | I_Energy | I_StopGo.

(** [__class__.__name__] *)
Definition iname (k : iclass) : str :=
  match k with
  | I_Base => lit "BaseItem" | I_BaseLight => lit "BaseLight" | I_Light => lit "Light" | I_Dimmer => lit "Dimmer" | I_Automation => lit "Automation"
  | I_Camera => lit "Camera" | I_Gateway => lit "Gateway" | I_Energy => lit "EnergyManagement" | I_StopGo => lit "StopGo"
  end.

(** The class attribute [_who]: items/base.py:36, lighting/base.py:120,
    automation.py:51, camera.py:135, gateway.py:95, energy.py:29; Light and Dimmer
    inherit that of BaseLight, StopGo that of EnergyManagement. *)
Definition iwho (k : iclass) : who :=
  match k with
  | I_Base | I_BaseLight | I_Light | I_Dimmer => LIGHTING
  | I_Automation => AUTOMATION | I_Camera => VIDEO_DOOR_ENTRY | I_Gateway => GATEWAY | I_Energy | I_StopGo => ENERGY_MANAGEMENT
  end.

Inductive where_arg := WText (s : str) | WTag (s : str).
(** [who=] left out, None, a str, a Who (which is a str as well: tags/who.py:11) *)
Inductive who_arg := WhoLeft | WhoNone | WhoText (s : str) | WhoIs (w : who).

(** items/base.py:48-50 *)
Definition init_where (a : where_arg) : res str := match a with WText s => mk s | WTag s => Ok s end.

(** items/base.py:52-55: without an assignment, [self._who] is the attribute of
    the class. *)
Definition init_who (k : iclass) (a : who_arg) : res who :=
  match a with WhoLeft | WhoNone => Ok (iwho k) | WhoText s => who_of s | WhoIs w => who_of (who_str w) end.

(** items/base.py:38-55 BaseItem.__init__ *)
Definition base_init (k : iclass) (c : client) (a : where_arg) (u : who_arg) : res item :=
  do whr <- init_where a;
  do w <- init_who k u;
  Ok {| it_client := c; it_who := w; it_where := whr |}.

(** [K(client, where, who=...)].  lighting/base.py:164: BaseLight has an abstract
    method, so that it cannot be instantiated; gateway.py:99-105 has no parameter
    [who] and puts Where("") for the WHERE; energy.py:33-45; stop_go.py:19-32. *)
Definition make_item (k : iclass) (c : client) (a : where_arg) (u : who_arg) : res item :=
  match k with
  | I_BaseLight => Err TypeError
  | I_Gateway => match u with WhoLeft => base_init k c (WText []) WhoLeft | _ => Err TypeError end
  | I_Energy => do it <- base_init k c a u; do _ <- get_type (it_where it); Ok it
  | I_StopGo =>
      do it <- (do it <- base_init k c a u; do _ <- get_type (it_where it); Ok it);
      do t <- get_type (it_where it);
      match t with STOP_GO => Ok it | _ => Err InvalidTag end
  | _ => base_init k c a u
  end.

(** items/base.py:57-61: [repr(item)] and [str(item)]; a tag is formatted as its
    text (tags/base.py:72-73). *)
Definition item_repr (k : iclass) (it : item) : str := iname k ++ lit "(where=" ++ it_where it ++ lit ")".
Definition item_str (k : iclass) (it : item) : str := iname k ++ lit " at " ++ it_where it.

(** items/base.py:63-77: [item.where]; [item.who], a property of the class, which
    Python 3.13 no longer has: there it is a method (None here). *)
Definition item_where (it : item) : str := it_where it.
Definition item_who (v : N) (k : iclass) (it : item) : option who := if v <? 13 then Some (iwho k) else None.
