(** * The item objects of a client and the clients they send with: pyown/client/client.py, pyown/items/base.py *)
From Coq Require Import String List NArith ZArith Bool Lia.
From Verif Require Import PyStr Tags Messages Protocol Queue IO Client Items Dispatch.
Import ListNotations.
Open Scope N_scope.
Open Scope list_scope.

(** items/base.py:38-55: the class of an item made by ITEM_TYPES, the number of
    the client it sends with, its WHERE. *)
Record object := { ob_class : factory; ob_client : nat; ob_where : str }.

(** [factory(client, where)].  gateway.py:99-105: a Gateway replaces the WHERE by
    the empty one; energy.py:34-46 checks it. *)
Definition make (f : factory) (cl : nat) (whr : str) : res object :=
  do u <- construct f whr;
  Ok {| ob_class := f; ob_client := cl; ob_where := match f with F_Gateway => [] | _ => whr end |}.

(** client.py:28 _items, in order of insertion *)
Definition cache := list ((who * str) * object).
Definition keys (c : cache) : items := map fst c.

(** client.py:55-77 get_item with the argument [client]; the result is the
    number of the object. *)
Definition get_object (c : cache) (w : who) (whr : str) (cl : nat) : cache * res nat :=
  match position (w, whr) (keys c) with
  | Some n => (c, Ok n)
  | None =>
      match item_types w with
      | Some f => match make f cl whr with
                  | Ok o => (c ++ [((w, whr), o)], Ok (length c))
                  | Err e => (c, Err e)
                  end
      | None => (c, Err KeyError)
      end
  end.

(** client.py:123-143: one message, in a loop called with the client [lc]
    (client.py:111-112: without argument, the client itself). *)
Definition handle_obj (v : N) (r : registry) (lc : nat) (c : cache) (m : msg) : cache * list task * option exn :=
  match msg_type m with
  | T_ACK | T_NACK | T_GENERIC => (c, [], None)
  | _ =>
      match msg_who m, msg_where m with
      | Some w, Some whr =>
          match get_object c w whr lc with
          | (c', Ok n) => (c', dispatch v r subclasses n m, None)
          | (c', Err KeyError) => (c', [], None)
          | (c', Err e) => (c', [], Some e)
          end
      | _, _ => (c, [], None)
      end
  end.

(** items/base.py:79-81: the setter of [client] *)
Definition with_client (cl : nat) (o : object) : object :=
  {| ob_class := ob_class o; ob_client := cl; ob_where := ob_where o |}.
Definition assign (n cl : nat) (c : cache) : cache :=
  match nth_error c n with
  | Some (k, o) => setnth n (k, with_client cl o) c
  | None => c
  end.

(** What touches the objects: the user calls get_item, a loop with client [lc]
    handles a message, the user assigns to [item.client]. *)
Inductive oact :=
| OLookup (w : who) (whr : str) (cl : nat)
| OEvent (lc : nat) (r : registry) (m : msg)
| OAssign (n cl : nat).

Definition ostep (v : N) (c : cache) (a : oact) : cache :=
  match a with
  | OLookup w whr cl => fst (get_object c w whr cl)
  | OEvent lc r m => fst (fst (handle_obj v r lc c m))
  | OAssign n cl => assign n cl c
  end.
Definition orun (v : N) (c : cache) (h : list oact) : cache := fold_left (ostep v) h c.

(** The class attribute [_who] of the four classes. *)
Definition factory_who (f : factory) : who :=
  match f with F_Light => LIGHTING | F_Automation => AUTOMATION | F_Gateway => GATEWAY | F_Energy => ENERGY_MANAGEMENT end.

(** The item as its methods see it; [clients] are all clients by number. *)
Definition obj_item (clients : nat -> client) (o : object) : item :=
  {| it_client := clients (ob_client o); it_who := factory_who (ob_class o); it_where := ob_where o |}.
