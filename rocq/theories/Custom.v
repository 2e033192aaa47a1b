(** * Item classes of the application: pyown/items/base.py, pyown/items/utils.py,
      pyown/client/client.py:55-77, 123-171

    BaseItem and the dictionary ITEM_TYPES are documented (docs/api/items/base.md);
    an application may define classes of its own and put classes into the
    dictionary.  The clients of the items are in Objects.v and left out here. *)
From Coq Require Import String List NArith ZArith Bool Lia.
From Verif Require Import PyStr Tags Messages IO Client Items Dispatch.
Import ListNotations.
Open Scope N_scope.
Open Scope list_scope.

(** A class of the application that derives from BaseItem directly: its [_who]
    and its call_callbacks, which gets the number of the item and the message,
    starts tasks, and returns or raises an Exception.  (If it suspends, the loop
    waits for it: client.py:156.) *)
Record uclass := { u_who : who; u_calls : nat -> msg -> list task * res unit }.

(** items/base.py:36, 87-101: a class that overrides neither. *)
Definition u_plain : uclass := {| u_who := LIGHTING; u_calls := fun _ _ => ([], Err NotImplementedErr) |}.

(** The class of an item: one of the four of ITEM_TYPES, Camera, Dimmer, or a
    class of the application, with the class of the four it derives from if any.
    (Subclasses of Gateway and EnergyManagement are assumed to keep the methods
    that call_callbacks uses: gateway.py:486-506, energy.py:599, 622.) *)
Inductive aclass := A_built (f : factory) | A_camera | A_dimmer | A_user (name : N) (base : option factory).

(** [isinstance(item, Gateway)], [isinstance(item, EnergyManagement)] *)
Definition isa (a : aclass) (f : factory) : bool :=
  match a, f with
  | A_built F_Gateway, F_Gateway | A_user _ (Some F_Gateway), F_Gateway => true
  | A_built F_Energy, F_Energy | A_user _ (Some F_Energy), F_Energy => true
  | _, _ => false
  end.

(** A value of ITEM_TYPES: the class, and the WHERE of the item made with
    [factory(client, where)], or the exception of the constructor. *)
Record maker := { mk_class : aclass; mk_init : str -> res str }.

(** items/base.py:38-55; gateway.py:99-105; energy.py:34-46 *)
Definition built_maker (f : factory) : maker :=
  {| mk_class := A_built f; mk_init := fun whr => do u <- construct f whr; Ok (match f with F_Gateway => [] | _ => whr end) |}.
(** camera.py:123 and lighting/dimmer.py:11 have no constructor of their own. *)
Definition camera_maker : maker := {| mk_class := A_camera; mk_init := fun whr => Ok whr |}.
Definition dimmer_maker : maker := {| mk_class := A_dimmer; mk_init := fun whr => Ok whr |}.

(** The classes of the application in the order of their definition, ITEM_TYPES,
    and the items of a client: WHO and WHERE asked for, class and WHERE. *)
Record world := { x_users : list uclass; x_types : who -> option maker; x_objs : list ((who * str) * (aclass * str)) }.

(** items/utils.py:12-17 *)
Definition fresh : world :=
  {| x_users := []; x_types := fun w => option_map built_maker (item_types w); x_objs := [] |}.

Definition xkeys (x : world) : items := map fst (x_objs x).

(** client.py:55-77 get_item *)
Definition xget (x : world) (w : who) (whr : str) : world * res nat :=
  match position (w, whr) (xkeys x) with
  | Some n => (x, Ok n)
  | None =>
      match x_types x w with
      | Some mk =>
          match mk_init mk whr with
          | Ok whr' => ({| x_users := x_users x; x_types := x_types x; x_objs := x_objs x ++ [((w, whr), (mk_class mk, whr'))] |}, Ok (length (x_objs x)))
          | Err e => (x, Err e)
          end
      | None => (x, Err KeyError)
      end
  end.

(** gateway.py:466-467, energy.py:552-553: the two classes that look at the class
    of the item; the others take any. *)
Definition built_calls (r : registry) (c : item_class) (a : aclass) (n : nat) (m : msg) : list task * res unit :=
  match c with
  | C_Gateway => if isa a F_Gateway then call_callbacks r c n m else ([], Err InvalidMessage)
  | C_Energy => if isa a F_Energy then call_callbacks r c n m else ([], Err InvalidMessage)
  | _ => call_callbacks r c n m
  end.

(** client.py:145-171 _dispatch_callbacks over [BaseItem.__subclasses__()]: the
    classes of the library, and then those of the application (items/base.py is
    only imported after or by items/__init__.py). *)
Definition some_class := (item_class + uclass)%type.
Definition xwho (v : N) (c : some_class) : option who :=
  match c with inl c => item_who v c | inr u => if v <? 13 then Some (u_who u) else None end.
Definition xcalls (r : registry) (c : some_class) (a : aclass) (n : nat) (m : msg) : list task * res unit :=
  match c with inl c => built_calls r c a n m | inr u => u_calls u n m end.

Fixpoint xdispatch (v : N) (r : registry) (cs : list some_class) (a : aclass) (n : nat) (m : msg) : list task :=
  match cs with
  | [] => []
  | c :: cs =>
      match xwho v c, msg_who m with
      | Some w, Some w' =>
          if who_eqb w' w then
            let (ts, x) := xcalls r c a n m in
            ts ++ match x with Ok _ => [] | Err _ => xdispatch v r cs a n m end
          else xdispatch v r cs a n m
      | _, _ => xdispatch v r cs a n m
      end
  end.
Definition all_classes (x : world) : list some_class := map inl subclasses ++ map inr (x_users x).

(** client.py:123-143: one message *)
Definition xhandle (v : N) (r : registry) (x : world) (m : msg) : world * list task * option exn :=
  match msg_type m with
  | T_ACK | T_NACK | T_GENERIC => (x, [], None)
  | _ =>
      match msg_who m, msg_where m with
      | Some w, Some whr =>
          match xget x w whr with
          | (x', Ok n) =>
              match nth_error (x_objs x') n with
              | Some (_, (a, _)) => (x', xdispatch v r (all_classes x') a n m, None)
              | None => (x', [], None)   (* not possible: [n] is the number of an item *)
              end
          | (x', Err KeyError) => (x', [], None)
          | (x', Err e) => (x', [], Some e)
          end
      | _, _ => (x, [], None)
      end
  end.

(** The application defines a class, assigns [ITEM_TYPES[w] = cls], asks for an
    item; an event arrives. *)
Inductive xact := XDefine (u : uclass) | XType (w : who) (mk : maker) | XLookup (w : who) (whr : str) | XEvent (r : registry) (m : msg).

Definition xstep (v : N) (x : world) (a : xact) : world :=
  match a with
  | XDefine u => {| x_users := x_users x ++ [u]; x_types := x_types x; x_objs := x_objs x |}
  | XType w mk => {| x_users := x_users x; x_types := fun w' => if who_eqb w w' then Some mk else x_types x w'; x_objs := x_objs x |}
  | XLookup w whr => fst (xget x w whr)
  | XEvent r m => fst (fst (xhandle v r x m))
  end.
Definition xrun (v : N) (x : world) (h : list xact) : world := fold_left (xstep v) h x.
