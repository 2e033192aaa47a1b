(** * Messages as objects: which lists they share

    A generic message holds a reference to a Python list, which is mutable;
    every other message holds a tuple of tags.  The store keeps the contents of
    the lists, the messages made so far and the lists a user of the package can
    reach.  Private attributes and the string inside a tag are not touched. *)
From Coq Require Import String List NArith ZArith Bool Lia.
From Verif Require Import PyStr Tags Messages.
Import ListNotations.
Open Scope N_scope.
Open Scope list_scope.

(** The value of the attribute _tags: messages/base.py:45 and the constructors. *)
Inductive held :=
| Tuple (m : msg)        (* ack.py:22, nack.py:22, dimension.py:25-26 and 68-69, normal.py:23-24, status.py:21-22 *)
| ListAt (a : nat).      (* messages/base.py:152-153 GenericMessage.__init__ keeps the list it is given *)

Record store := { st_cells : nat -> list str; st_next : nat; st_known : list nat; st_msgs : list held }.

Definition empty_store : store := {| st_cells := fun _ => []; st_next := 0; st_known := []; st_msgs := [] |}.

(** What a user can do, in any order. *)
Inductive act :=
| Parse (text : str)             (* parse_message, also by data_received *)
| NewList (l : list str)         (* a list of the user's own *)
| Build (a : nat)                (* GenericMessage(lst) *)
| Tags (i : nat)                 (* message.tags *)
| Mutate (a : nat) (l : list str). (* any modification of a list: [l] is its content afterwards *)

Definition set_cell (c : nat -> list str) (a : nat) (l : list str) : nat -> list str := fun b => if (b =? a)%nat then l else c b.

Definition alloc (s : store) (l : list str) (known : bool) : store :=
  {| st_cells := set_cell (st_cells s) (st_next s) l; st_next := S (st_next s);
     st_known := if known then st_next s :: st_known s else st_known s; st_msgs := st_msgs s |}.

Definition add_msg (s : store) (h : held) : store :=
  {| st_cells := st_cells s; st_next := st_next s; st_known := st_known s; st_msgs := st_msgs s ++ [h] |}.

Definition step (s : store) (x : act) : store :=
  match x with
  | Parse text =>
      (* base.py:201-205 split makes a new list; 223 and 183 hand that list to the message;
         the class parsers build new tuples *)
      match parse_message text with
      | Ok (MGeneric tags) => add_msg (alloc s tags false) (ListAt (st_next s))
      | Ok m => add_msg s (Tuple m)
      | Err _ => s
      end
  | NewList l => alloc s l true
  | Build a => if existsb (Nat.eqb a) (st_known s) then add_msg s (ListAt a) else s
  | Tags i =>
      (* base.py:97 deepcopy: a new list of the same strings; a tuple is immutable *)
      match nth_error (st_msgs s) i with
      | Some (ListAt a) => alloc s (st_cells s a) true
      | _ => s
      end
  | Mutate a l =>
      if existsb (Nat.eqb a) (st_known s)
      then {| st_cells := set_cell (st_cells s) a l; st_next := st_next s; st_known := st_known s; st_msgs := st_msgs s |}
      else s
  end.

Definition run (s : store) (acts : list act) : store := fold_left step acts s.

(** The message as it reads now: its class, tags, wire form and equality follow. *)
Definition view (s : store) (i : nat) : option msg :=
  match nth_error (st_msgs s) i with
  | Some (Tuple m) => Some m
  | Some (ListAt a) => Some (MGeneric (st_cells s a))
  | None => None
  end.
