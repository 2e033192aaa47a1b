(** * What C138 says, without the model's functions *)
From Coq Require Import String List NArith ZArith Bool Lia.
From Verif Require Import PyStr Tags Messages Dispatch Objects Custom.
Import ListNotations.
Open Scope N_scope.
Open Scope list_scope.

(** The step asks for an item of this WHO. *)
Definition asks_for (a : xact) (w : who) : Prop :=
  (exists whr, a = XLookup w whr) \/ (exists r m, a = XEvent r m /\ msg_who m = Some w).

(** ITEM_TYPES is left as it is. *)
Definition keeps_types (h : list xact) : Prop := forall w mk, ~ In (XType w mk) h.

(** The same history for a library that knows no classes of the application
    (Objects.v, with one client). *)
Fixpoint plain (h : list xact) : list oact :=
  match h with
  | [] => []
  | XLookup w whr :: h => OLookup w whr 0 :: plain h
  | XEvent r m :: h => OEvent 0 r m :: plain h
  | _ :: h => plain h
  end.

(** The first class defined for a WHO. *)
Definition first_for (h : list xact) (w : who) (u : uclass) : Prop :=
  exists h1 h2, h = h1 ++ XDefine u :: h2 /\ u_who u = w /\ forall u', In (XDefine u') h1 -> u_who u' <> w.

(** The WHO of the classes of the library. *)
Definition library_who (w : who) : Prop := In w [AUTOMATION; VIDEO_DOOR_ENTRY; ENERGY_MANAGEMENT; GATEWAY; LIGHTING].

(** The class is in ITEM_TYPES before the first item of its WHO is asked for, and
    stays there. *)
Definition listed (h : list xact) (w : who) (mk : maker) : Prop :=
  exists h1 h2, h = h1 ++ XType w mk :: h2 /\ (forall a, In a h1 -> ~ asks_for a w) /\ forall mk', ~ In (XType w mk') h2.

(** The class is the library's, or derives from it. *)
Definition derives (a : aclass) (f : factory) : Prop := a = A_built f \/ exists name, a = A_user name (Some f).

(** Every callback registered for the event takes so many arguments. *)
Definition suits (r : registry) (k : evkey) (args : list val) : Prop :=
  forall f, In f (r k) -> cb_takes f (S (length args)) = true.
