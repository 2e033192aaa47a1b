(** * An application that keeps what it was last told of every point *)
From Coq Require Import String List NArith ZArith Bool Lia.
From Verif Require Import PyStr Tags Messages SpecMsg SpecProto Dispatch SpecDispatch SpecHouse SpecNotice.
Import ListNotations.
Open Scope N_scope.
Open Scope list_scope.

Definition place (p : point) : who * str := (p_who p, p_where p).
(** No two points share WHO and address. *)
Definition distinct (h : house) : Prop := NoDup (map place h).

(** What the callback [f] was told last about the [i]-th item. *)
Definition about (f : N) (i : nat) (t : task) : option (list val) :=
  match t with (g, VItem j :: args) => if (g =? f) && Nat.eqb i j then Some args else None | _ => None end.
Definition last_told (f : N) (i : nat) (ts : list task) : option (list val) :=
  fold_left (fun known t => match about f i t with Some args => Some args | None => known end) ts None.
(** No callback was ever told anything about this item. *)
Definition never_told (i : nat) (ts : list task) : Prop := forall g args, ~ In (g, VItem i :: args) ts.
