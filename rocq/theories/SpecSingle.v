(** * What one task sees of a shared client *)
From Coq Require Import String List NArith ZArith Bool Lia.
From Verif Require Import PyStr Tags Messages Protocol Queue IO Client Items Conc.
Import ListNotations.
Open Scope list_scope.

(** A call as a program of its own (IO.v): the frame is written, then a command
    reads one message and a request reads until ACK. *)
Definition prog (p : pc) (b : list N) : io Empty_set unit :=
  match p with
  | PIdle => ret tt
  | PCommand => let* _ := put b in let* m := take in check_ack m
  | PRequest keep => let* _ := put b in replies keep (fun _ => Ok [])
  end.

(** What concerns task [i]. *)
Fixpoint own {A} (i : nat) (l : list (nat * A)) : list A :=
  match l with [] => [] | (j, a) :: r => if Nat.eqb j i then a :: own i r else own i r end.
Fixpoint calls (i : nat) (es : list kevent) : list (pc * list N) :=
  match es with [] => [] | KCall j p b :: r => if Nat.eqb j i then (p, b) :: calls i r else calls i r | _ :: r => calls i r end.

(** The messages of a script. *)
Fixpoint somes (t : script) : list msg :=
  match t with [] => [] | Some m :: r => m :: somes r | None :: r => somes r end.

(** Calls made one after the other, each reading exactly its part of the
    script, with their results. *)
Inductive sequential : list (pc * list N) -> script -> list (res unit) -> Prop :=
| Q_nil : sequential [] [] []
| Q_next cs t rs p b t1 r es : sequential cs t rs -> p <> PIdle -> (forall x, prog p b (t1 ++ x) = (es, x, r)) ->
    sequential (cs ++ [(p, b)]) (t ++ t1) (rs ++ [r]).

(** The call in progress, if any, and what it has read. *)
Definition in_progress (p : pc) (read : list msg) (pend : list (pc * list N)) : Prop :=
  (p = PIdle /\ pend = [] /\ read = []) \/ (p <> PIdle /\ exists b, pend = [(p, b)] /\ Forall (fun m => react p m = None) read).
