(** * A client used while its start() is under way: pyown/client/base.py:208-241,
      pyown/items/base.py:103-136, 200-213

    From the moment start() has its connection [_protocol] is set, and the calls
    of other tasks go through: send_message and read_message ask only for it
    (base.py:221-224, 236-240).  Here other tasks use the client with programs of
    their own, next to the start() calls of Starts.v. *)
From Coq Require Import String List NArith ZArith Bool Lia.
From Verif Require Import PyStr Tags Messages AuthOpen AuthHmac IO Client Items Queue Starts.
Import ListNotations.
Open Scope N_scope.
Open Scope list_scope.

(** items/base.py:200-213 send_normal_message, as a program that can be interrupted. *)
Definition normal_prog (it : item) (what : str) : prog :=
  plift (create_normal_message it what) (fun m => PSend m (PRead (fun resp =>
  if mtype_eqb (msg_type resp) T_ACK then PEnd (Ok tt) else PEnd (Err ResponseError)))).

(** What happens to the start() calls and the connections; or a task begins to
    use the client. *)
Inductive eact := EStarts (a : sact) | EUse (t : nat) (p : prog).

Section Run.
Context (C : crypto) (ty : session) (pw : str) (rnd : nat -> list N).

Definition estep (s : starts) (a : eact) : option starts :=
  match a with
  | EStarts a => sstep C ty pw rnd s a
  | EUse t p =>
      match nth_error (s_calls s) t with
      | Some TNew => Some (set_call s t (go t (s_current s) p (s_conns s)))
      | _ => None
      end
  end.

Fixpoint erun (s : starts) (l : list eact) : option starts :=
  match l with
  | [] => Some s
  | a :: l => match estep s a with Some s' => erun s' l | None => None end
  end.
End Run.
