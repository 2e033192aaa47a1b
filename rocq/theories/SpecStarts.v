(** * What C136 says, without the model's functions *)
From Coq Require Import String List NArith ZArith Bool Lia.
From Verif Require Import PyStr Tags Messages IO Client Starts.
Import ListNotations.
Open Scope N_scope.
Open Scope list_scope.

(** Nobody but task [t] uses the client: no other start() gets its connection or
    goes on, and close() is not called. *)
Definition quiet (t : nat) (a : sact) : Prop :=
  match a with SConnect _ | SClose => False | SWake j => j = t | _ => True end.

(** The messages that arrive on connection [i] until it ends. *)
Fixpoint arrived (i : nat) (l : list sact) : list msg :=
  match l with
  | [] => []
  | SArrive j ms :: l => (if Nat.eqb j i then ms else []) ++ arrived i l
  | SDrop j :: l => if Nat.eqb j i then [] else arrived i l
  | _ :: l => arrived i l
  end.

Definition connects (a : sact) : bool := match a with SConnect _ => true | _ => false end.

(** How many start() calls returned normally. *)
Definition returned (x : stask) : bool := match x with TEnded (Ok _) => true | _ => false end.

(** A gateway without password: it greets with ACK, accepts the first frame, the
    request for a session, and refuses all others: inside a session they are no
    commands. *)
Definition door (given : nat) : list msg := match given with O => [MAck] | S n => MAck :: MAck :: repeat MNack n end.
Definition at_door (s : starts) : Prop :=
  forall i c, nth_error (s_conns s) i = Some c -> exists later, door (length (n_given c)) = map snd (n_taken c) ++ n_unread c ++ later.

(** The messages that task [t] took, and the frames that it wrote, over all
    connections from the oldest to the newest.  (A task never goes back to an
    older connection, so this is the order in time.) *)
Definition own {X} (t : nat) (l : list (nat * X)) : list X := map snd (filter (fun p => Nat.eqb (fst p) t) l).
Definition taken_by (t : nat) (s : starts) : list msg := flat_map (fun c => own t (n_taken c)) (s_conns s).
Definition given_by (t : nat) (s : starts) : list (list N) := flat_map (fun c => own t (n_given c)) (s_conns s).
