(** * What C137 says, without the model's functions *)
From Coq Require Import String List NArith ZArith Bool Lia.
From Verif Require Import PyStr Tags Messages IO Client Starts Early.
Import ListNotations.
Open Scope N_scope.
Open Scope list_scope.

(** A gateway without password: it greets with ACK; it accepts the request for a
    session; before that it refuses every other frame, afterwards it accepts
    them. *)
Definition asks (b : list N) : bool := str_eqb b (lit "*99*9##") || str_eqb b (lit "*99*0##").
Fixpoint replies_to (inside : bool) (l : list (list N)) : list msg :=
  match l with
  | [] => []
  | b :: l => if inside || asks b then MAck :: replies_to true l else MNack :: replies_to false l
  end.
Definition keeper (s : starts) : Prop :=
  forall i c, nth_error (s_conns s) i = Some c ->
    exists later, MAck :: replies_to false (map snd (n_given c)) = map snd (n_taken c) ++ n_unread c ++ later.

(** The task begins [p] in the history, or calls start(). *)
Definition begins (t : nat) (l : list eact) (start p : prog) : Prop :=
  In (EUse t p) l \/ (In (EStarts (SConnect t)) l /\ p = start).
