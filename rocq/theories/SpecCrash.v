(** * A connection that breaks

    What may become of a sequence of calls when the connection, or the gateway
    behind it, stops at some point: the calls before that point have happened, the
    call during which it stopped is known only in part, the others have not
    happened.  Nothing here mentions the programs of the library. *)
From Coq Require Import String List NArith ZArith Bool Lia.
From Verif Require Import PyStr Tags Messages SpecMsg IO SpecHouse.
Import ListNotations.
Open Scope N_scope.
Open Scope list_scope.

(** [unfinished gw h c h' obs]: the connection broke during the call [c].  Its
    order was lost; or it was obeyed and nothing came back; or it was obeyed and
    the first [k] of the points asked have reported. *)
Inductive unfinished (gw : gateway) (h : house) (c : call) : house -> list (str * seen) -> Prop :=
| Un_lost : unfinished gw h c h []
| Un_obeyed o h' ans evs : stands_for c o -> asks c = false -> obeys gw h o h' ans evs -> unfinished gw h c h' []
| Un_told o yss k : stands_for c o -> asks c = true -> existsb (at_whom gw o) h = true ->
    Forall2 (fun p ys => shows p c ys) (filter (at_whom gw o) h) yss -> unfinished gw h c h (concat (firstn k yss)).

(** The calls that are made when the connection is gone. *)
Definition in_vain (cs : list call) : list (list (str * seen) * res unit) := map (fun _ => ([], Err TimeoutError)) cs.

(** [cut_story gw h cs log alive h']. *)
Inductive cut_story (gw : gateway) (h : house) (cs : list call) : list (list (str * seen) * res unit) -> bool -> house -> Prop :=
| Cut_not log evs h' : story gw h cs log evs h' -> cut_story gw h cs log true h'
| Cut_between cs1 cs2 log evs h' : cs = cs1 ++ cs2 -> story gw h cs1 log evs h' -> cut_story gw h cs (log ++ in_vain cs2) false h'
| Cut_during cs1 c cs2 log evs h1 obs h' : cs = cs1 ++ c :: cs2 -> story gw h cs1 log evs h1 -> unfinished gw h1 c h' obs ->
    cut_story gw h cs (log ++ (obs, Err TimeoutError) :: in_vain cs2) false h'.

(** The number of calls that ended with a verdict: all but those that timed out. *)
Definition verdicts (log : list (list (str * seen) * res unit)) : nat :=
  length (filter (fun x => match snd x with Err TimeoutError => false | _ => true end) log).

(** Points that cannot be told apart. *)
Definition same_point (p q : point) : Prop :=
  p_who p = p_who q /\ p_where p = p_where q /\ p_state p = p_state q /\ forall d, p_dims p d = p_dims q d.
Definition same_house : house -> house -> Prop := Forall2 same_point.

(** Orders that may be given twice: commands of which a second one changes
    nothing.  Writings and requests always may. *)
Definition repeatable (gw : gateway) (o : order) : Prop :=
  match o with Command w what _ => forall st, react gw w what (react gw w what st) = react gw w what st | _ => True end.
