(** * What is expected of callbacks that stop at the first command that fails *)
From Coq Require Import String List NArith ZArith Bool Lia.
From Verif Require Import PyStr Tags Messages SpecMsg Items Lighting Dispatch SpecDispatch SpecTag SpecHouse Reflex Failing.
Import ListNotations.
Open Scope N_scope.
Open Scope list_scope.

(** Somebody in the house hears the call. *)
Definition heard (gw : gateway) (h : house) (c : call) : bool := existsb (aimed gw (call_who c) (it_where (call_item c))) h.

(** The calls up to the first one that nobody hears. *)
Fixpoint until_unheard (gw : gateway) (h : house) (cs : list call) : list call :=
  match cs with [] => [] | c :: cs => c :: if heard gw h c then until_unheard gw h cs else [] end.
Definition cut_short (gw : gateway) (h : house) (body : reflex) : reflex := fun f k args => until_unheard gw h (body f k args).

(** A callback with these calls comes to one that nobody hears. *)
Definition fails (gw : gateway) (h : house) (cs : list call) : bool := existsb (fun c => negb (heard gw h c)) cs.

(** The tasks of the callbacks' calls that nobody heard. *)
Definition unheard_of (gw : gateway) (h : house) (l : list (option nat * call)) : list nat :=
  concat (map (fun x => match x with (Some n, c) => if heard gw h c then [] else [n] | _ => [] end) l).

Inductive fsurely (gw : gateway) (v : N) (r : registry) (body : reflex) (P : fworld -> Prop) (w : world) (es : list nat) : Prop :=
| FNow : P (w, es) -> fsurely gw v r body P w es
| FLater : (exists y, fstep gw v r body w es Act y) -> (forall w' es', fstep gw v r body w es Act (w', es') -> fsurely gw v r body P w' es') ->
    fsurely gw v r body P w es.
