(** * Specification vocabulary for the byte stream *)
From Coq Require Import String List NArith ZArith Bool Lia.
From Verif Require Import PyStr Tags Messages SpecMsg Protocol.
Import ListNotations.
Open Scope N_scope.
Open Scope list_scope.

Definition ends_hash (t : str) : Prop := exists u, t = u ++ [35].

(** The text of a frame without its terminator, readable without look-ahead:
    it contains no "##" and does not end with '#'. *)
Definition clean (p : str) : Prop := ~ has_hh p /\ ~ ends_hash p.

(** A message whose frame can be told apart in a stream: well formed and with
    exactly "##", not "###", at its end. *)
Definition streamable (m : msg) : Prop :=
  wellformed m /\ ~ (exists u, msg_str m = u ++ [35; 35; 35]).

(** The bytes of a packet: each message preceded by some white space, and some
    white space at the end. *)
Definition packet_text (l : list (str * msg)) (tail : str) : str :=
  concat (map (fun p => fst p ++ msg_str (snd p)) l) ++ tail.

Definition ascii_white (w : str) : Prop := white w /\ Forall (fun c => c < 128) w.

(** Frames [p1##p2##...pn##]. *)
Definition frames (ps : list str) : str := concat (map (fun p => p ++ [35; 35]) ps).

(** Cutting a text at the leftmost terminators, without overlaps. *)
Inductive cut : str -> list str -> Prop :=
| cut_end s : ~ has_hh s -> cut s [s]
| cut_step p s ps : ~ has_hh (p ++ [35]) -> cut s ps -> cut (p ++ [35; 35] ++ s) (p :: ps).
