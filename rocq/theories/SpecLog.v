(** * Specification vocabulary for the log *)
From Coq Require Import String List NArith ZArith Bool Lia.
From Verif Require Import PyStr Tags Messages Log.
Import ListNotations.
Open Scope N_scope.
Open Scope list_scope.

(** The record is of the protocol's logger and begins with the text. *)
Definition begins_with (t : str) (r : record) : bool :=
  match r_logger r with L_protocol => startswith t (r_text r) | _ => false end.

Definition told_received (r : record) : bool := begins_with (lit "Received messages: ") r.
Definition told_sent (r : record) : bool := begins_with (lit "Sent message: ") r.

(** The messages whose text can be encoded, in the order in which they were
    given to send_message. *)
Fixpoint sends (es : list nev) : list msg :=
  match es with
  | [] => []
  | NSend m :: r => if forallb (fun c => c <? 128) (msg_str m) then m :: sends r else sends r
  | _ :: r => sends r
  end.

(** The tags hold no comma. *)
Definition comma_free (m : msg) : Prop := Forall (fun t => ~ In 44 t) (msg_tags m) /\ msg_tags m <> [].

(** [t] occurs in [s]. *)
Definition occurs (t s : str) : Prop := exists u v, s = u ++ t ++ v.
