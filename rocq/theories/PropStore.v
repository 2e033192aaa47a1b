(** * Properties C62 and C82: messages and shared lists *)
From Coq Require Import String List NArith ZArith Bool Lia.
From Verif Require Import PyStr Tags Messages Store StoreThms.
Import ListNotations.
Open Scope N_scope.
Open Scope list_scope.

(** A parsed message reads the same for ever: whatever happened before and
    whatever is done afterwards, with any list in reach. *)
Theorem C62_parsed : forall before text m after, parse_message text = Ok m ->
  view (run (step (run empty_store before) (Parse text)) after) (length (st_msgs (run empty_store before))) = Some m.
Proof. exact parsed_stable. Qed.
Print Assumptions C62_parsed.

(** tags of a generic message is a list nobody had before, with the tags of the message. *)
Theorem C62_tags_copy : forall before i l, let s := run empty_store before in
  view s i = Some (MGeneric l) ->
  let s' := step s (Tags i) in
  In (st_next s) (st_known s') /\ ~ In (st_next s) (st_known s) /\ st_cells s' (st_next s) = l /\ forall j, view s' j = view s j.
Proof.
  intros before i l s V s'. pose proof (handed before i l V) as H. destruct (tags_copy before i H) as (A & B & C). subst s s'. cbv zeta in *.
  split; [exact H|]. split; [exact C|]. split; [congruence|exact B].
Qed.
Print Assumptions C62_tags_copy.

(** No modification of that list, at any time, shows in a message that existed
    when tags was called. *)
Theorem C62_tags_independent : forall before i l after j, let s := run empty_store before in
  view s i = Some (MGeneric l) -> (j < length (st_msgs s))%nat ->
  view (run (step s (Tags i)) after) j = view (run (step s (Tags i)) (without (st_next s) after)) j.
Proof. intros before i l after j s V J. apply tags_independent; [exact (handed before i l V)|exact J]. Qed.
Print Assumptions C62_tags_independent.

(** ** C82 Refuted for the constructor: the message keeps the caller's list and shows
    every later modification. *)
Theorem C82_constructor_refuted : forall before a after, let s := run empty_store before in
  In a (st_known s) ->
  view (run (step s (Build a)) after) (length (st_msgs s)) = Some (MGeneric (st_cells (run (step s (Build a)) after) a)).
Proof. intros before a after s K. exact (built_follows before a after K). Qed.
Print Assumptions C82_constructor_refuted.

Example C62_ex :
  let s := run empty_store [Parse (lit "*99##"); NewList [lit "1"; lit "1"; lit "12"]; Build 1; Tags 0] in
  view s 0 = Some (MGeneric [lit "99"]) /\
  view (run s [Mutate 2 [lit "5"]; Mutate 0 [lit "7"]]) 0 = Some (MGeneric [lit "99"]) /\
  option_map msg_str (view s 1) = Some (lit "*1*1*12##") /\
  option_map msg_str (view (run s [Mutate 1 [lit "1"; lit "0"; lit "12"]]) 1) = Some (lit "*1*0*12##").
Proof. vm_compute. repeat split. Qed.

Example C82_ex : exists before after a, let s := run empty_store before in
  In a (st_known s) /\
  option_map msg_str (view (step s (Build a)) 0) = Some (lit "*1*1*12##") /\
  option_map msg_str (view (run (step s (Build a)) after) 0) = Some (lit "*1*0*12##").
Proof.
  exists [NewList [lit "1"; lit "1"; lit "12"]], [Mutate 0 [lit "1"; lit "0"; lit "12"]], 0%nat. vm_compute. repeat split. left. reflexivity.
Qed.
