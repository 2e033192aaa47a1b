(** * Specification vocabulary for requests whose replies are not all taken

    Nothing here mentions the reply loop of Items.v. *)
From Coq Require Import String List NArith ZArith Bool Lia.
From Verif Require Import PyStr Tags Messages SpecMsg IO SpecItem.
Import ListNotations.
Open Scope list_scope.

(** The two kinds of request, and the replies each of them is about. *)
Inductive query := QStatus | QDim (dim : str).
Definition query_ok (q : query) : Prop := match q with QStatus => True | QDim d => tagtext d end.
Definition wants (q : query) : msg -> Prop := match q with QStatus => normal | QDim _ => dimres end.
Definition same_kind (q q' : query) : Prop :=
  match q, q' with QStatus, QStatus | QDim _, QDim _ => True | _, _ => False end.

(** The gateway's answer to a request: some replies and an ACK. *)
Definition reply (rs : list msg) : script := map Some rs ++ [Some MAck].
Definition replies_to (rss : list (list msg)) : script := concat (map reply rss).
