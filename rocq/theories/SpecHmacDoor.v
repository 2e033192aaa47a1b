(** * A gateway with the HMAC lock

    The gateway of SpecHouse behind the door of docs/original/hmac.md, which says
    what the frames look like and when the connection ends.  How the gateway
    checks a proof and computes its own is left open: any predicate, any function. *)
From Coq Require Import String List NArith ZArith Bool Lia.
From Verif Require Import PyStr Tags Messages SpecMsg SpecTag AuthHmac IO SpecClient SpecHouse SpecVisit.
Import ListNotations.
Open Scope N_scope.
Open Scope list_scope.

(** The algorithm declared, the random bytes Ra, the answers taken for a proof,
    and the bytes of the gateway's own proof for the answer it took. *)
Record hlock := { hl_alg : alg; hl_ra : list N; hl_takes : list N -> Prop; hl_proof : list N -> list N }.
(** The digests are bytes, and not empty. *)
Definition hlock_ok (l : hlock) : Prop :=
  bytes (hl_ra l) /\ hl_ra l <> [] /\ forall b, bytes (hl_proof l b) /\ hl_proof l b <> [].

(** Connected; algorithm declared; challenged; proof sent; let in; refused. *)
Inductive hstage := HWaiting | HDeclared | HChallenged | HProved | HInside | HRefused.

(** A refused client finds the connection closed or is told NACK first. *)
Definition turned_away (ans : list (list N)) : Prop := ans = [] \/ ans = [SpecHouse.frame_nack].

Inductive hdoor (l : hlock) : hstage -> list N -> hstage -> list (list N) -> Prop :=
| Hd_declare b : session_frame b -> hdoor l HWaiting b HDeclared [wire [lit "98"; alg_name (hl_alg l)]]
| Hd_challenge : hdoor l HDeclared SpecHouse.frame_ack HChallenged [wire [35 :: pairs (hl_ra l)]]
| Hd_unable b : b <> SpecHouse.frame_ack -> hdoor l HDeclared b HRefused []
| Hd_taken b : hl_takes l b -> hdoor l HChallenged b HProved [wire [35 :: pairs (hl_proof l b)]]
| Hd_wrong b ans : ~ hl_takes l b -> turned_away ans -> hdoor l HChallenged b HRefused ans
| Hd_confirmed : hdoor l HProved SpecHouse.frame_ack HInside []
| Hd_unconfirmed b : b <> SpecHouse.frame_ack -> hdoor l HProved b HRefused []
| Hd_deaf b : hdoor l HRefused b HRefused [].

(** As [visit] in SpecVisit. *)
Inductive hvisit (l : hlock) (gw : gateway) {Y} : hstage -> house -> list (list N) -> list (ev Y) ->
  hstage -> house -> list (list N) -> list (list N) -> Prop :=
| Hv_nil st h out : hvisit l gw st h out [] st h out []
| Hv_door st h out b st1 ans es st' h' out' evs : hdoor l st b st1 ans -> hvisit l gw st1 h (out ++ ans) es st' h' out' evs ->
    hvisit l gw st h out (Sent b :: es) st' h' out' evs
| Hv_order h out b h1 ans ev1 es st' h' out' evs : serves gw h b h1 ans ev1 -> hvisit l gw HInside h1 (out ++ ans) es st' h' out' evs ->
    hvisit l gw HInside h out (Sent b :: es) st' h' out' (ev1 ++ evs)
| Hv_got st h f out m es st' h' out' evs : parse_message f = Ok m -> hvisit l gw st h out es st' h' out' evs ->
    hvisit l gw st h (f :: out) (Got m :: es) st' h' out' evs
| Hv_yield st h out y es st' h' out' evs : hvisit l gw st h out es st' h' out' evs -> hvisit l gw st h out (Yielded y :: es) st' h' out' evs.
