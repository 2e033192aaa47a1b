(** * Logins against a gateway that reacts

    A gateway decides what to send from the frames it has received so far. *)
From Coq Require Import String List NArith ZArith Bool Lia.
From Verif Require Import PyStr Tags Messages SpecMsg SpecTag SpecOpen AuthHmac IO SpecClient.
Import ListNotations.
Open Scope N_scope.
Open Scope list_scope.

(** Every message the client got is one that the gateway sends after what the
    client had written by then. *)
Definition served {Y} (G : list (list N) -> msg -> Prop) (es : list (ev Y)) : Prop :=
  forall pre m post, es = pre ++ Got m :: post -> G (sents pre) m.

(** The published OPEN login: greeting, nonce, and then the answer is compared
    with the gateway's own transform of its password [q]. *)
Inductive open_gateway (q : Z) (nonce : str) : list (list N) -> msg -> Prop :=
| OG_hello : open_gateway q nonce [] MAck
| OG_nonce f : open_gateway q nonce [f] (MGeneric [35 :: nonce])
| OG_accept f s : numeral (Z.to_N (value (transform nonce (bits q)))) s -> open_gateway q nonce [f; wire [35 :: s]] MAck
| OG_reject f a : (forall s, numeral (Z.to_N (value (transform nonce (bits q)))) s -> a <> wire [35 :: s]) ->
    open_gateway q nonce [f; a] MNack.

(** Two different texts with the same MAC. *)
Definition collide (C : crypto) (a : alg) (k d1 d2 : list N) : Prop := d1 <> d2 /\ mac C a k d1 = mac C a k d2.
