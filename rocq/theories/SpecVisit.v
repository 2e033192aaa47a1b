(** * A whole visit: login, session, close

    The gateway of SpecHouse with its door: it greets, asks for the password if
    it has one (the OPEN algorithm) and serves orders only to those it let in. *)
From Coq Require Import String List NArith ZArith Bool Lia.
From Verif Require Import PyStr Tags Messages SpecMsg SpecTag SpecOpen IO SpecHouse.
Import ListNotations.
Open Scope N_scope.
Open Scope list_scope.

(** No password, or the password [q] and the nonce drawn for this connection. *)
Inductive lock := NoLock | OpenLock (q : Z) (nonce : str).
(** Connected; challenged; let in; refused. *)
Inductive stage := Waiting | Challenged | Inside | Refused.

(** The frames that ask for a session: *99*0##, *99*1## and *99*9##. *)
Definition session_frame (b : list N) : Prop := In b (map lit ["*99*0##"; "*99*1##"; "*99*9##"]%string).
(** The answer to the challenge. *)
Definition right_answer (q : Z) (nonce : str) (b : list N) : Prop :=
  exists s, numeral (Z.to_N (value (transform nonce (bits q)))) s /\ b = wire [35 :: s].

(** [door l st b st' answer]: the door takes the frame [b]. *)
Inductive door : lock -> stage -> list N -> stage -> list (list N) -> Prop :=
| Dr_free b : session_frame b -> door NoLock Waiting b Inside [frame_ack]
| Dr_challenge q nonce b : session_frame b -> door (OpenLock q nonce) Waiting b Challenged [wire [35 :: nonce]]
| Dr_right q nonce b : right_answer q nonce b -> door (OpenLock q nonce) Challenged b Inside [frame_ack]
| Dr_wrong q nonce b : ~ right_answer q nonce b -> door (OpenLock q nonce) Challenged b Refused [frame_nack]
| Dr_deaf l b : door l Refused b Refused [].

(** [visit l gw st h out es st' h' out' evs]: what the gateway does while the
    client does [es]; [out] are the frames on their way to the client. *)
Inductive visit (l : lock) (gw : gateway) {Y} : stage -> house -> list (list N) -> list (ev Y) ->
  stage -> house -> list (list N) -> list (list N) -> Prop :=
| Vs_nil st h out : visit l gw st h out [] st h out []
| Vs_door st h out b st1 ans es st' h' out' evs : door l st b st1 ans -> visit l gw st1 h (out ++ ans) es st' h' out' evs ->
    visit l gw st h out (Sent b :: es) st' h' out' evs
| Vs_order h out b h1 ans ev1 es st' h' out' evs : serves gw h b h1 ans ev1 -> visit l gw Inside h1 (out ++ ans) es st' h' out' evs ->
    visit l gw Inside h out (Sent b :: es) st' h' out' (ev1 ++ evs)
| Vs_got st h f out m es st' h' out' evs : parse_message f = Ok m -> visit l gw st h out es st' h' out' evs ->
    visit l gw st h (f :: out) (Got m :: es) st' h' out' evs
| Vs_yield st h out y es st' h' out' evs : visit l gw st h out es st' h' out' evs -> visit l gw st h out (Yielded y :: es) st' h' out' evs.

(** The password opens the lock: nothing to open, or the number is the
    gateway's (the algorithm works on 32 bits). *)
Definition opens (l : lock) (pw : str) : Prop :=
  match l with NoLock => True | OpenLock q _ => exists p, py_int pw = Ok p /\ (p mod 2 ^ 32 = q mod 2 ^ 32)%Z end.
(** The nonce is a text of digits. *)
Definition lock_ok (l : lock) : Prop := match l with NoLock => True | OpenLock _ nonce => digits nonce /\ nonce <> [] end.
