(** * Properties C30 to C37 and C66: authentication and the client *)
From Coq Require Import String List NArith ZArith Bool Lia.
From Verif Require Import PyStr Tags Messages SpecMsg AuthOpen AuthHmac IO Client SpecClient HmacThms HandshakeThms HandshakeThms2.
Import ListNotations.
Open Scope N_scope.
Open Scope list_scope.

Local Notation start := (@Client.start Empty_set).

(** A toy hash, for the examples; theorems hold for every [sane] one. *)
Definition toy : crypto := {| hash := fun _ d => [171; N.of_nat (List.length d) mod 256]; mac := fun _ _ _ => [3; 9] |}.
Lemma toy_sane : sane toy.
Proof.
  intros a d. split.
  - apply Forall_cons; [lia|]. apply Forall_cons; [apply N.mod_lt; lia|apply Forall_nil].
  - intros k. repeat constructor.
Qed.

(** ** C30 Hex/decimal-pair conversion is lossless *)

Theorem C30_round_trip : forall s d, hex_to_digits s = Ok d -> digits_to_hex d = Ok (map lower s).
Proof. exact round_trip. Qed.
Print Assumptions C30_round_trip.

Theorem C30_shape : forall s d,
  hex_to_digits s = Ok d -> digits d /\ List.length d = (2 * List.length s)%nat.
Proof. exact hex_to_digits_shape. Qed.
Print Assumptions C30_shape.

(** Exactly the strings with a character that is not a hex digit are refused. *)
Theorem C30_raises : forall s,
  (exists c, In c s /\ forall v, ~ hexval c v) <-> hex_to_digits s = Err ValueError.
Proof. exact hex_to_digits_err. Qed.
Print Assumptions C30_raises.

Theorem C30_odd : forall d, digits d -> Nat.Odd (List.length d) -> digits_to_hex d = Err IndexError.
Proof. exact digits_to_hex_odd. Qed.
Print Assumptions C30_odd.

(** Anything but a digit, wherever it stands, is a ValueError; nothing else is. *)
Theorem C30_not_digits : forall d, Forall (fun c => c < 128) d -> (digits_to_hex d = Err ValueError <-> ~ digits d).
Proof. exact not_digits. Qed.
Print Assumptions C30_not_digits.

(** Any digits, pair by pair: the hexadecimal numeral of each number, which has
    two digits from 16 on. *)
Theorem C30_pairs : forall ps, Forall (fun p => fst p < 10 /\ snd p < 10) ps -> exists ts,
  digits_to_hex (concat (map (fun p => [48 + fst p; 48 + snd p]) ps)) = Ok (concat ts) /\
  Forall2 (fun p t => hex_numeral (10 * fst p + snd p) t) ps ts.
Proof. exact digits_to_hex_any. Qed.
Print Assumptions C30_pairs.

(** So a pair from 16 on reads as the two pairs of its hexadecimal digits. *)
Theorem C30_ambiguous : forall v, 16 <= v -> v < 100 ->
  digits_to_hex [48 + v / 10; 48 + v mod 10] = digits_to_hex (two (v / 16) ++ two (v mod 16)) /\
  is_ok (digits_to_hex [48 + v / 10; 48 + v mod 10]) = true.
Proof. exact digits_to_hex_ambiguous. Qed.
Print Assumptions C30_ambiguous.

(** On a digest it gives the documented four characters per byte. *)
Theorem C30_documented : forall l, bytes l -> hex_to_digits (hexs l) = Ok (pairs l).
Proof. exact hexs_pairs. Qed.
Print Assumptions C30_documented.

Example C30_ex :
  hex_to_digits (lit "fF0a") = Ok (lit "15150010") /\ digits_to_hex (lit "15150010") = Ok (lit "ff0a") /\
  hex_to_digits (lit "0g") = Err ValueError /\ digits_to_hex (lit "151") = Err IndexError /\
  pairs [255; 10; 1] = lit "151500100001" /\ digits_to_hex (lit "99") = Ok (lit "63") /\ digits_to_hex (lit "0603") = Ok (lit "63").
Proof. repeat split. Qed.

(** ** C31 The client never accepts an unproved HMAC server *)

Theorem C31_proved : forall C c pw rnd n more s c' es rest,
  sane C ->
  start C c pw rnd true (Some MAck :: Some (MGeneric ([57; 56] :: n :: more)) :: s) = (c', (es, rest, Ok tt)) ->
  exists a mk k m2 p,
    n = alg_name a /\ s = Some mk :: Some m2 :: rest /\ first_tag mk k /\ m2 <> MNack /\ first_tag m2 p /\
    proof_bytes p (server_proof C pw rnd a k) /\
    es = auth_to C (cl_session c) pw rnd a more mk k ++ [Got m2; Sent frame_ack].
Proof. exact hmac_proved. Qed.
Print Assumptions C31_proved.

(** The hypotheses can be met: for a digest made of small bytes there is a login. *)
Example C31_ex :
  res_of (snd (start toy (new_client Command) (lit "12345") [1; 2] true
    [Some MAck; Some (MGeneric [lit "98"; lit "2"]); Some (MGeneric [lit "#0102"]); Some (MGeneric [lit "39"])])) = Ok tt /\
  res_of (snd (start toy (new_client Command) (lit "12345") [1; 2] true
    [Some MAck; Some (MGeneric [lit "98"; lit "2"]); Some (MGeneric [lit "#0102"]); Some (MGeneric [lit "38"])])) = Err InvalidAuthentication /\
  res_of (snd (start toy (new_client Command) (lit "12345") [1; 2] true
    [Some MAck; Some (MGeneric [lit "98"; lit "2"]); Some (MGeneric [lit "#0102"]); Some MNack])) = Err InvalidAuthentication.
Proof. repeat split. Qed.

(** ** C32 HMAC login works against a compliant gateway (refuted) *)

(** Whatever key and proof a gateway sends in the documented frames, start()
    raises ValueError; and its own frame lacks the documented '#'. *)
Theorem C32_documented_refuted : forall C c pw rnd a ra proof s c' es rest r,
  sane C -> encodable pw ->
  start C c pw rnd true
    (Some MAck :: Some (MGeneric [[57; 56]; alg_name a]) :: Some (MGeneric [35 :: ra]) :: Some (MGeneric [35 :: proof]) :: s)
    = (c', (es, rest, r)) ->
  r = Err ValueError /\ rest = s /\
  sents es = [frame_session (cl_session c); frame_ack; frame_auth C pw rnd a (35 :: ra)].
Proof. exact hmac_documented. Qed.
Print Assumptions C32_documented_refuted.

(** Leaving out the '#' does not help: a proof in decimal pairs is never accepted. *)
Theorem C32_pairs_refuted : forall C c pw rnd a more mk k d s c' es rest r,
  sane C -> first_tag mk k -> d <> [] -> List.length (server_proof C pw rnd a k) = List.length d ->
  start C c pw rnd true
    (Some MAck :: Some (MGeneric ([57; 56] :: alg_name a :: more)) :: Some mk :: Some (MGeneric [pairs d]) :: s)
    = (c', (es, rest, r)) ->
  r <> Ok tt.
Proof. exact hmac_plain. Qed.
Print Assumptions C32_pairs_refuted.

(** No gateway at all can log the client in unless every byte of the proof
    happens to be below ten. *)
Theorem C32_any_gateway_refuted : forall C c pw rnd n more s c' es rest,
  sane C -> (forall m, In (Some m) s -> built m) ->
  start C c pw rnd true (Some MAck :: Some (MGeneric ([57; 56] :: n :: more)) :: s) = (c', (es, rest, Ok tt)) ->
  exists a mk k, n = alg_name a /\ hd_error s = Some (Some mk) /\ first_tag mk k /\
    Forall (fun x => x <= 9) (server_proof C pw rnd a k).
Proof. exact hmac_wire. Qed.
Print Assumptions C32_any_gateway_refuted.

Example C32_ex :
  res_of (snd (start toy (new_client Command) (lit "12345") [1; 2] true
    [Some MAck; Some (MGeneric [lit "98"; lit "2"]); Some (MGeneric [lit "#0102"]); Some (MGeneric [lit "#00030009"])])) = Err ValueError /\
  res_of (snd (start toy (new_client Command) (lit "12345") [1; 2] true
    [Some MAck; Some (MGeneric [lit "98"; lit "2"]); Some (MGeneric [lit "#0102"]); Some (MGeneric [pairs [3; 9]])])) = Err InvalidAuthentication.
Proof. repeat split. Qed.

(** ** C33 start() succeeds only through a complete handshake *)

Theorem C33_success : forall C c pw rnd s c' es rest,
  sane C ->
  (start C c pw rnd true s = (c', (es, rest, Ok tt)) <->
   c' = {| cl_session := cl_session c; cl_proto := true |} /\
   logged_in C (cl_session c) pw rnd es /\ s = map Some (gots es) ++ rest).
Proof. exact start_ok_iff. Qed.
Print Assumptions C33_success.

(** Every outcome, with its exception and everything read and written. *)
Theorem C33_outcomes : forall C c pw rnd s c' es rest r,
  sane C ->
  (start C c pw rnd true s = (c', (es, rest, r)) <->
   c' = {| cl_session := cl_session c; cl_proto := true |} /\
   outcome C (cl_session c) pw rnd es r /\ follows s es r rest).
Proof. exact start_iff. Qed.
Print Assumptions C33_outcomes.

Example C33_ex :
  start toy (new_client Event) (lit "12345") [] true [Some MAck; Some (MGeneric [lit "#603356072"]); Some MAck; Some MNack] =
  ({| cl_session := Event; cl_proto := true |},
   ([Got MAck; Sent (lit "*99*1##"); Got (MGeneric [lit "#603356072"]); Sent (lit "*#25280520##"); Got MAck], [Some MNack], Ok tt)) /\
  logged_in toy Event (lit "12345") [] [Got MAck; Sent (lit "*99*1##"); Got (MGeneric [lit "#603356072"]); Sent (lit "*#25280520##"); Got MAck].
Proof.
  split; [reflexivity|]. apply (L_open toy Event (lit "12345") [] (lit "#603356072") (lit "25280520")). reflexivity.
Qed.

(** ** C34 The client writes nothing before the gateway's ACK *)

Theorem C34_order : forall C c pw rnd s c' es rest r,
  sane C -> start C c pw rnd true s = (c', (es, rest, r)) ->
  es = [] \/ (exists m, m <> MAck /\ es = [Got m]) \/
  es = [Got MAck; Sent (frame_session (cl_session c))] \/
  exists m es', es = Got MAck :: Sent (frame_session (cl_session c)) :: Got m :: es' /\
    (es' <> [] -> (exists nonce, m = MGeneric [nonce]) \/ (exists n more, m = MGeneric ([57; 56] :: n :: more))).
Proof. exact writes_after_ack. Qed.
Print Assumptions C34_order.

(** Without a challenge nothing at all depends on the password. *)
Theorem C34_password : forall C c pw1 pw2 rnd1 rnd2 s,
  sane C -> (forall o, nth_error s 1 = Some o -> ~ challenge o) ->
  start C c pw1 rnd1 true s = start C c pw2 rnd2 true s.
Proof. exact no_challenge. Qed.
Print Assumptions C34_password.

Example C34_ex :
  (forall o, nth_error [Some MAck; Some MNack] 1 = Some o -> ~ challenge o) /\
  evs_of (snd (start toy (new_client Command) (lit "1") [] true [Some MAck; Some MNack])) =
    [Got MAck; Sent (lit "*99*9##"); Got MNack] /\
  evs_of (snd (start toy (new_client Command) (lit "1") [] true [Some MNack; Some MAck])) = [Got MNack].
Proof. split; [intros o [= <-] [l [[=] _]]|]. split; reflexivity. Qed.

(** ** C35 Unsupported HMAC algorithms are refused *)

Theorem C35_nack : forall C c pw rnd n more s,
  sane C -> n <> [49] -> n <> [50] ->
  start C c pw rnd true (Some MAck :: Some (MGeneric ([57; 56] :: n :: more)) :: s) =
  ({| cl_session := cl_session c; cl_proto := true |},
   ([Got MAck; Sent (frame_session (cl_session c)); Got (MGeneric ([57; 56] :: n :: more)); Sent frame_nack], s,
    Err (A:=unit) InvalidAuthentication) : list (ev Empty_set) * script * res unit).
Proof. exact unsupported_alg. Qed.
Print Assumptions C35_nack.

Example C35_ex :
  sents (evs_of (snd (start toy (new_client Command) (lit "1") [] true
    [Some MAck; Some (MGeneric [lit "98"; lit "3"]); Some MAck]))) = [lit "*99*9##"; lit "*#*0##"].
Proof. reflexivity. Qed.

(** ** C36 Event sessions never send commands *)

Theorem C36_refused : forall C h ks m es r,
  cl_session (h_client h) = Event ->
  In (CSend false m, (es, r)) (snd (history C h ks)) -> es = [] /\ r = Err InvalidSession.
Proof. exact event_never_sends. Qed.
Print Assumptions C36_refused.

(** Everything an event session ever writes comes from start() or from an
    explicitly forced send. *)
Theorem C36_writes : forall C h ks k es r b,
  cl_session (h_client h) = Event -> In (k, (es, r)) (snd (history C h ks)) -> In (Sent b) es ->
  (exists ok pw rnd s, k = CStart ok pw rnd s) \/ (exists m, k = CSend true m /\ msg_bytes m = Ok b).
Proof. exact event_writes. Qed.
Print Assumptions C36_writes.

Example C36_ex :
  map (fun o => snd o) (snd (history toy (begin Event)
    [CSend false MAck; CStart true (lit "1") [] [Some MAck; Some MAck; Some MNack]; CSend false MAck; CSend true MAck; CRead])) =
  [([], Err InvalidSession); ([Got MAck; Sent (lit "*99*1##"); Got MAck], Ok tt); ([], Err InvalidSession);
   ([Sent (lit "*#*1##")], Ok tt); ([Got MNack], Ok tt)].
Proof. reflexivity. Qed.

(** ** C37 A closed client refuses all traffic *)

Theorem C37_after_close : forall C h ks1 ks2,
  no_reconnect ks2 ->
  Forall (fun o => fst (snd o) = [] /\
    match fst o with
    | CClose => snd (snd o) = Ok tt
    | CStart _ _ _ _ => snd (snd o) = Err TimeoutError
    | _ => snd (snd o) = Err InvalidSession
    end)
    (snd (history C (fst (history C h (ks1 ++ [CClose]))) ks2)).
Proof. exact after_close. Qed.
Print Assumptions C37_after_close.

Theorem C37_before_start : forall C t ks,
  no_reconnect ks ->
  Forall (fun o => fst (snd o) = [] /\
    match fst o with
    | CClose => snd (snd o) = Ok tt
    | CStart _ _ _ _ => snd (snd o) = Err TimeoutError
    | _ => snd (snd o) = Err InvalidSession
    end) (snd (history C (begin t) ks)).
Proof. exact before_start. Qed.
Print Assumptions C37_before_start.

Example C37_ex :
  no_reconnect [CSend true MAck; CRead; CStart false (lit "1") [] []] /\
  map (fun o => snd o) (snd (history toy (begin Command)
    [CStart true (lit "1") [] [Some MAck; Some MAck; Some MNack]; CClose; CSend true MAck; CRead; CStart false (lit "1") [] []])) =
  [([Got MAck; Sent (lit "*99*9##"); Got MAck], Ok tt); ([], Ok tt); ([], Err InvalidSession); ([], Err InvalidSession);
   ([], Err TimeoutError)].
Proof. split; [intros pw rnd s [H|[H|[H|[]]]]; discriminate|reflexivity]. Qed.

(** ** C66 A failed login leaves the client closed (refuted) *)

(** After every exception of start() on an established connection, the next
    send reaches the wire. *)
Theorem C66_still_open_refuted : forall C c pw rnd s c' es rest e m b s',
  is_cmd_session c = true ->
  start C c pw rnd true s = (c', (es, rest, Err e)) -> msg_bytes m = Ok b ->
  client_send (Y:=Empty_set) c' false m s' = ([Sent b], s', Ok tt).
Proof. exact failed_start_sends. Qed.
Print Assumptions C66_still_open_refuted.

Example C66_ex :
  map (fun o => snd o) (snd (history toy (begin Command)
    [CStart true (lit "1") [] [Some MAck; Some MNack]; CSend false (MNormal LIGHTING (lit "1") (lit "12"))])) =
  [([Got MAck; Sent (lit "*99*9##"); Got MNack], Err InvalidAuthentication); ([Sent (lit "*1*1*12##")], Ok tt)].
Proof. reflexivity. Qed.
