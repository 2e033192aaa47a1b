(** * Property C116: whole visits to a gateway with the HMAC lock *)
From Coq Require Import String List NArith ZArith Bool Lia.
From Verif Require Import PyStr Tags Messages MessageThms SpecMsg SpecTag AuthHmac IO Client SpecClient HmacThms HandshakeThms HandshakeThms2 SpecItem Items Lighting SpecLight ItemThms
  SpecHouse HouseThms HouseThms2 PropHouse PropClient SpecVisit VisitThms SpecHmacDoor HmacDoorThms HmacDoorThms2.
From Verif Require Import Examples.
From Verif Require Watchers.
Import ListNotations.
Open Scope N_scope.
Open Scope list_scope.

Local Notation start := (@Client.start Empty_set).

(** start() with a gateway that sends the documented frames, however it checks
    and computes proofs: it never succeeds, whatever the password (one
    that UTF-8 cannot encode ends in UnicodeEncodeError, C132).  If the gateway
    took the client's answer it ends with ValueError while the gateway waits for
    the confirmation. *)
Theorem C116_login_refuted : forall l gw, hlock_ok l -> forall C c pw rnd s c' es s1 r h st h1 out1 evs, sane C -> encodable pw ->
  start C c pw rnd true s = (c', (es, s1, r)) -> hvisit l gw HWaiting h [SpecHouse.frame_ack] es st h1 out1 evs ->
  (r = Err TimeoutError -> out1 = []) ->
  let answer := frame_auth C pw rnd (hl_alg l) (35 :: pairs (hl_ra l)) in
  c' = {| cl_session := cl_session c; cl_proto := true |} /\ h1 = h /\ out1 = [] /\ evs = [] /\
  sents es = [frame_session (cl_session c); frame_ack; answer] /\
  ((hl_takes l answer /\ r = Err ValueError /\ st = HProved) \/
   (~ hl_takes l answer /\ (r = Err InvalidAuthentication \/ r = Err TimeoutError) /\ st = HRefused)).
Proof. exact hmac_login. Qed.
Print Assumptions C116_login_refuted.

(** A gateway that wants the answer as documented, with a # in front, never
    takes it. *)
Theorem C116_answer_refuted : forall C c l gw pw rnd s c' es s1 r h st h1 out1 evs, sane C -> encodable pw -> hlock_ok l ->
  (forall b, hl_takes l b -> exists x y, b = wire [35 :: x; y]) ->
  start C c pw rnd true s = (c', (es, s1, r)) -> hvisit l gw HWaiting h [SpecHouse.frame_ack] es st h1 out1 evs ->
  (r = Err TimeoutError -> out1 = []) -> st = HRefused /\ (r = Err InvalidAuthentication \/ r = Err TimeoutError).
Proof. exact documented_refuses. Qed.
Print Assumptions C116_answer_refuted.

(** A program that goes on all the same does nothing to the house: every call
    times out. *)
Theorem C116_visit : forall C t l gw pw rnd s c es s1 r h st h1 out1 evs1 cs log evs st' h' out',
  sane C -> encodable pw -> hlock_ok l -> t <> Event ->
  start C (new_client t) pw rnd true s = (c, (es, s1, r)) -> hvisit l gw HWaiting h [SpecHouse.frame_ack] es st h1 out1 evs1 ->
  (r = Err TimeoutError -> out1 = []) -> Forall (call_via c) cs ->
  htour l gw st h1 out1 cs s1 log evs st' h' out' ->
  In r [Err ValueError; Err InvalidAuthentication; Err TimeoutError] /\ evs1 = [] /\ evs = [] /\ h' = h /\ out' = [] /\
  log = map (fun _ => ([], Err TimeoutError)) cs.
Proof. exact hmac_visit. Qed.
Print Assumptions C116_visit.

Theorem C116_possible : forall C t l gw pw rnd h cs, sane C -> encodable pw -> hlock_ok l -> t <> Event -> Forall (call_via {| cl_session := t; cl_proto := true |}) cs ->
  let answer := frame_auth C pw rnd (hl_alg l) (35 :: pairs (hl_ra l)) in hl_takes l answer \/ ~ hl_takes l answer ->
  exists s es r st log st', start C (new_client t) pw rnd true s = ({| cl_session := t; cl_proto := true |}, (es, [], r)) /\
    hvisit l gw HWaiting h [SpecHouse.frame_ack] es st h [] [] /\ htour l gw st h [] cs [] log [] st' h [].
Proof. exact hmac_possible. Qed.
Print Assumptions C116_possible.

(** Every program of the shape of the examples, with any calls, ends in start()
    and shows nothing; so do the four event examples. *)
Theorem C116_examples : forall body C l gw pw rnd s es s1 r h st h' out' evs, sane C -> encodable pw -> hlock_ok l ->
  example body C pw rnd true s = (es, s1, r) -> hvisit l gw HWaiting h [SpecHouse.frame_ack] es st h' out' evs ->
  (r = Err TimeoutError -> out' = []) ->
  In r [Err ValueError; Err InvalidAuthentication; Err TimeoutError] /\ yields es = [] /\ evs = [] /\ h' = h /\ st <> HInside.
Proof. exact hmac_example. Qed.
Print Assumptions C116_examples.

Theorem C116_watchers : forall x v C l gw pw rnd s acts es r h st h' out' evs, sane C -> encodable pw -> hlock_ok l ->
  Watchers.watch x v C pw rnd true s acts = (es, r) -> hvisit l gw HWaiting h [SpecHouse.frame_ack] es st h' out' evs ->
  (r = Err TimeoutError -> out' = []) ->
  In r [Err ValueError; Err InvalidAuthentication; Err TimeoutError] /\ evs = [] /\ h' = h /\ st <> HInside.
Proof. exact hmac_watch. Qed.
Print Assumptions C116_watchers.

(** A gateway that takes every answer, and light_01. *)
Definition easy : hlock := {| hl_alg := SHA256; hl_ra := [255; 10]; hl_takes := fun _ => True; hl_proof := fun _ => [1; 171] |}.
Example C116_ex : hlock_ok easy /\ exists es,
  example light_01 toy (lit "12345") [1; 2] true (map Some [MAck; MGeneric [lit "98"; lit "2"]; MGeneric [lit "#15150010"]; MGeneric [lit "#00011011"]]) = (es, [], Err ValueError) /\
  hvisit easy gw0 HWaiting house0 [SpecHouse.frame_ack] es HProved house0 [] [] /\ length (sents es) = 3%nat.
Proof.
  split.
  { split; [repeat constructor|]. split; [discriminate|]. intros b. split; [repeat constructor|discriminate]. }
  eexists. split; [vm_compute; reflexivity|]. split; [|reflexivity].
  eapply Hv_got; [reflexivity|]. eapply Hv_door; [apply Hd_declare; cbn; auto|]. cbn [app]. eapply Hv_got; [reflexivity|].
  eapply Hv_door; [apply (Hd_challenge easy)|]. cbn [app]. eapply Hv_got; [vm_compute; reflexivity|]. eapply Hv_door; [apply Hd_taken; exact I|]. cbn [app].
  eapply Hv_got; [vm_compute; reflexivity|]. apply Hv_nil.
Qed.
