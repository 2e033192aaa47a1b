(** * The example programs behind the HMAC lock *)
From Coq Require Import String List NArith ZArith Bool Lia.
From Verif Require Import PyStr Tags Messages MessageFacts SpecMsg SpecTag MessageThms MessageThms2 MessageThms3 AuthHmac IO Client SpecClient
  HmacThms HandshakeThms HandshakeThms2 SpecHouse HouseThms HouseThms2 SpecVisit VisitThms SpecHmacDoor HmacDoorThms.
From Verif Require Import Examples ExampleThms.
From Verif Require Watchers.
Import ListNotations.
Open Scope N_scope.
Open Scope list_scope.

Local Notation start := (@Client.start Empty_set).

Lemma hvisit_split l gw {Y} st h out (es es2 : list (ev Y)) st' h' out' evs : hvisit l gw st h out (es ++ es2) st' h' out' evs ->
  exists st1 h1 out1 evs1 evs2, hvisit l gw st h out es st1 h1 out1 evs1 /\ hvisit l gw st1 h1 out1 es2 st' h' out' evs2 /\ evs = evs1 ++ evs2.
Proof.
  revert st h out evs. induction es as [|e es IH]; intros st h out evs V; cbn [app] in V.
  - exists st, h, out, [], evs. split; [constructor|auto].
  - inversion V as [|st0 h0 out0 b sta ans es0 st0' h0' out0' evs0 D V1|h0 out0 b ha ans ev1 es0 st0' h0' out0' evs0 D V1|st0 h0 f out0 m es0 st0' h0' out0' evs0 P V1|st0 h0 out0 y es0 st0' h0' out0' evs0 V1]; subst;
      destruct (IH _ _ _ _ V1) as (st1 & h1 & out1 & ev' & ev'' & A & B & ->).
    + exists st1, h1, out1, ev', ev''. split; [eapply Hv_door; eassumption|auto].
    + exists st1, h1, out1, (ev1 ++ ev'), ev''. split; [eapply Hv_order; eassumption|]. split; [exact B|apply app_assoc].
    + exists st1, h1, out1, ev', ev''. split; [eapply Hv_got; eassumption|auto].
    + exists st1, h1, out1, ev', ev''. split; [apply Hv_yield; assumption|auto].
Qed.

Lemma hvisit_retag l gw {Y Z} (f : Y -> Z) st h out (es : list (ev Y)) st' h' out' evs : hvisit l gw st h out (retag f es) st' h' out' evs ->
  hvisit l gw st h out es st' h' out' evs.
Proof.
  revert st h out evs. induction es as [|[b|m|y] es IH]; intros st h out evs V; cbn [retag] in V; inversion V; subst.
  - constructor.
  - eapply Hv_door; eauto.
  - eapply Hv_order; eauto.
  - eapply Hv_got; eauto.
  - apply Hv_yield; auto.
Qed.

Lemma void_yields (es : list (ev Empty_set)) : yields (retag (@void shown) es) = [].
Proof. induction es as [|[b|m|[]] es IH]; auto. Qed.

Theorem hmac_example body C l gw pw rnd s es s1 r h st h' out' evs : sane C -> encodable pw -> hlock_ok l ->
  example body C pw rnd true s = (es, s1, r) -> hvisit l gw HWaiting h [SpecHouse.frame_ack] es st h' out' evs ->
  (r = Err TimeoutError -> out' = []) ->
  In r [Err ValueError; Err InvalidAuthentication; Err TimeoutError] /\ yields es = [] /\ evs = [] /\ h' = h /\ st <> HInside.
Proof.
  intros HC Hpw L E V T. rewrite example_is in E. destruct (start C _ pw rnd true s) as [c [[es0 s0] [[]|e]]] eqn:S.
  - exfalso. destruct (body c s0) as [[es2 s2] r2].
    assert (X : exists es', es = retag void es0 ++ es') by (destruct r2; injection E as <- _ _; eauto). destruct X as (es' & ->).
    apply hvisit_split in V as (sta & ha & outa & ev1 & ev2 & V & _). apply hvisit_retag in V.
    destruct (hmac_login l gw L _ _ _ _ _ _ _ _ _ _ _ _ _ _ HC Hpw S V ltac:(discriminate)) as (_ & _ & _ & _ & _ & [(_ & X & _)|(_ & [X|X] & _)]); discriminate X.
  - injection E as <- <- <-. apply hvisit_retag in V.
    assert (T' : @Err unit e = Err TimeoutError -> out' = []) by (intros X; apply T; congruence).
    destruct (hmac_login l gw L _ _ _ _ _ _ _ _ _ _ _ _ _ _ HC Hpw S V T') as (_ & -> & _ & -> & _ & K). split; [|split; [apply void_yields|]].
    + destruct K as [(_ & X & _)|(_ & [X|X] & _)]; injection X as ->; cbn; auto.
    + split; [reflexivity|]. split; [reflexivity|]. destruct K as [(_ & _ & ->)|(_ & _ & ->)]; discriminate.
Qed.

Theorem hmac_watch x v C l gw pw rnd s acts es r h st h' out' evs : sane C -> encodable pw -> hlock_ok l ->
  Watchers.watch x v C pw rnd true s acts = (es, r) -> hvisit l gw HWaiting h [SpecHouse.frame_ack] es st h' out' evs ->
  (r = Err TimeoutError -> out' = []) ->
  In r [Err ValueError; Err InvalidAuthentication; Err TimeoutError] /\ evs = [] /\ h' = h /\ st <> HInside.
Proof.
  intros HC Hpw L E V T. unfold Watchers.watch in E. destruct (start C _ pw rnd true s) as [c [[es0 s0] [[]|e]]] eqn:S; injection E as <- <-.
  - exfalso. destruct (hmac_login l gw L _ _ _ _ _ _ _ _ _ _ _ _ _ _ HC Hpw S V ltac:(discriminate)) as (_ & _ & _ & _ & _ & [(_ & X & _)|(_ & [X|X] & _)]); discriminate X.
  - assert (T' : @Err unit e = Err TimeoutError -> out' = []) by (intros X; apply T; congruence).
    destruct (hmac_login l gw L _ _ _ _ _ _ _ _ _ _ _ _ _ _ HC Hpw S V T') as (_ & -> & _ & -> & _ & K). split; [|split; [reflexivity|split; [reflexivity|]]].
    + destruct K as [(_ & X & _)|(_ & [X|X] & _)]; injection X as ->; cbn; auto.
    + destruct K as [(_ & _ & ->)|(_ & _ & ->)]; discriminate.
Qed.

(** The answer as the documentation shows it: *#Rb*HMAC##.  The client leaves out
    the first #. *)
Theorem documented_refuses C c l gw pw rnd s c' es s1 r h st h1 out1 evs : sane C -> encodable pw -> hlock_ok l ->
  (forall b, hl_takes l b -> exists x y, b = wire [35 :: x; y]) ->
  start C c pw rnd true s = (c', (es, s1, r)) -> hvisit l gw HWaiting h [SpecHouse.frame_ack] es st h1 out1 evs ->
  (r = Err TimeoutError -> out1 = []) -> st = HRefused /\ (r = Err InvalidAuthentication \/ r = Err TimeoutError).
Proof.
  intros HC Hpw L D S V T. destruct (hmac_login l gw L _ _ _ _ _ _ _ _ _ _ _ _ _ _ HC Hpw S V T) as (_ & _ & _ & _ & _ & [(X & _)|(_ & A & B)]); [|auto].
  exfalso. destruct (D _ X) as (x & y & E). unfold frame_auth in E.
  assert (B : bytes (hash C (hl_alg l) rnd)) by apply HC.
  assert (H : forall u v, nth_error (wire (u :: v)) 1 = match u with [] => nth_error (wire [[]; []]) 1 | k :: _ => Some k end \/ u = []).
  { intros [|k u] v; [right; reflexivity|]. left. destruct v; reflexivity. }
  apply (f_equal (fun t => nth_error t 1)) in E. cbv beta in E. destruct (H (35 :: x) [y]) as [Hx|Hx]; [|discriminate Hx]. apply (fun e => eq_trans e Hx) in E.
  destruct B as [|b t Hb B]; [vm_compute in E; discriminate E|].
  destruct (H (pairs (b :: t)) [pairs (client_proof C pw rnd (hl_alg l) (35 :: pairs (hl_ra l)))]) as [Hp|Hp]; [|discriminate Hp].
  rewrite Hp in E. unfold pairs, four, two in E. cbn [map concat app] in E. injection E as E. change (48 + b / 16 / 10 = 35) in E. clear - E. revert E. generalize (b / 16 / 10). intros z E. lia.
Qed.
