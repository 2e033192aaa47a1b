(** * Visits to a gateway with the HMAC lock *)
From Coq Require Import String List NArith ZArith Bool Lia.
From Verif Require Import PyStr Tags Messages MessageFacts SpecMsg SpecTag MessageThms MessageThms2 MessageThms3 AuthOpen SpecOpen AuthHmac IO Client SpecClient
  HmacThms HandshakeThms HandshakeThms2 SpecItem Items Lighting SpecLight ItemThms FrameThms SpecHouse HouseThms HouseThms2 SpecVisit VisitThms SpecHmacDoor.
Import ListNotations.
Open Scope N_scope.
Open Scope list_scope.

Local Notation start := (@Client.start Empty_set).

Lemma hvisit_nil l gw {Y} st h out st' h' out' evs : hvisit l gw (Y:=Y) st h out [] st' h' out' evs -> st' = st /\ h' = h /\ out' = out /\ evs = [].
Proof. intros H. inversion H; subst. auto. Qed.
Lemma hvisit_got l gw {Y} st h out m (es : list (ev Y)) st' h' out' evs : hvisit l gw st h out (Got m :: es) st' h' out' evs ->
  exists f out0, out = f :: out0 /\ parse_message f = Ok m /\ hvisit l gw st h out0 es st' h' out' evs.
Proof. intros H. inversion H; subst. eauto. Qed.
Lemma hvisit_sent l gw {Y} st h out b (es : list (ev Y)) st' h' out' evs : st <> HInside -> hvisit l gw st h out (Sent b :: es) st' h' out' evs ->
  exists st1 ans, hdoor l st b st1 ans /\ hvisit l gw st1 h (out ++ ans) es st' h' out' evs.
Proof. intros N H. inversion H; subst; [eauto|congruence]. Qed.

Lemma four_digits b : b < 256 -> digits (four b) /\ four b <> [].
Proof.
  intros H. destruct (byte_nibs b H) as (A & _ & B). split; [|discriminate]. unfold four, digits. apply Forall_app. split; apply two_digits; assumption.
Qed.
Lemma bytes_pairs l : bytes l -> l <> [] -> digits (pairs l) /\ pairs l <> [].
Proof.
  intros H N. destruct H as [|b l Hb H]; [congruence|]. unfold pairs. cbn [map concat]. destruct (four_digits b Hb) as (D & E). split.
  - apply Forall_app. split; [exact D|]. clear - H. induction H as [|x l Hx H IH]; cbn [map concat]; [constructor|]. apply Forall_app. split; [apply four_digits, Hx|exact IH].
  - intros X. apply app_eq_nil in X as (X & _). congruence.
Qed.
Lemma alg_parse a : parse_message (wire [lit "98"; alg_name a]) = Ok (MGeneric [lit "98"; alg_name a]).
Proof. destruct a; vm_compute; reflexivity. Qed.
Lemma pairs_parse l : bytes l -> l <> [] -> parse_message (wire [35 :: pairs l]) = Ok (MGeneric [35 :: pairs l]).
Proof. intros B N. destruct (bytes_pairs l B N). apply generic_parse; assumption. Qed.

(** ** The login *)

Section Login.
Context (l : hlock) (gw : gateway) (L : hlock_ok l).

Lemma hello_h t h (es : list (ev Empty_set)) st' h' out' evs :
  hvisit l gw HWaiting h [SpecHouse.frame_ack] (hello t ++ es) st' h' out' evs ->
  hvisit l gw HDeclared h [wire [lit "98"; alg_name (hl_alg l)]] es st' h' out' evs.
Proof.
  intros V. cbn [hello app] in V. apply hvisit_got in V as (f & out0 & E & _ & V). injection E as <- <-.
  apply hvisit_sent in V as (st2 & ans & D & V); [|discriminate]. inversion D; subst; exact V.
Qed.

Lemma alg_h t a more h (es : list (ev Empty_set)) st' h' out' evs :
  hvisit l gw HWaiting h [SpecHouse.frame_ack] (alg_to t a more ++ es) st' h' out' evs ->
  a = hl_alg l /\ more = [] /\ hvisit l gw HChallenged h [wire [35 :: pairs (hl_ra l)]] es st' h' out' evs.
Proof.
  intros V. unfold alg_to in V. rewrite <- app_assoc in V. apply hello_h in V. cbn [app] in V.
  apply hvisit_got in V as (f & out0 & E & P & V). injection E as <- <-. rewrite alg_parse in P. change (lit "98") with [57; 56] in P.
  assert (P1 : alg_name (hl_alg l) = alg_name a) by congruence. assert (P2 : more = []) by congruence. clear P.
  assert (a = hl_alg l) by (destruct a, (hl_alg l); (reflexivity || discriminate P1)). split; [assumption|]. split; [assumption|].
  apply hvisit_sent in V as (st2 & ans & D & V); [|discriminate]. inversion D; subst; [exact V|].
  match goal with H : _ <> _ |- _ => exfalso; apply H; reflexivity end.
Qed.

Lemma auth_h C t pw rnd a more m k h (es : list (ev Empty_set)) st' h' out' evs :
  hvisit l gw HWaiting h [SpecHouse.frame_ack] (auth_to C t pw rnd a more m k ++ es) st' h' out' evs ->
  a = hl_alg l /\ more = [] /\ m = MGeneric [35 :: pairs (hl_ra l)] /\
  ((hl_takes l (frame_auth C pw rnd a k) /\ hvisit l gw HProved h [wire [35 :: pairs (hl_proof l (frame_auth C pw rnd a k))]] es st' h' out' evs) \/
   (~ hl_takes l (frame_auth C pw rnd a k) /\ exists ans, turned_away ans /\ hvisit l gw HRefused h ans es st' h' out' evs)).
Proof.
  intros V. unfold auth_to in V. rewrite <- app_assoc in V. apply alg_h in V as (-> & -> & V). cbn [app] in V.
  apply hvisit_got in V as (f & out0 & E & P & V). injection E as <- <-. rewrite pairs_parse in P by apply L. injection P as <-.
  do 3 (split; [reflexivity|]). apply hvisit_sent in V as (st2 & ans & D & V); [|discriminate]. cbn [app] in V. inversion D; subst; [left; auto|right; eauto].
Qed.

(** start() never succeeds: ValueError if the gateway took the proof, otherwise
    InvalidAuthentication or TimeoutError. *)
Theorem hmac_login C c pw rnd s c' es s1 r h st h1 out1 evs : sane C -> encodable pw ->
  start C c pw rnd true s = (c', (es, s1, r)) -> hvisit l gw HWaiting h [SpecHouse.frame_ack] es st h1 out1 evs ->
  (r = Err TimeoutError -> out1 = []) ->
  let answer := frame_auth C pw rnd (hl_alg l) (35 :: pairs (hl_ra l)) in
  c' = {| cl_session := cl_session c; cl_proto := true |} /\ h1 = h /\ out1 = [] /\ evs = [] /\
  sents es = [frame_session (cl_session c); frame_ack; answer] /\
  ((hl_takes l answer /\ r = Err ValueError /\ st = HProved) \/
   (~ hl_takes l answer /\ (r = Err InvalidAuthentication \/ r = Err TimeoutError) /\ st = HRefused)).
Proof.
  intros HC Hpw R V T answer. apply start_iff in R; [|exact HC]. destruct R as (-> & O & _). split; [reflexivity|].
  assert (Hello : forall m es', m = MAck \/ (exists n, m = MGeneric [n]) \/ (exists n more, m = MGeneric ([57; 56] :: n :: more) /\ n <> [49] /\ n <> [50]) \/ m = MGeneric [] \/ ~ first_tag m [57; 56] ->
    ~ hvisit l gw HWaiting h [SpecHouse.frame_ack] (hello (cl_session c) ++ Got m :: es') st h1 out1 evs).
  { intros m es' Hm W. apply hello_h in W. apply hvisit_got in W as (f & out0 & E & P & _). injection E as <- <-. rewrite alg_parse in P. injection P as <-.
    destruct Hm as [X|[(n & X)|[(n & more & X & N1 & N2)|[X|X]]]]; try discriminate X.
    - assert (Y : alg_name (hl_alg l) = n) by (change (lit "98") with [57; 56] in X; congruence). subst n. destruct (hl_alg l); cbn in N1, N2; congruence.
    - apply X. eexists. reflexivity. }
  assert (Open : forall n ans es', ~ hvisit l gw HWaiting h [SpecHouse.frame_ack] (open_to (cl_session c) n ans ++ es') st h1 out1 evs).
  { intros n ans es' W. unfold open_to in W. rewrite <- app_assoc in W. cbn [app] in W. eapply Hello; [|exact W]. right. left. eauto. }
  assert (Silent : (r = Err TimeoutError -> out1 = []) -> forall f, r = Err TimeoutError -> out1 <> [f]) by (intros X f Y; rewrite X by exact Y; discriminate).
  specialize (Silent T).
  assert (Key : forall m k, m = MGeneric [35 :: pairs (hl_ra l)] -> first_tag m k -> k = 35 :: pairs (hl_ra l)) by (intros m k -> (x & X); injection X as <-; reflexivity).
  destruct r as [[]|e].
  - destruct O as [|n ans A|a more m k m2 p F1 F2 F3 F4].
    + exfalso. eapply Hello; [|exact V]. auto.
    + exfalso. eapply Open, V.
    + exfalso. apply auth_h in V as (-> & -> & Em & [(_ & V)|(_ & ans & A & V)]).
      * apply hvisit_got in V as (f & out0 & E & P & _). injection E as <- <-. rewrite pairs_parse in P by apply L. injection P as <-.
        destruct F3 as (x & X). injection X as <- <-. exact (hash_no_proof _ _ F4).
      * apply hvisit_got in V as (f & out0 & E & P & _). destruct A as [->| ->]; [discriminate E|]. injection E as <- <-. rewrite nack_parse in P. congruence.
  - destruct e; try contradiction.
    + destruct O as [m H|m H1 H2 H3 H4|n ans m A H|n more H1 H2|a more m k H|a more m k m2 p b H1 H2 H3 H4 H5].
      * exfalso. apply hvisit_got in V as (f & out0 & E & P & V). injection E as <- <-. rewrite ack_parse in P. congruence.
      * exfalso. eapply Hello; [|exact V]. auto.
      * exfalso. eapply Open, V.
      * exfalso. eapply Hello; [|exact V]. right. right. left. eauto.
      * apply auth_h in V as (-> & -> & Em & [(_ & V)|(Ta & ans & A & V)]).
        -- exfalso. apply hvisit_got in V as (f & out0 & E & P & _). injection E as <- <-. rewrite pairs_parse in P by apply L. discriminate P.
        -- apply hvisit_got in V as (f & out0 & E & P & V). destruct A as [->| ->]; [discriminate E|]. injection E as <- <-.
           apply hvisit_nil in V as (-> & -> & -> & ->). do 3 (split; [reflexivity|]). rewrite (Key m k Em (proj1 H)) in *. split; [reflexivity|]. right. auto.
      * exfalso. apply auth_h in V as (-> & -> & Em & [(_ & V)|(_ & ans & A & V)]).
        -- apply hvisit_got in V as (f & out0 & E & P & _). injection E as <- <-. rewrite pairs_parse in P by apply L. injection P as <-.
           destruct H3 as (x & X). injection X as <- <-. exact (hash_no_proof _ _ H4).
        -- apply hvisit_got in V as (f & out0 & E & P & _). destruct A as [->| ->]; [discriminate E|]. injection E as <- <-. rewrite nack_parse in P. congruence.
    + destruct O as [n e A|a more m k m2 p H1 H2 H3 H4].
      * exfalso. eapply Hello; [|exact V]. right. left. eauto.
      * apply auth_h in V as (-> & -> & Em & [(Ta & V)|(_ & ans & A & V)]).
        -- apply hvisit_got in V as (f & out0 & E & P & V). injection E as <- <-. apply hvisit_nil in V as (-> & -> & -> & ->).
           do 3 (split; [reflexivity|]). rewrite (Key m k Em (proj1 H1)) in *. split; [reflexivity|]. left. auto.
        -- exfalso. apply hvisit_got in V as (f & out0 & E & P & _). destruct A as [->| ->]; [discriminate E|]. injection E as <- <-. rewrite nack_parse in P. congruence.
    + destruct O as [|a more|a more m k H].
      * exfalso. eapply Hello; [|exact V]. auto 6.
      * exfalso. apply alg_h in V as (_ & _ & V). apply hvisit_got in V as (f & out0 & E & P & _). injection E as <- <-. rewrite pairs_parse in P by apply L. discriminate P.
      * exfalso. apply auth_h in V as (_ & _ & _ & [(_ & V)|(_ & ans & A & V)]); apply hvisit_got in V as (f & out0 & E & P & _).
        -- injection E as <- <-. rewrite pairs_parse in P by apply L. discriminate P.
        -- destruct A as [->| ->]; [discriminate E|]. injection E as <- <-. rewrite nack_parse in P. discriminate P.
    + specialize (T eq_refl). subst out1. destruct O as [| |n ans A|a more|a more m k H].
      * apply hvisit_nil in V as (_ & _ & X & _). discriminate.
      * rewrite <- (app_nil_r (hello _)) in V. apply hello_h, hvisit_nil in V as (_ & _ & X & _). discriminate.
      * rewrite <- (app_nil_r (open_to _ _ _)) in V. exfalso. eapply Open, V.
      * rewrite <- (app_nil_r (alg_to _ _ _)) in V. apply alg_h in V as (_ & _ & V). apply hvisit_nil in V as (_ & _ & X & _). discriminate.
      * rewrite <- (app_nil_r (auth_to _ _ _ _ _ _ _ _)) in V. apply auth_h in V as (-> & -> & Em & [(_ & V)|(Ta & ans & A & V)]); apply hvisit_nil in V as (-> & -> & X & ->).
        -- discriminate.
        -- do 3 (split; [reflexivity|]). rewrite (Key m k Em (proj1 H)) in *. split; [reflexivity|]. right. auto.
    + destruct O as [a more m k H1 H2]. destruct (H2 Hpw).
Qed.
End Login.

(** ** The calls after it *)

Inductive htour (l : hlock) (gw : gateway) : hstage -> house -> list (list N) -> list call -> script ->
  list (list (str * seen) * res unit) -> list (list N) -> hstage -> house -> list (list N) -> Prop :=
| Ht_nil st h out s : htour l gw st h out [] s [] [] st h out
| Ht_call st h out c cs s es s1 r st1 h1 out1 evs log evs' st' h' out' :
    program c s = (es, s1, r) -> hvisit l gw st h out es st1 h1 out1 evs -> (r = Err TimeoutError -> out1 = []) ->
    htour l gw st1 h1 out1 cs s1 log evs' st' h' out' ->
    htour l gw st h out (c :: cs) s ((yields es, r) :: log) (evs ++ evs') st' h' out'.

Lemma order_not_ack o : order_ok o -> order_frame o <> SpecHouse.frame_ack.
Proof. intros H E. pose proof (order_parse o H) as P. rewrite E, ack_parse in P. destruct o; discriminate P. Qed.

Lemma call_out l gw st h c s es s1 r st1 h1 out1 evs : (st = HRefused \/ st = HProved) -> call_ok c -> program c s = (es, s1, r) ->
  hvisit l gw st h [] es st1 h1 out1 evs -> st1 = HRefused /\ h1 = h /\ out1 = [] /\ evs = [] /\ yields es = [] /\ r = Err TimeoutError.
Proof.
  intros St Hok E V. pose proof Hok as (_ & Hw & _ & o & Ho). pose proof (order_not_ack o (stands_ok c o Hw Ho)) as NA. pose proof (call_trace c o s es s1 r Hok Ho E) as T.
  assert (N : st <> HInside) by (destruct St as [->| ->]; discriminate).
  assert (D0 : forall st2 ans, hdoor l st (order_frame o) st2 ans -> st2 = HRefused /\ ans = []).
  { intros st2 ans D. destruct St as [->| ->]; inversion D; subst; auto. congruence. }
  destruct s as [|[m|] s].
  - destruct T as (-> & -> & ->). apply hvisit_sent in V as (st2 & ans & D & V); [|exact N]. apply D0 in D as (-> & ->). cbn [app] in V.
    apply hvisit_nil in V as (-> & -> & -> & ->). auto 6.
  - destruct T as ((es' & ->) & _). apply hvisit_sent in V as (st2 & ans & D & V); [|exact N]. apply D0 in D as (-> & ->). cbn [app] in V.
    apply hvisit_got in V as (f & out0 & X & _). discriminate.
  - destruct T as (-> & -> & ->). apply hvisit_sent in V as (st2 & ans & D & V); [|exact N]. apply D0 in D as (-> & ->). cbn [app] in V.
    apply hvisit_nil in V as (-> & -> & -> & ->). auto 6.
Qed.

Lemma htour_out l gw st h out cs s log evs st' h' out' : htour l gw st h out cs s log evs st' h' out' ->
  Forall call_ok cs -> (st = HRefused \/ st = HProved) -> out = [] -> h' = h /\ out' = [] /\ evs = [] /\ log = quiet cs.
Proof.
  induction 1 as [|st h out c cs s es s1 r st1 h1 out1 evs log evs' st' h' out' E V T H IH]; intros F St ->; [auto|].
  inversion F as [|? ? Hok F']; subst. destruct (call_out _ _ _ _ _ _ _ _ _ _ _ _ _ St Hok E V) as (-> & -> & -> & -> & -> & ->).
  destruct IH as (-> & -> & -> & ->); auto.
Qed.

Theorem hmac_visit C t l gw pw rnd s c es s1 r h st h1 out1 evs1 cs log evs st' h' out' :
  sane C -> encodable pw -> hlock_ok l -> t <> Event ->
  start C (new_client t) pw rnd true s = (c, (es, s1, r)) -> hvisit l gw HWaiting h [SpecHouse.frame_ack] es st h1 out1 evs1 ->
  (r = Err TimeoutError -> out1 = []) -> Forall (call_via c) cs ->
  htour l gw st h1 out1 cs s1 log evs st' h' out' ->
  In r [Err ValueError; Err InvalidAuthentication; Err TimeoutError] /\ evs1 = [] /\ evs = [] /\ h' = h /\ out' = [] /\
  log = map (fun _ => ([], Err TimeoutError)) cs.
Proof.
  intros HC Hpw L Ht R V T F To. destruct (hmac_login l gw L _ _ _ _ _ _ _ _ _ _ _ _ _ _ HC Hpw R V T) as (-> & -> & -> & -> & _ & K).
  assert (F' : Forall call_ok cs) by (eapply Forall_impl; [|exact F]; intros k Hk; eapply via_ok; [| |exact Hk]; [exact Ht|reflexivity]).
  assert (St : st = HRefused \/ st = HProved) by tauto.
  destruct (htour_out _ _ _ _ _ _ _ _ _ _ _ _ To F' St eq_refl) as (-> & -> & -> & ->). split; [|auto].
  destruct K as [(_ & -> & _)|(_ & [->| ->] & _)]; cbn; auto.
Qed.

(** ** Every such visit can take place *)

Lemma hvisit_app l gw {Y} st h out (es : list (ev Y)) st1 h1 out1 evs1 es2 st' h' out' evs :
  hvisit l gw st h out es st1 h1 out1 evs1 -> hvisit l gw st1 h1 out1 es2 st' h' out' evs -> hvisit l gw st h out (es ++ es2) st' h' out' (evs1 ++ evs).
Proof.
  induction 1; intros V; cbn [app].
  - exact V.
  - eapply Hv_door; eauto.
  - rewrite <- app_assoc. eapply Hv_order; eauto.
  - eapply Hv_got; eauto.
  - apply Hv_yield; auto.
Qed.

Lemma out_htour l gw h cs : Forall call_ok cs -> forall st, st = HRefused \/ st = HProved -> exists st', htour l gw st h [] cs [] (quiet cs) [] st' h [].
Proof.
  induction cs as [|c cs IH]; intros F st St; [exists st; constructor|]. inversion F as [|? ? Hok F']; subst.
  pose proof Hok as (_ & Hw & _ & o & Ho). destruct (program c []) as [[es s1] r] eqn:E.
  pose proof (call_trace c o [] es s1 r Hok Ho E) as (-> & -> & ->). destruct (IH F' HRefused (or_introl eq_refl)) as (st' & H). exists st'.
  eapply (Ht_call l gw st h [] c cs [] [Sent (order_frame o)] [] (Err TimeoutError) HRefused h [] [] (quiet cs) []); [exact E| |reflexivity|exact H].
  eapply Hv_door; [|apply Hv_nil]. destruct St as [->| ->]; [apply Hd_deaf|]. apply Hd_unconfirmed, order_not_ack, (stands_ok c o Hw Ho).
Qed.

Theorem hmac_possible C t l gw pw rnd h cs : sane C -> encodable pw -> hlock_ok l -> t <> Event -> Forall (call_via (joined t)) cs ->
  let answer := frame_auth C pw rnd (hl_alg l) (35 :: pairs (hl_ra l)) in hl_takes l answer \/ ~ hl_takes l answer ->
  exists s es r st log st', start C (new_client t) pw rnd true s = (joined t, (es, [], r)) /\
    hvisit l gw HWaiting h [SpecHouse.frame_ack] es st h [] [] /\ htour l gw st h [] cs [] log [] st' h [].
Proof.
  intros HC Hpw L Ht F answer Dec.
  assert (F' : Forall call_ok cs) by (eapply Forall_impl; [|exact F]; intros k Hk; eapply via_ok; [| |exact Hk]; [exact Ht|reflexivity]).
  set (ra := MGeneric [35 :: pairs (hl_ra l)]).
  assert (V0 : forall st ans, hdoor l HChallenged answer st ans ->
    hvisit (Y:=Empty_set) l gw HWaiting h [SpecHouse.frame_ack] (auth_to C t pw rnd (hl_alg l) [] ra (35 :: pairs (hl_ra l))) st h ans []).
  { intros st ans D. unfold auth_to, alg_to, hello. cbn [app]. eapply Hv_got; [exact ack_parse|]. eapply Hv_door; [apply Hd_declare, session_is|]. cbn [app].
    eapply Hv_got; [apply alg_parse|]. eapply Hv_door; [apply Hd_challenge|]. cbn [app]. eapply Hv_got; [apply pairs_parse; apply L|]. eapply Hv_door; [exact D|]. apply Hv_nil. }
  destruct Dec as [D|D].
  - pose (m2 := MGeneric [35 :: pairs (hl_proof l answer)]).
    exists (map Some [MAck; MGeneric [[57; 56]; alg_name (hl_alg l)]; ra; m2]), (auth_to C t pw rnd (hl_alg l) [] ra (35 :: pairs (hl_ra l)) ++ [Got m2]), (Err ValueError), HProved, (quiet cs).
    destruct (out_htour l gw h cs F' HProved (or_intror eq_refl)) as (st' & H). exists st'. split; [|split; [|exact H]].
    + apply start_iff; [exact HC|]. split; [reflexivity|]. split; [|reflexivity]. cbn [outcome]. eapply V_proof; [split; [exists []; reflexivity|exact Hpw]|discriminate|exists []; reflexivity|].
      intros [b Hb]. exact (hash_no_proof _ _ Hb).
    + eapply (hvisit_app _ _ _ _ _ _ _ _ _ []); [apply V0, Hd_taken, D|]. eapply Hv_got; [apply pairs_parse; apply (proj2 (proj2 L))|]. apply Hv_nil.
  - exists (map Some [MAck; MGeneric [[57; 56]; alg_name (hl_alg l)]; ra]), (auth_to C t pw rnd (hl_alg l) [] ra (35 :: pairs (hl_ra l))), (Err TimeoutError), HRefused, (quiet cs).
    destruct (out_htour l gw h cs F' HRefused (or_introl eq_refl)) as (st' & H). exists st'. split; [|split; [|exact H]].
    + apply start_iff; [exact HC|]. split; [reflexivity|]. split; [|right; split; reflexivity]. cbn [outcome]. apply S_auth. split; [exists []; reflexivity|exact Hpw].
    + apply V0. apply Hd_wrong; [exact D|left; reflexivity].
Qed.
