(** * Proofs about logins against a gateway that reacts *)
From Coq Require Import String List NArith ZArith Bool Lia.
From Verif Require Import PyStr Tags Messages SpecMsg SpecTag MessageThms TagThms AuthOpen SpecOpen OpenThms AuthHmac IO Client SpecClient
  HmacThms HandshakeThms HandshakeThms2 SpecLogin.
Import ListNotations.
Open Scope N_scope.
Open Scope list_scope.

Local Notation start := (@Client.start Empty_set).

Lemma wire1_inj a b : wire [a] = wire [b] -> a = b.
Proof. unfold wire. cbn. rewrite ?app_nil_r. intros [= H]. apply app_inv_tail in H. exact H. Qed.

Lemma right_answer q nonce pw p ans : py_int pw = Ok p -> own_calc_pass pw (35 :: nonce) = Ok ans ->
  (numeral (Z.to_N (value (transform nonce (bits q)))) ans <-> (p mod 2 ^ 32 = q mod 2 ^ 32)%Z).
Proof.
  intros P A. pose proof (pass_answer _ _ _ _ P A) as X. rewrite <- (calc_hash_injective p q nonce), !calc_hash.
  pose proof (calc_range p (35 :: nonce)) as Rp. pose proof (calc_range q (35 :: nonce)) as Rq. rewrite calc_hash in Rp, Rq.
  split.
  - intros H. apply numeral_dec in H, X. subst ans. apply dec_inj in H. lia.
  - intros E. rewrite <- E. exact X.
Qed.

Lemma served_at {Y} G (es pre : list (ev Y)) m post : served G es -> es = pre ++ Got m :: post -> G (sents pre) m.
Proof. intros H E. eapply H, E. Qed.

Lemma gateway_verdict q nonce f a m : open_gateway q nonce [f; a] m ->
  (m = MAck /\ exists s, numeral (Z.to_N (value (transform nonce (bits q)))) s /\ a = wire [35 :: s]) \/
  (m = MNack /\ forall s, numeral (Z.to_N (value (transform nonce (bits q)))) s -> a <> wire [35 :: s]).
Proof.
  intros G. remember [f; a] as l eqn:L. destruct G as [|g|g s H|g b H]; try discriminate L.
  - injection L as _ <-. left. split; [reflexivity|]. exists s. auto.
  - injection L as _ <-. right. auto.
Qed.

Theorem open_login C c pw rnd s c' es rest r q nonce : sane C ->
  start C c pw rnd true s = (c', (es, rest, r)) -> served (open_gateway q nonce) es -> r <> Err TimeoutError ->
  match r with
  | Ok tt => exists p, py_int pw = Ok p /\ (p mod 2 ^ 32 = q mod 2 ^ 32)%Z
  | Err InvalidAuthentication => exists p, py_int pw = Ok p /\ (p mod 2 ^ 32 <> q mod 2 ^ 32)%Z
  | Err ValueError => py_int pw = Err ValueError
  | Err _ => False
  end.
Proof.
  intros HC R S T. apply start_iff in R; [|exact HC]. destruct R as (_ & O & _).
  assert (N1 : forall m post, es = hello (cl_session c) ++ Got m :: post -> m = MGeneric [35 :: nonce]).
  { intros m post E. pose proof (served_at _ _ _ _ _ S E) as G. unfold hello in G. cbn in G. inversion G. reflexivity. }
  assert (N2 : forall m ans post, es = open_to (cl_session c) (35 :: nonce) ans ++ Got m :: post ->
     (m = MAck /\ exists s, numeral (Z.to_N (value (transform nonce (bits q)))) s /\ wire [35 :: ans] = wire [35 :: s]) \/
     (m = MNack /\ forall s, numeral (Z.to_N (value (transform nonce (bits q)))) s -> wire [35 :: ans] <> wire [35 :: s])).
  { intros m ans post E. pose proof (served_at _ _ _ _ _ S E) as G. exact (gateway_verdict _ _ _ _ _ G). }
  destruct r as [[]|e].
  - destruct O as [|n ans A|a more m k m2 p F1 F2 F3 F4].
    + specialize (N1 _ _ eq_refl). discriminate.
    + assert (n = 35 :: nonce) by (specialize (N1 (MGeneric [n]) _ ltac:(unfold open_to; rewrite <- app_assoc; reflexivity)); congruence). subst n.
      destruct (py_int_value pw) as [[p P]|P]; [|apply (pass_raises pw (35 :: nonce)) in P; congruence]. exists p. split; [exact P|].
      apply (right_answer q nonce pw p ans P A). destruct (N2 _ _ _ eq_refl) as [(_ & s0 & H & E)|[E _]]; [|discriminate].
      apply wire1_inj in E. injection E as ->. exact H.
    + specialize (N1 (MGeneric ([57; 56] :: alg_name a :: more)) _ ltac:(unfold auth_to, alg_to; rewrite <- !app_assoc; reflexivity)). discriminate.
  - destruct e; try exact O; try congruence.
    + destruct O as [m H|m H1 H2 H3 H4|n ans m A H|n more H1 H2|a more m k H|a more m k m2 p b H1 H2 H3 H4 H5].
      * pose proof (served_at _ _ [] m [] S eq_refl) as G. cbn in G. inversion G. congruence.
      * specialize (N1 _ _ eq_refl). subst m. cbn in H2. congruence.
      * assert (n = 35 :: nonce) by (specialize (N1 (MGeneric [n]) _ ltac:(unfold open_to; rewrite <- app_assoc; reflexivity)); congruence). subst n.
        destruct (py_int_value pw) as [[p P]|P]; [|apply (pass_raises pw (35 :: nonce)) in P; congruence]. exists p. split; [exact P|].
        intros E. apply (right_answer q nonce pw p ans P A) in E. destruct (N2 _ _ _ eq_refl) as [[-> _]|[_ X]]; [congruence|]. apply (X _ E). reflexivity.
      * specialize (N1 _ _ eq_refl). discriminate.
      * specialize (N1 (MGeneric ([57; 56] :: alg_name a :: more)) _ ltac:(unfold auth_to, alg_to; rewrite <- !app_assoc; reflexivity)). discriminate.
      * specialize (N1 (MGeneric ([57; 56] :: alg_name a :: more)) _ ltac:(unfold auth_to, alg_to; rewrite <- !app_assoc; reflexivity)). discriminate.
    + destruct O as [n e A|a more m k m2 p H1 H2 H3 H4].
      * destruct (py_int_value pw) as [[p P]|P]; [|exact P]. rewrite (pass_ok _ n _ P) in A. discriminate.
      * specialize (N1 (MGeneric ([57; 56] :: alg_name a :: more)) _ ltac:(unfold auth_to, alg_to; rewrite <- !app_assoc; reflexivity)). discriminate.
    + destruct O as [|a more|a more m k H].
      * specialize (N1 _ _ eq_refl). discriminate.
      * specialize (N1 (MGeneric ([57; 56] :: alg_name a :: more)) _ ltac:(unfold alg_to; rewrite <- !app_assoc; reflexivity)). discriminate.
      * specialize (N1 (MGeneric ([57; 56] :: alg_name a :: more)) _ ltac:(unfold auth_to, alg_to; rewrite <- !app_assoc; reflexivity)). discriminate.
    + destruct O as [a more m k H1 H2].
      specialize (N1 (MGeneric ([57; 56] :: alg_name a :: more)) _ ltac:(unfold alg_to; rewrite <- !app_assoc; reflexivity)). discriminate.
Qed.

Lemma served_nil {Y} (G : list (list N) -> msg -> Prop) : served (Y:=Y) G [].
Proof. intros [|x pre] m post E; discriminate. Qed.

Lemma served_snoc_got {Y} G (es : list (ev Y)) m : served G es -> G (sents es) m -> served G (es ++ [Got m]).
Proof.
  intros H K pre x post E. destruct (@exists_last _ (Got x :: post) ltac:(discriminate)) as (l & y & L).
  rewrite L, app_assoc in E. apply app_inj_tail in E as [E1 E2]. subst y. destruct l as [|z l].
  - cbn in L. injection L as -> _. rewrite app_nil_r in E1. subst pre. exact K.
  - cbn in L. injection L as <- _. apply (H pre x l). exact E1.
Qed.

Lemma served_snoc_sent {Y} G (es : list (ev Y)) b : served G es -> served G (es ++ [Sent b]).
Proof.
  intros H pre x post E. destruct (@exists_last _ (Got x :: post) ltac:(discriminate)) as (l & y & L).
  rewrite L, app_assoc in E. apply app_inj_tail in E as [E1 E2]. subst y. destruct l as [|z l].
  - cbn in L. discriminate.
  - cbn in L. injection L as <- _. apply (H pre x l). exact E1.
Qed.

(** Such a gateway always lets the exchange come to an end. *)
Theorem open_login_exists C c pw rnd q nonce : sane C -> exists s c' es rest r,
  start C c pw rnd true s = (c', (es, rest, r)) /\ served (open_gateway q nonce) es /\ r <> Err TimeoutError.
Proof.
  intros HC.
  assert (Sn : served (open_gateway q nonce) (hello (cl_session c) ++ [Got (MGeneric [35 :: nonce])])).
  { apply (served_snoc_got (open_gateway q nonce) (hello (cl_session c))); [|apply OG_nonce].
    apply (served_snoc_sent _ [Got MAck]). apply (served_snoc_got _ []); [apply served_nil|apply OG_hello]. }
  destruct (py_int_value pw) as [[p P]|P].
  - destruct (pass_numeral pw (35 :: nonce) p P) as (n & ans & A & _).
    assert (Sa : served (open_gateway q nonce) (open_to (cl_session c) (35 :: nonce) ans)).
    { unfold open_to. apply (served_snoc_sent _ (hello (cl_session c) ++ [Got (MGeneric [35 :: nonce])])) with (b := wire [35 :: ans]) in Sn. rewrite <- app_assoc in Sn. exact Sn. }
    destruct (Z.eq_dec (p mod 2 ^ 32) (q mod 2 ^ 32)) as [E|E].
    + exists [Some MAck; Some (MGeneric [35 :: nonce]); Some MAck], {| cl_session := cl_session c; cl_proto := true |},
        (open_to (cl_session c) (35 :: nonce) ans ++ [Got MAck]), [], (Ok tt).
      split; [|split; [|discriminate]].
      * apply start_iff; [exact HC|]. split; [reflexivity|]. split; [apply L_open; exact A|reflexivity].
      * apply served_snoc_got; [exact Sa|]. unfold open_to, hello. cbn [app sents]. apply OG_accept. apply (right_answer q nonce pw p ans P A). exact E.
    + exists [Some MAck; Some (MGeneric [35 :: nonce]); Some MNack], {| cl_session := cl_session c; cl_proto := true |},
        (open_to (cl_session c) (35 :: nonce) ans ++ [Got MNack]), [], (Err InvalidAuthentication).
      split; [|split; [|discriminate]].
      * apply start_iff; [exact HC|]. split; [reflexivity|]. split; [apply R_open; [exact A|discriminate]|reflexivity].
      * apply served_snoc_got; [exact Sa|]. unfold open_to, hello. cbn [app sents]. apply OG_reject. intros s0 H W.
        apply wire1_inj in W. injection W as ->. apply E. apply (right_answer q nonce pw p s0 P A). exact H.
  - exists [Some MAck; Some (MGeneric [35 :: nonce])], {| cl_session := cl_session c; cl_proto := true |},
        (hello (cl_session c) ++ [Got (MGeneric [35 :: nonce])]), [], (Err ValueError).
    split; [|split; [exact Sn|discriminate]].
    apply start_iff; [exact HC|]. split; [reflexivity|]. split; [|reflexivity].
    eapply V_password. apply pass_raises. exact P.
Qed.

(** ** HMAC *)

Lemma auth_hmac_digest C c pw1 pw2 tag rnd s : encodable pw1 -> encodable pw2 -> (forall a, hash C a (utf8 pw1) = hash C a (utf8 pw2)) ->
  auth_hmac (Y:=Empty_set) C c pw1 tag rnd s = auth_hmac C c pw2 tag rnd s.
Proof.
  intros P1 P2 H. unfold auth_hmac. destruct (alg_from_string tag) as [a|]; [|reflexivity].
  rewrite (utf8_ok _ P1), (utf8_ok _ P2).
  unfold client_hmac, server_hmac. rewrite (H a). reflexivity.
Qed.

Theorem digest_only C c pw1 pw2 rnd s : encodable pw1 -> encodable pw2 -> (forall a, hash C a (utf8 pw1) = hash C a (utf8 pw2)) ->
  (forall nonce, nth_error s 1 <> Some (Some (MGeneric [nonce]))) ->
  start C c pw1 rnd true s = start C c pw2 rnd true s.
Proof.
  intros P1 P2 H Hn. rewrite !start_connected. apply (f_equal (pair _)).
  set (c' := {| cl_session := cl_session c; cl_proto := true |}).
  destruct (script_dec s) as [[rest Hd]|[m [s1 ->]]].
  { rewrite !(run_no_hello C c' eq_refl _ _ s rest Hd). reflexivity. }
  destruct (ack_dec m) as [->|Hm].
  2:{ rewrite !(run_bad_hello C c' eq_refl _ _ m s1 Hm). reflexivity. }
  rewrite !(run_hello C c' eq_refl). apply (f_equal (pre _)).
  destruct (script_dec s1) as [[rest Hd]|[m [s2 ->]]].
  { unfold stage2. rewrite !(read_dry c' eq_refl _ s1 rest Hd). reflexivity. }
  unfold stage2. rewrite !(read_then c' eq_refl). apply (f_equal (pre _)).
  destruct (mtype_eqb (msg_type m) T_ACK); [reflexivity|].
  destruct (challenge_dec m) as [[nonce ->]|[[n [more ->]]|[->|[H1 [H2 H3]]]]].
  - exfalso. apply (Hn nonce). reflexivity.
  - cbn [msg_tags List.length Nat.eqb]. unfold tag_at. cbn [msg_tags index nth_error]. rewrite !andthen_lift.
    change (str_eqb [57; 56] (lit "98")) with true. cbv iota. rewrite !andthen_lift. apply auth_hmac_digest; [exact P1|exact P2|exact H].
  - reflexivity.
  - rewrite (proj2 (Nat.eqb_neq _ _) H1).
    destruct (msg_tags m) as [|t l] eqn:Et; [congruence|].
    assert (Ht : first_tag m t) by (exists l; assumption).
    rewrite !(tag_then m t _ _ Ht).
    destruct (str_eqb t (lit "98")) eqn:E98; [|reflexivity].
    exfalso. apply H2. apply str_eqb_spec in E98. subst t. assumption.
Qed.

Lemma hexchar_byte v : v < 16 -> hexchar v < 256.
Proof. unfold hexchar. destruct (v <? 10) eqn:E; lia. Qed.

Lemma hextext_bytes l : bytes l -> bytes (hextext l).
Proof.
  unfold hextext, bytes. induction 1 as [|b l Hb _ IH]; cbn [map concat]; [constructor|].
  assert (b / 16 < 16) by (apply N.div_lt_upper_bound; lia). assert (b mod 16 < 16) by (apply N.mod_lt; lia).
  constructor; [apply hexchar_byte; assumption|]. constructor; [apply hexchar_byte; assumption|]. exact IH.
Qed.

Lemma hexchar_inj v w : v < 16 -> w < 16 -> hexchar v = hexchar w -> v = w.
Proof. unfold hexchar. destruct (v <? 10) eqn:E; destruct (w <? 10) eqn:F; apply N.ltb_lt in E || apply N.ltb_ge in E; apply N.ltb_lt in F || apply N.ltb_ge in F; lia. Qed.

Lemma hextext_inj l1 : forall l2, bytes l1 -> bytes l2 -> hextext l1 = hextext l2 -> l1 = l2.
Proof.
  unfold hextext, bytes. induction l1 as [|b l1 IH]; intros [|c l2] H1 H2 E; cbn [map concat app] in E; try discriminate; [reflexivity|].
  inversion H1; subst. inversion H2; subst. injection E as E1 E2 E3. f_equal; [|apply IH; assumption].
  assert (b / 16 < 16) by (apply N.div_lt_upper_bound; lia). assert (b mod 16 < 16) by (apply N.mod_lt; lia).
  assert (c / 16 < 16) by (apply N.div_lt_upper_bound; lia). assert (c mod 16 < 16) by (apply N.mod_lt; lia).
  apply hexchar_inj in E1; [|assumption|assumption]. apply hexchar_inj in E2; [|assumption|assumption].
  rewrite (N.div_mod b 16), (N.div_mod c 16), E1, E2 by lia. reflexivity.
Qed.

Lemma tagtext_bytes t : tagtext t -> bytes t.
Proof. apply Forall_impl. intros c [H|H]; [unfold digitchar in H; lia|lia]. Qed.

Lemma key_bytes m k : built m -> first_tag m k -> bytes k.
Proof. intros B F. apply tagtext_bytes. eapply built_first; eassumption. Qed.

(** The same messages of the gateway log in twice only with the same client key,
    or if the texts of the two proofs collide. *)
Theorem replay C c pw rnd1 rnd2 n more s c1 es1 rest1 c2 es2 rest2 a : sane C -> n = alg_name a ->
  start C c pw rnd1 true (Some MAck :: Some (MGeneric ([57; 56] :: n :: more)) :: s) = (c1, (es1, rest1, Ok tt)) ->
  start C c pw rnd2 true (Some MAck :: Some (MGeneric ([57; 56] :: n :: more)) :: s) = (c2, (es2, rest2, Ok tt)) ->
  hash C a rnd1 = hash C a rnd2 \/
  exists mk k, hd_error s = Some (Some mk) /\ first_tag mk k /\
    collide C a k (hextext (hash C a rnd1) ++ k ++ hextext (hash C a (utf8 pw))) (hextext (hash C a rnd2) ++ k ++ hextext (hash C a (utf8 pw))).
Proof.
  intros HC -> R1 R2. apply hmac_proved in R1; [|exact HC]. apply hmac_proved in R2; [|exact HC].
  destruct R1 as (a1 & m1 & k1 & p1 & t1 & A1 & S1 & F1 & _ & P1 & Q1 & _). destruct R2 as (a2 & m2 & k2 & p2 & t2 & A2 & S2 & F2 & _ & P2 & Q2 & _).
  assert (a1 = a) by (destruct a, a1; try reflexivity; discriminate). assert (a2 = a) by (destruct a, a2; try reflexivity; discriminate). subst a1 a2.
  rewrite S1 in S2. injection S2 as <- <- <-. pose proof F1 as F. destruct F1 as [l1 F1], F2 as [l2 F2]. rewrite F1 in F2. injection F2 as <- <-.
  destruct P1 as [l3 P1], P2 as [l4 P2]. rewrite P1 in P2. injection P2 as <- <-.
  pose proof (proof_bytes_fun _ _ _ Q1 Q2) as E. unfold server_proof, rb, kab in E.
  destruct (list_eq_dec N.eq_dec (hash C a rnd1) (hash C a rnd2)) as [H|H]; [left; exact H|right].
  exists m1, k1. rewrite S1. split; [reflexivity|]. split; [exact F|]. split; [|exact E].
  intros X. apply app_inv_tail in X. apply hextext_inj in X; [exact (H X)|apply HC|apply HC].
Qed.

(** The client's own proof, sent back to it, is refused unless the texts of the two
    proofs collide. *)
Theorem reflection C c pw rnd n more mk k m2 p s c' es rest r a : sane C -> n = alg_name a ->
  first_tag mk k -> first_tag m2 p -> proof_bytes p (client_proof C pw rnd a k) ->
  start C c pw rnd true (Some MAck :: Some (MGeneric ([57; 56] :: n :: more)) :: Some mk :: Some m2 :: s) = (c', (es, rest, r)) ->
  r = Ok tt -> let rb := hextext (hash C a rnd) in let kab := hextext (hash C a (utf8 pw)) in
  collide C a k (k ++ rb ++ lit "736F70653E" ++ lit "636F70653E" ++ kab) (rb ++ k ++ kab).
Proof.
  intros HC -> F P Q R ->. apply hmac_proved in R; [|exact HC].
  destruct R as (a1 & m1 & k1 & p1 & t1 & A1 & S1 & F1 & _ & P1 & Q1 & _).
  assert (a1 = a) by (destruct a, a1; try reflexivity; discriminate). subst a1. injection S1 as -> -> ->.
  destruct F as [l1 F], F1 as [l2 F1]. rewrite F in F1. injection F1 as <- <-.
  destruct P as [l3 P], P1 as [l4 P1]. rewrite P in P1. injection P1 as <- <-.
  pose proof (proof_bytes_fun _ _ _ Q Q1) as E. split; [|exact E].
  intros X. apply (f_equal (@length N)) in X. rewrite !app_length in X. change (length (lit "736F70653E")) with 10%nat in X. change (length (lit "636F70653E")) with 10%nat in X. lia.
Qed.
