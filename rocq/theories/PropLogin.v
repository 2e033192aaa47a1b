(** * Properties C95 and C96: logins against a gateway that reacts *)
From Coq Require Import String List NArith ZArith Bool Lia.
From Verif Require Import PyStr Tags Messages SpecMsg SpecTag AuthOpen SpecOpen AuthHmac IO Client SpecClient HmacThms HandshakeThms
  HandshakeThms2 SpecLogin LoginThms.
Import ListNotations.
Open Scope N_scope.
Open Scope list_scope.

Local Notation start := (@Client.start Empty_set).

(** ** C95 The OPEN login succeeds exactly with the gateway's password *)

(** Unless the gateway falls silent, the outcome is decided by the two
    passwords: [q] is the gateway's. *)
Theorem C95_login : forall C c pw rnd s c' es rest r q nonce, sane C ->
  start C c pw rnd true s = (c', (es, rest, r)) -> served (open_gateway q nonce) es -> r <> Err TimeoutError ->
  match r with
  | Ok tt => exists p, py_int pw = Ok p /\ (p mod 2 ^ 32 = q mod 2 ^ 32)%Z
  | Err InvalidAuthentication => exists p, py_int pw = Ok p /\ (p mod 2 ^ 32 <> q mod 2 ^ 32)%Z
  | Err ValueError => py_int pw = Err ValueError
  | Err _ => False
  end.
Proof. exact open_login. Qed.
Print Assumptions C95_login.

(** The exchange can always be completed. *)
Theorem C95_exists : forall C c pw rnd q nonce, sane C -> exists s c' es rest r,
  start C c pw rnd true s = (c', (es, rest, r)) /\ served (open_gateway q nonce) es /\ r <> Err TimeoutError.
Proof. exact open_login_exists. Qed.
Print Assumptions C95_exists.

(** A bit-spreading MAC, for the examples: injective, every byte 0 or 1. *)
Definition spread (b : N) : list N := map (fun i => N.b2n (N.testbit b i)) [0; 1; 2; 3; 4; 5; 6; 7].
Definition ideal : crypto := {| hash := fun _ d => [N.of_nat (List.length d) mod 256]; mac := fun _ _ d => concat (map spread d) |}.

Lemma spread_bytes b : bytes (spread b).
Proof. unfold spread, bytes. apply Forall_map, Forall_forall. intros i _. destruct (N.testbit b i); cbn; lia. Qed.

Lemma ideal_sane : sane ideal.
Proof.
  intros a d. split.
  - constructor; [apply N.mod_lt; lia|constructor].
  - intros k. cbn. clear k. induction d as [|b d IH]; [constructor|]. cbn [map concat]. apply Forall_app. split; [apply spread_bytes|exact IH].
Qed.

Lemma b2n_eq x y : N.b2n x = N.b2n y -> x = y.
Proof. destruct x, y; cbn; congruence. Qed.

Lemma spread_inj b c : b < 256 -> c < 256 -> spread b = spread c -> b = c.
Proof.
  intros Hb Hc E. unfold spread in E. cbn [map] in E.
  injection E as E0 E1 E2 E3 E4 E5 E6 E7. apply b2n_eq in E0, E1, E2, E3, E4, E5, E6, E7.
  apply N.bits_inj. intros n. destruct (N.lt_ge_cases n 8) as [L|L].
  - assert (D : n = 0 \/ n = 1 \/ n = 2 \/ n = 3 \/ n = 4 \/ n = 5 \/ n = 6 \/ n = 7) by lia.
    destruct D as [->|[->|[->|[->|[->|[->|[->| ->]]]]]]]; assumption.
  - assert (High : forall x, x < 256 -> N.testbit x n = false).
    { intros x Hx. destruct (N.eq_dec x 0) as [->|Z]; [apply N.bits_0|]. apply N.bits_above_log2.
      apply N.lt_le_trans with 8; [|exact L]. apply N.log2_lt_pow2; [lia|exact Hx]. }
    rewrite !High by assumption. reflexivity.
Qed.

Lemma ideal_collision_free a k : forall d1 d2, bytes d1 -> bytes d2 -> ~ collide ideal a k d1 d2.
Proof.
  assert (X : forall d1 d2, bytes d1 -> bytes d2 -> mac ideal a k d1 = mac ideal a k d2 -> d1 = d2); [|intros d1 d2 H1 H2 (N & E); apply N, X; assumption].
  intros d1. cbn. induction d1 as [|b d1 IH]; intros [|c d2] H1 H2 E; try discriminate; [reflexivity|].
  inversion H1; subst. inversion H2; subst. cbn [map concat] in E.
  assert (X : spread b = spread c /\ concat (map spread d1) = concat (map spread d2)).
  { unfold spread at 1 3 in E. cbn [map app] in E. injection E as E0 E1 E2 E3 E4 E5 E6 E7 E8.
    split; [unfold spread; cbn [map]; congruence|exact E8]. }
  f_equal; [apply spread_inj; [assumption|assumption|apply X]|]. apply IH; [assumption|assumption|apply X].
Qed.

(** The example of docs and tests: password 12345, nonce 603356072. *)
Example C95_ex : exists es,
  start ideal (new_client Command) (lit "12345") [1] true
    [Some MAck; Some (MGeneric [lit "#603356072"]); Some MAck] = ({| cl_session := Command; cl_proto := true |}, (es, [], Ok tt)) /\
  served (open_gateway 12345 (lit "603356072")) es.
Proof.
  eexists. split; [vm_compute; reflexivity|].
  apply (served_snoc_got _ [_; _; _; _]).
  - apply (served_snoc_sent _ [_; _; _]). apply (served_snoc_got _ [_; _]); [|apply OG_nonce].
    apply (served_snoc_sent _ [_]). apply (served_snoc_got _ []); [apply served_nil|apply OG_hello].
  - apply (OG_accept 12345 (lit "603356072") _ (lit "25280520")). apply TagThms.numeral_dec. vm_compute. reflexivity.
Qed.

(** A password that is equal modulo 2^32 also opens the door, and a different
    one does not. *)
Example C95_ex_wrong :
  snd (snd (start ideal (new_client Event) (lit "12346") [1] true [Some MAck; Some (MGeneric [lit "#603356072"]); Some MNack])) = Err InvalidAuthentication /\
  ((12345 + 2 ^ 32) mod 2 ^ 32 = 12345 mod 2 ^ 32)%Z /\ (12346 mod 2 ^ 32 <> 12345 mod 2 ^ 32)%Z.
Proof. split; [vm_compute; reflexivity|]. split; [reflexivity|discriminate]. Qed.

(** ** C96 An HMAC login cannot be replayed or reflected *)

(** The same gateway messages log in twice only if the client drew the same key, or
    if the MACs of these two texts, which differ, are equal: a recorded session is
    useless against a client whose key is fresh. *)
Theorem C96_replay : forall C c pw rnd1 rnd2 n more s c1 es1 rest1 c2 es2 rest2 a, sane C -> n = alg_name a ->
  start C c pw rnd1 true (Some MAck :: Some (MGeneric ([57; 56] :: n :: more)) :: s) = (c1, (es1, rest1, Ok tt)) ->
  start C c pw rnd2 true (Some MAck :: Some (MGeneric ([57; 56] :: n :: more)) :: s) = (c2, (es2, rest2, Ok tt)) ->
  hash C a rnd1 = hash C a rnd2 \/
  exists mk k, hd_error s = Some (Some mk) /\ first_tag mk k /\
    collide C a k (hextext (hash C a rnd1) ++ k ++ hextext (hash C a (utf8 pw))) (hextext (hash C a rnd2) ++ k ++ hextext (hash C a (utf8 pw))).
Proof. exact replay. Qed.
Print Assumptions C96_replay.

(** Sending the client's own proof back to it does not log in, unless the texts
    of the two proofs, which differ, have the same MAC. *)
Theorem C96_reflection : forall C c pw rnd n more mk k m2 p s c' es rest r a, sane C -> n = alg_name a ->
  first_tag mk k -> first_tag m2 p -> proof_bytes p (client_proof C pw rnd a k) ->
  start C c pw rnd true (Some MAck :: Some (MGeneric ([57; 56] :: n :: more)) :: Some mk :: Some m2 :: s) = (c', (es, rest, r)) ->
  r = Ok tt -> let rb := hextext (hash C a rnd) in let kab := hextext (hash C a (utf8 pw)) in
  collide C a k (k ++ rb ++ lit "736F70653E" ++ lit "636F70653E" ++ kab) (rb ++ k ++ kab).
Proof. exact reflection. Qed.
Print Assumptions C96_reflection.

(** Without an OPEN challenge a password that UTF-8 can encode matters only
    through its digests. *)
Theorem C96_digest : forall C c pw1 pw2 rnd s, encodable pw1 -> encodable pw2 -> (forall a, hash C a (utf8 pw1) = hash C a (utf8 pw2)) ->
  (forall nonce, nth_error s 1 <> Some (Some (MGeneric [nonce]))) ->
  start C c pw1 rnd true s = start C c pw2 rnd true s.
Proof. exact digest_only. Qed.
Print Assumptions C96_digest.

(** A gateway that knows the client's next key can log in, so the hypotheses of
    [C96_replay] are met; with another key the same messages are refused. *)
Definition recorded (proof : str) : script :=
  [Some MAck; Some (MGeneric [lit "98"; lit "1"]); Some (MGeneric [lit "42"]); Some (MGeneric [proof])].
Definition proof_for (rnd : list N) : str := map (fun b => 48 + b) (server_proof ideal (lit "pw") rnd SHA1 (lit "42")).
Definition outcome_of (rnd : list N) (proof : str) : res unit :=
  snd (snd (start ideal (new_client Command) (lit "pw") rnd true (recorded proof))).
Example C96_ex :
  outcome_of [1; 2; 3] (proof_for [1; 2; 3]) = Ok tt /\ outcome_of [9; 9; 9] (proof_for [1; 2; 3]) = Ok tt /\
  outcome_of [1; 2] (proof_for [1; 2; 3]) = Err InvalidAuthentication /\
  outcome_of [1; 2; 3] (map (fun b => 48 + b) (client_proof ideal (lit "pw") [1; 2; 3] SHA1 (lit "42"))) = Err InvalidAuthentication.
Proof. repeat split; vm_compute; reflexivity. Qed.
Example C96_ex_digest : outcome_of [1] (proof_for [1]) = snd (snd (start ideal (new_client Command) (lit "qw") [1] true (recorded (proof_for [1])))).
Proof. vm_compute. reflexivity. Qed.
