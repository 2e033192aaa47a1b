(** * C132: the exceptions of start() *)
From Coq Require Import String List NArith ZArith Bool Lia.
From Verif Require Import PyStr Tags Messages SpecMsg SpecTag AuthOpen AuthHmac IO Client SpecClient HmacThms HandshakeThms HandshakeThms2 SpecRaise StartRaise PropClient.
Import ListNotations.
Open Scope N_scope.
Open Scope list_scope.

(** What start() raises, whatever the password, the random bytes and the
    messages; each of the three is raised for every password, and the fourth for
    every password with a surrogate. *)
Theorem C132_only C c pw rnd (s : script) e : sane C -> Forall arrives s ->
  res_of (snd (start (Y:=Empty_set) C c pw rnd true s)) = Err e ->
  In e [TimeoutError; InvalidAuthentication; ValueError] \/ e = UnicodeEncodeError /\ ~ encodable pw.
Proof. exact (start_only C c pw rnd s e). Qed.
Print Assumptions C132_only.

Theorem C132_each C c pw rnd e : sane C -> In e [TimeoutError; InvalidAuthentication; ValueError] ->
  exists s, Forall arrives s /\ res_of (snd (start (Y:=Empty_set) C c pw rnd true s)) = Err e.
Proof. exact (start_each C c pw rnd e). Qed.
Print Assumptions C132_each.

Theorem C132_surrogate C c pw rnd a more mk k : sane C -> first_tag mk k -> ~ encodable pw ->
  forall s, res_of (snd (start (Y:=Empty_set) C c pw rnd true (Some MAck :: Some (MGeneric ([57; 56] :: alg_name a :: more)) :: Some mk :: s))) = Err UnicodeEncodeError.
Proof. exact (start_unencodable C c pw rnd a more mk k). Qed.
Print Assumptions C132_surrogate.

(** The docstring (client/base.py:84-86) names TimeoutError, and InvalidSession
    for an unknown algorithm.  InvalidSession is never raised; an unknown
    algorithm is an InvalidAuthentication; and a password that is no number is
    a ValueError in front of the OPEN lock, whatever the challenge. *)
Theorem C132_docstring_refuted C c pw rnd : sane C ->
  (forall s, Forall arrives s -> res_of (snd (start (Y:=Empty_set) C c pw rnd true s)) <> Err InvalidSession) /\
  (forall n more s, n <> [49] -> n <> [50] ->
     res_of (snd (start (Y:=Empty_set) C c pw rnd true (Some MAck :: Some (MGeneric ([57; 56] :: n :: more)) :: s))) = Err InvalidAuthentication) /\
  (forall nonce s, py_int pw = Err ValueError ->
     res_of (snd (start (Y:=Empty_set) C c pw rnd true (Some MAck :: Some (MGeneric [nonce]) :: s))) = Err ValueError).
Proof.
  intros HC. split; [|split].
  - intros s F E. pose proof (start_only C c pw rnd s _ HC F E) as H. cbn in H. intuition discriminate.
  - intros n more s N1 N2. rewrite (C35_nack C c pw rnd n more s HC N1 N2). reflexivity.
  - intros nonce s P. apply (start_word C c pw rnd nonce ValueError HC). unfold own_calc_pass. rewrite P. reflexivity.
Qed.
Print Assumptions C132_docstring_refuted.

(** The password "abc", the challenge of PropClient; and an algorithm 3. *)
Example C132_ex :
  heard (MGeneric [lit "#603356072"]) /\ heard (MGeneric [lit "98"; lit "3"]) /\ py_int (lit "abc") = Err ValueError /\
  res_of (snd (start (Y:=Empty_set) toy (new_client Command) (lit "abc") [] true [Some MAck; Some (MGeneric [lit "#603356072"]); Some MAck])) = Err ValueError /\
  res_of (snd (start (Y:=Empty_set) toy (new_client Command) (lit "12345") [] true [Some MAck; Some (MGeneric [lit "98"; lit "3"])])) = Err InvalidAuthentication /\
  ~ In ValueError own.
Proof.
  split; [exists (lit "*#603356072##"); reflexivity|]. split; [exists (lit "*98*3##"); reflexivity|]. split; [reflexivity|]. split; [reflexivity|]. split; [reflexivity|].
  intros H; cbn in H; intuition discriminate.
Qed.

(** A surrogate in front of the HMAC lock, and before it. *)
Example C132_surrogate_ex :
  ~ encodable [55296] /\ encodable [55295; 57344; 128512] /\ first_tag (MGeneric [lit "#0102"]) (lit "#0102") /\
  start (Y:=Empty_set) toy (new_client Command) [55296] [] true [Some MAck; Some (MGeneric [lit "98"; lit "2"]); Some (MGeneric [lit "#0102"]); Some MAck] =
    ({| cl_session := Command; cl_proto := true |},
     ([Got MAck; Sent (lit "*99*9##"); Got (MGeneric [lit "98"; lit "2"]); Sent (lit "*#*1##"); Got (MGeneric [lit "#0102"])], [Some MAck], Err UnicodeEncodeError)) /\
  res_of (snd (start (Y:=Empty_set) toy (new_client Command) [55296] [] true [Some MAck; Some MAck])) = Ok tt.
Proof.
  split; [intros H; inversion H as [|? ? X]; subst; lia|]. split; [repeat constructor; lia|]. split; [exists []; reflexivity|]. split; reflexivity.
Qed.
