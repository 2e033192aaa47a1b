(** * Property C126: the login with Python's own SHA-1, SHA-256 and HMAC *)
From Coq Require Import String List NArith ZArith Bool Lia.
From Verif Require Import PyStr Tags Messages SpecMsg AuthHmac IO Client SpecClient HmacThms HandshakeThms HandshakeThms2 SpecLogin LoginThms Sha ShaThms.
Import ListNotations.
Open Scope N_scope.
Open Scope list_scope.

Local Notation start := (@Client.start Empty_set).

(** ** C126 The login with Python's own SHA-1, SHA-256 and HMAC (refuted in part) *)

(** Whatever is hashed or signed, a digest and a MAC have 20 or 32 bytes. *)
Theorem C126_digest : forall a k d, length (sha a d) = size a /\ length (hmac a k d) = size a /\ bytes (sha a d) /\ bytes (hmac a k d).
Proof. intros a k d. destruct (sha_length a d), (hmac_length a k d). auto. Qed.
Print Assumptions C126_digest.

(** So every theorem about logins with any functions that make bytes is about these. *)
Theorem C126_sane : sane python.
Proof. exact python_sane. Qed.
Print Assumptions C126_sane.

(** No part of what is hashed is skipped and no two messages are confused before
    the rounds: the blocks are the whole padded message, as few of them as fit it,
    and they determine it. *)
Theorem C126_padding : forall d, exists n, length (message_blocks d) = n /\ (length d < 64 * n <= length d + 72)%nat /\
  concat (message_blocks d) = words (pad d) /\ Forall (fun b => length b = 16%nat) (message_blocks d).
Proof. intros d. destruct (padded d) as (n & _ & L & A & B & C). exists n. auto. Qed.
Print Assumptions C126_padding.

Theorem C126_blocks : forall d e, bytes d -> bytes e -> N.of_nat (length d) < 2 ^ 61 -> N.of_nat (length e) < 2 ^ 61 ->
  message_blocks d = message_blocks e -> d = e.
Proof. exact blocks_inj. Qed.
Print Assumptions C126_blocks.

(** What the client sends for a challenge: two numbers of 80 or 128 decimal digits,
    the digest of its key and the MAC of the text of the manual. *)
Theorem C126_frame : forall c pw rnd a more mk k s c' es rest r, first_tag mk k -> encodable pw ->
  start python c pw rnd true (Some MAck :: Some (MGeneric ([57; 56] :: alg_name a :: more)) :: Some mk :: s) = (c', (es, rest, r)) ->
  exists x y, nth_error (sents es) 2 = Some (wire [x; y]) /\ digits x /\ digits y /\ length x = (4 * size a)%nat /\ length y = (4 * size a)%nat /\
    x = pairs (sha a rnd) /\
    y = pairs (hmac a k (k ++ hextext (sha a rnd) ++ lit "736F70653E" ++ lit "636F70653E" ++ hextext (sha a (utf8 pw)))).
Proof. exact hmac_frame. Qed.
Print Assumptions C126_frame.

(** A login over the wire succeeds only if each of the 20 or 32 bytes of the proof
    the client computes is below ten. *)
Theorem C126_login : forall c pw rnd n more s c' es rest, (forall m, In (Some m) s -> built m) ->
  start python c pw rnd true (Some MAck :: Some (MGeneric ([57; 56] :: n :: more)) :: s) = (c', (es, rest, Ok tt)) ->
  exists a mk k, n = alg_name a /\ hd_error s = Some (Some mk) /\ first_tag mk k /\
    let proof := hmac a k (hextext (sha a rnd) ++ k ++ hextext (sha a (utf8 pw))) in
    length proof = size a /\ Forall (fun b => b <= 9) proof.
Proof.
  intros c pw rnd n more s c' es rest B H. apply hmac_wire in H as (a & mk & k & E & F & G & P); [|exact python_sane|exact B].
  exists a, mk, k. split; [exact E|]. split; [exact F|]. split; [exact G|]. split; [apply hmac_length|exact P].
Qed.
Print Assumptions C126_login.

(** A session with the password 12345. The numbers were computed by hashlib. *)
Definition rnd0 : list N := map N.of_nat (seq 0 128).
Definition key1 : str := lit "#01020304010203040102030401020304010203040102030401020304010203040102030401020304".
Definition key2 : str := lit "#01020304010203040102030401020304010203040102030401020304010203040102030401020304010203040102030401020304010203040102030401020304".

Lemma is_tag t : forallb (fun c => (48 <=? c) && (c <=? 57) || (c =? 35)) t = true -> tagtext t.
Proof.
  intros H. apply Forall_forall. intros c I. rewrite forallb_forall in H. apply H, orb_true_iff in I as [I|I]; [left|right; apply N.eqb_eq, I].
  apply andb_true_iff in I as (A & B). apply N.leb_le in A. apply N.leb_le in B. lia.
Qed.
(** Not every byte of the proof is below ten. *)
Lemma not_low a : let k := match a with SHA1 => key1 | SHA256 => key2 end in
  forallb (fun b => b <=? 9) (hmac a k (hextext (sha a rnd0) ++ k ++ hextext (sha a (utf8 (lit "12345"))))) = false.
Proof. destruct a; vm_compute; reflexivity. Qed.

(** With either algorithm, no gateway can log this client in: neither the right
    proof nor anything else that can be sent after the challenge is accepted. *)
Theorem C126_any_gateway_refuted : forall c more a s c' es rest r,
  let k := match a with SHA1 => key1 | SHA256 => key2 end in
  (forall m, In (Some m) s -> built m) ->
  start python c (lit "12345") rnd0 true (Some MAck :: Some (MGeneric ([57; 56] :: alg_name a :: more)) :: Some (MGeneric [k]) :: s) = (c', (es, rest, r)) ->
  r <> Ok tt.
Proof.
  intros c more a s c' es rest r k B H ->.
  apply C126_login in H.
  - destruct H as (a' & mk & k' & E & F & (l & G) & _ & P). cbn [hd_error] in F. injection F as <-. cbn [msg_tags] in G. injection G as <- _.
    assert (a' = a) as -> by (destruct a, a'; try reflexivity; discriminate). 
    pose proof (not_low a) as Q. cbv zeta in Q. fold k in Q. apply Bool.not_true_iff_false in Q. apply Q. clear Q.
    apply forallb_forall. rewrite Forall_forall in P. intros b I. apply N.leb_le, P, I.
  - intros m [E|I]; [|exact (B m I)]. injection E as <-. split; [|intros l E; injection E as <-; discriminate].
    constructor; [|constructor]. unfold k. destruct a; apply is_tag; reflexivity.
Qed.
Print Assumptions C126_any_gateway_refuted.

(** A recorded session and a reflected proof help only with equal digests or MACs. *)
Theorem C126_replay : forall c pw rnd1 rnd2 more s c1 es1 rest1 c2 es2 rest2 a,
  start python c pw rnd1 true (Some MAck :: Some (MGeneric ([57; 56] :: alg_name a :: more)) :: s) = (c1, (es1, rest1, Ok tt)) ->
  start python c pw rnd2 true (Some MAck :: Some (MGeneric ([57; 56] :: alg_name a :: more)) :: s) = (c2, (es2, rest2, Ok tt)) ->
  sha a rnd1 = sha a rnd2 \/
  exists mk k, hd_error s = Some (Some mk) /\ first_tag mk k /\
    collide python a k (hextext (sha a rnd1) ++ k ++ hextext (sha a (utf8 pw))) (hextext (sha a rnd2) ++ k ++ hextext (sha a (utf8 pw))).
Proof. intros. apply (replay python c pw rnd1 rnd2 (alg_name a) more s c1 es1 rest1 c2 es2 rest2 a); try assumption; [exact python_sane|reflexivity]. Qed.
Print Assumptions C126_replay.

Definition answer (a : alg) : script := [Some MAck; Some (MGeneric [lit "98"; alg_name a]); Some (MGeneric [match a with SHA1 => key1 | SHA256 => key2 end])].
Definition third (a : alg) : option (list N) := nth_error (sents (fst (fst (snd (start python (new_client Command) (lit "12345") rnd0 true (answer a)))))) 2.
Example C126_ex_sha1 : third SHA1 = Some (wire [lit "14060403041112040001150908060003130714131005000407090012090812060703080513050305"; lit "10081201061303020913040410021011120412011304090311031204120713080409060903120511"]).
Proof. vm_compute. reflexivity. Qed.
Example C126_ex_sha256 : third SHA256 = Some (wire [lit "04070115110904031010020312050101150615070215081301060502130912080800121510030902101308000500030102000504070700031405061002111405";
  lit "12130407080601121308070902140205091514010605150205021011141512000414081400130402020000090210081502140715151009020903070908090115"]).
Proof. vm_compute. reflexivity. Qed.
Example C126_ex_proof :
  server_proof python (lit "12345") rnd0 SHA1 key1 = [134; 149; 191; 35; 107; 54; 119; 243; 164; 63; 233; 76; 187; 224; 125; 139; 166; 90; 8; 202] /\
  server_proof python (lit "12345") rnd0 SHA256 key2 = [228; 174; 213; 225; 245; 239; 178; 38; 34; 118; 175; 202; 229; 133; 54; 139; 245; 110; 49; 30; 54; 164; 2; 85; 42; 67; 201; 25; 123; 148; 35; 146].
Proof. split; vm_compute; reflexivity. Qed.
(** The standard's own example, and a password that is not ASCII. *)
Example C126_ex_abc : hextext (sha SHA1 (lit "abc")) = lit "a9993e364706816aba3e25717850c26c9cd0d89d" /\
  hextext (sha SHA256 (lit "abc")) = lit "ba7816bf8f01cfea414140de5dae2223b00361a396177a9cb410ff61f20015ad" /\
  utf8 [233; 8364] = [195; 169; 226; 130; 172].
Proof. repeat split; vm_compute; reflexivity. Qed.
