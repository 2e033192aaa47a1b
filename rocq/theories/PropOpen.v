(** * Properties C25 to C29: the OPEN password *)
From Coq Require Import String List NArith ZArith Bool Lia.
From Verif Require Import PyStr Tags SpecMsg SpecTag AuthOpen SpecOpen OpenThms SpecInt IntThms.
Import ListNotations.
Open Scope Z_scope.
Open Scope list_scope.

(** ** C25 The answer is a 32-bit decimal number *)

Theorem C25_numeral : forall password nonce p,
  py_int password = Ok p ->
  exists n s, own_calc_pass password nonce = Ok s /\ numeral n s /\ (n < 2 ^ 32)%N /\ Z.of_N n = own_calc_int p nonce.
Proof. exact pass_numeral. Qed.
Print Assumptions C25_numeral.

(** It raises exactly when int(password) does. *)
Theorem C25_raises : forall password nonce e, own_calc_pass password nonce = Err e <-> py_int password = Err e.
Proof. exact pass_raises. Qed.
Print Assumptions C25_raises.

(** In terms of the text of the password: there is an answer exactly if it
    spells a number, and it depends only on that number; every other text is a
    ValueError. *)
Theorem C25_spelled : forall password nonce,
  (forall p, spelled password p -> exists n s, own_calc_pass password nonce = Ok s /\ numeral n s /\ Z.of_N n = own_calc_int p nonce) /\
  (forall e, own_calc_pass password nonce = Err e <-> e = ValueError /\ forall p, ~ spelled password p).
Proof.
  intros password nonce. split.
  - intros p H. apply int_reads in H. destruct (pass_numeral _ nonce _ H) as (n & s & E & Nm & _ & V). exists n, s. auto.
  - intros e. rewrite pass_raises. apply int_refuses.
Qed.
Print Assumptions C25_spelled.

(** Blanks, a sign, underscores and digits of other scripts are accepted; other
    separators, signs and control characters are not. *)
Example C25_spelled_ex :
  spelled (lit " +12_345" ++ [8195%N]) 12345 /\ own_calc_pass (lit " +12_345" ++ [8195%N]) (lit "603356072") = Ok (lit "25280520") /\
  own_calc_pass [65297; 65298; 1635; 52; 53]%N (lit "603356072") = Ok (lit "25280520") /\
  own_calc_pass (lit "12__345") (lit "603356072") = Err ValueError /\
  own_calc_pass (28%N :: lit "12345") (lit "603356072") = Err ValueError /\
  own_calc_pass (lit "12.345") (lit "603356072") = Err ValueError.
Proof. split; [apply int_reads; vm_compute; reflexivity|]. vm_compute. repeat split. Qed.

Example C25_ex :
  own_calc_pass (lit "12345") (lit "603356072") = Ok (lit "25280520") /\
  own_calc_pass (lit "abcde") (lit "603356072") = Err ValueError.
Proof. split; reflexivity. Qed.

(** ** C26 own_calc_pass implements the published permutation *)

(** As the client calls it, with the leading '#' of the gateway's frame, for
    every password that is an integer at all. *)
Theorem C26_client : forall password nonce p s,
  py_int password = Ok p -> own_calc_pass password (35%N :: nonce) = Ok s ->
  numeral (Z.to_N (value (transform nonce (bits p)))) s.
Proof. exact pass_answer. Qed.
Print Assumptions C26_client.

(** Without the '#', for passwords below 2^32 and nonces that are not all zeros. *)
Theorem C26_bare : forall p nonce,
  0 <= p < 2 ^ 32 -> active nonce -> own_calc_int p nonce = value (transform nonce (bits p)).
Proof. exact calc_spec. Qed.
Print Assumptions C26_bare.

(** All zeros: the answer is 0, whatever the password. *)
Theorem C26_zeros : forall p k, own_calc_int p (repeat 48%N k) = 0.
Proof. exact calc_zeros. Qed.
Print Assumptions C26_zeros.

(** The limit on the password is needed: 2^32 is not its residue here. *)
Example C26_ex :
  active (lit "4") /\ own_calc_int (2 ^ 32) (lit "4") = 2 /\ value (transform (lit "4") (bits (2 ^ 32))) = 0 /\
  own_calc_int 12345 (lit "603356072") = value (transform (lit "603356072") (bits 12345)) /\
  own_calc_int 12345 (lit "603356072") = 25280520.
Proof. split; [exists 52%N; split; [left; reflexivity|discriminate]|]. repeat split. Qed.

(** ** C27 Different passwords give different answers *)

Theorem C27_injective : forall pw1 pw2 p1 p2 nonce s1 s2,
  py_int pw1 = Ok p1 -> py_int pw2 = Ok p2 -> 0 <= p1 < 2 ^ 32 -> 0 <= p2 < 2 ^ 32 -> active nonce ->
  own_calc_pass pw1 nonce = Ok s1 -> own_calc_pass pw2 nonce = Ok s2 -> (s1 = s2 <-> p1 = p2).
Proof. exact pass_injective. Qed.
Print Assumptions C27_injective.

(** With the '#': exactly the passwords equal modulo 2^32 are confused. *)
Theorem C27_confused_iff : forall p q nonce,
  own_calc_int p (35%N :: nonce) = own_calc_int q (35%N :: nonce) <-> p mod 2 ^ 32 = q mod 2 ^ 32.
Proof. exact calc_hash_injective. Qed.
Print Assumptions C27_confused_iff.

Example C27_ex :
  own_calc_pass (lit "12345") (lit "#1") <> own_calc_pass (lit "12346") (lit "#1") /\
  own_calc_pass (lit "4294967297") (lit "#1") = own_calc_pass (lit "1") (lit "#1").
Proof. split; [discriminate|reflexivity]. Qed.

(** ** C28 The OPEN exchange keeps the password secret (refuted) *)

(** From the nonce and the answer, both sent in the clear, the password modulo
    2^32 is computed by [recover]. *)
Theorem C28_recover_refuted : forall password p nonce s,
  py_int password = Ok p -> own_calc_pass password (35%N :: nonce) = Ok s ->
  recover nonce (Z.of_N (dval s)) = p mod 2 ^ 32.
Proof. exact pass_recover. Qed.
Print Assumptions C28_recover_refuted.

(** With the nonce "#0...0" the answer is the password. *)
Theorem C28_clear_refuted : forall p k, 0 <= p < 2 ^ 32 -> own_calc_int p (35%N :: repeat 48%N k) = p.
Proof. exact clear_password. Qed.
Print Assumptions C28_clear_refuted.

Example C28_ex :
  recover (lit "603356072") 25280520 = 12345 /\ own_calc_pass (lit "12345") (lit "#00000") = Ok (lit "12345").
Proof. split; reflexivity. Qed.

(** ** C29 Zero digits and the '#' prefix of the nonce do not matter *)

Theorem C29_zeros : forall p a b, own_calc_int p (a ++ 48%N :: b) = own_calc_int p (a ++ b).
Proof. exact delete_zero. Qed.
Print Assumptions C29_zeros.

Theorem C29_hash : forall p nonce,
  0 <= p < 2 ^ 32 -> active nonce -> own_calc_int p (35%N :: nonce) = own_calc_int p nonce.
Proof. exact hash_prefix. Qed.
Print Assumptions C29_hash.

Example C29_ex :
  own_calc_int 12345 (lit "#603356072") = own_calc_int 12345 (lit "6335672") /\
  own_calc_int 12345 (lit "#000") <> own_calc_int 12345 (lit "000").
Proof. split; [reflexivity|discriminate]. Qed.
