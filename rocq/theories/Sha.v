(** * SHA-1, SHA-256 and HMAC, as Python's [hashlib] and [hmac] compute them

    auth/hmac.py:1-2 imports sha1, sha256 and HMAC.  The functions are those of FIPS
    180-4 and RFC 2104 (CPython: Modules/sha1module.c, Modules/sha256module.c,
    Lib/hmac.py:40-118), on lists of bytes; a byte is taken modulo 256.  Words are
    numbers below 2^32.  Messages of 2^61 bytes and more, whose length does not fit
    into the padding, are not treated apart. *)
From Coq Require Import String List NArith ZArith Bool Lia.
From Verif Require Import PyStr Tags Messages AuthHmac.
Import ListNotations.
Open Scope N_scope.
Open Scope list_scope.

Definition word (x : N) : N := x mod 4294967296.
Definition add32 (x y : N) : N := word (x + y).
Definition rotl (n x : N) : N := word (N.lor (N.shiftl x n) (N.shiftr x (32 - n))).
Definition rotr (n x : N) : N := rotl (32 - n) x.
Definition not32 (x : N) : N := N.lxor x 4294967295.

Definition ch (x y z : N) : N := N.lxor (N.land x y) (N.land (not32 x) z).
Definition maj (x y z : N) : N := N.lxor (N.lxor (N.land x y) (N.land x z)) (N.land y z).
Definition parity (x y z : N) : N := N.lxor (N.lxor x y) z.

(** ** Padding and splitting: FIPS 180-4, 5.1.1 and 5.2.1 *)

(** The number [x] in [n] bytes, most significant first. *)
Fixpoint be (n : nat) (x : N) : list N :=
  match n with O => [] | Datatypes.S n => be n (x / 256) ++ [x mod 256] end.
Definition pad (d : list N) : list N :=
  let l := N.of_nat (List.length d) in
  map (fun b => b mod 256) d ++ [128] ++ repeat 0 (N.to_nat ((119 - l mod 64) mod 64)) ++ be 8 (8 * l).
(** Four bytes make a word; sixteen words make a block. *)
Fixpoint words (d : list N) : list N :=
  match d with
  | a :: b :: c :: e :: r => ((a * 256 + b) * 256 + c) * 256 + e :: words r
  | _ => []
  end.
(** [n] blocks of a list of words. *)
Fixpoint blocks (n : nat) (ws : list N) : list (list N) :=
  match n with O => [] | Datatypes.S n => firstn 16 ws :: blocks n (skipn 16 ws) end.
Definition message_blocks (d : list N) : list (list N) :=
  let p := pad d in blocks (List.length p / 64) (words p).

(** ** The message schedules: the last sixteen words, latest first *)

Fixpoint extend (next : list N -> N) (n : nat) (recent : list N) : list N :=
  match n with
  | O => []
  | Datatypes.S n => let w := next recent in w :: extend next n (w :: firstn 15 recent)
  end.
Definition nth0 (n : nat) (l : list N) : N := nth n l 0.
Definition schedule (next : list N -> N) (n : nat) (block : list N) : list N := block ++ extend next n (rev block).

(** ** SHA-256: FIPS 180-4, 4.1.2, 4.2.2, 5.3.3, 6.2 *)

Definition bsig0 x := N.lxor (N.lxor (rotr 2 x) (rotr 13 x)) (rotr 22 x).
Definition bsig1 x := N.lxor (N.lxor (rotr 6 x) (rotr 11 x)) (rotr 25 x).
Definition ssig0 x := N.lxor (N.lxor (rotr 7 x) (rotr 18 x)) (N.shiftr x 3).
Definition ssig1 x := N.lxor (N.lxor (rotr 17 x) (rotr 19 x)) (N.shiftr x 10).

Definition k256 : list N :=
  [1116352408; 1899447441; 3049323471; 3921009573; 961987163; 1508970993; 2453635748; 2870763221; 3624381080; 310598401; 607225278; 1426881987; 1925078388; 2162078206; 2614888103; 3248222580; 3835390401; 4022224774; 264347078; 604807628; 770255983; 1249150122; 1555081692; 1996064986; 2554220882; 2821834349; 2952996808; 3210313671; 3336571891; 3584528711; 113926993; 338241895; 666307205; 773529912; 1294757372; 1396182291; 1695183700; 1986661051; 2177026350; 2456956037; 2730485921; 2820302411; 3259730800; 3345764771; 3516065817; 3600352804; 4094571909; 275423344; 430227734; 506948616; 659060556; 883997877; 958139571; 1322822218; 1537002063; 1747873779; 1955562222; 2024104815; 2227730452; 2361852424; 2428436474; 2756734187; 3204031479; 3329325298].
Definition h256 : list N := [1779033703; 3144134277; 1013904242; 2773480762; 1359893119; 2600822924; 528734635; 1541459225].

Definition next256 (r : list N) : N :=
  add32 (add32 (ssig1 (nth0 1 r)) (nth0 6 r)) (add32 (ssig0 (nth0 14 r)) (nth0 15 r)).
Definition round256 (s : list N) (kw : N * N) : list N :=
  match s with
  | [a; b; c; d; e; f; g; h] =>
      let t1 := add32 (add32 (add32 h (bsig1 e)) (add32 (ch e f g) (fst kw))) (snd kw) in
      let t2 := add32 (bsig0 a) (maj a b c) in
      [add32 t1 t2; a; b; c; add32 d t1; e; f; g]
  | _ => s
  end.
Fixpoint zip_add (x y : list N) : list N :=
  match x, y with a :: x, b :: y => add32 a b :: zip_add x y | _, _ => [] end.
Definition block256 (s block : list N) : list N :=
  zip_add s (fold_left round256 (combine k256 (schedule next256 48 block)) s).
Definition sha256 (d : list N) : list N := concat (map (be 4) (fold_left block256 (message_blocks d) h256)).

(** ** SHA-1: FIPS 180-4, 4.1.1, 4.2.1, 5.3.1, 6.1 *)

Definition h1 : list N := [1732584193; 4023233417; 2562383102; 271733878; 3285377520].
Definition k1 (t : N) : N := if t <? 20 then 1518500249 else if t <? 40 then 1859775393 else if t <? 60 then 2400959708 else 3395469782.
Definition f1 (t : N) : N -> N -> N -> N := if t <? 20 then ch else if t <? 40 then parity else if t <? 60 then maj else parity.
Definition next1 (r : list N) : N := rotl 1 (N.lxor (N.lxor (nth0 2 r) (nth0 7 r)) (N.lxor (nth0 13 r) (nth0 15 r))).
Definition round1 (s : list N) (tw : N * N) : list N :=
  match s with
  | [a; b; c; d; e] =>
      let t := fst tw in
      [add32 (add32 (add32 (rotl 5 a) (f1 t b c d)) (add32 e (k1 t))) (snd tw); a; rotl 30 b; c; d]
  | _ => s
  end.
Definition rounds1 : list N := map N.of_nat (seq 0 80).
Definition block1 (s block : list N) : list N :=
  zip_add s (fold_left round1 (combine rounds1 (schedule next1 64 block)) s).
Definition sha1 (d : list N) : list N := concat (map (be 4) (fold_left block1 (message_blocks d) h1)).

(** ** HMAC: RFC 2104; both hash functions have blocks of 64 bytes *)

Definition sha (a : alg) : list N -> list N := match a with SHA1 => sha1 | SHA256 => sha256 end.
Definition hmac_key (a : alg) (k : list N) : list N :=
  let k' := if (64 <? List.length k)%nat then sha a k else map (fun b => b mod 256) k in
  k' ++ repeat 0 (64 - List.length k').
Definition hmac (a : alg) (k d : list N) : list N :=
  let key := hmac_key a k in
  sha a (map (N.lxor 92) key ++ sha a (map (N.lxor 54) key ++ d)).

(** What the library uses. *)
Definition python : crypto := {| hash := sha; mac := hmac |}.
