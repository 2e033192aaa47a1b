(** * HMAC authentication: pyown/auth/hmac.py, pyown/auth/enum.py *)
From Coq Require Import String List NArith ZArith Bool Lia.
From Verif Require Import PyStr Tags Messages.
Import ListNotations.
Open Scope N_scope.
Open Scope list_scope.

(** [int(c, 16)] on a string of one ASCII character.  (Python also accepts
    the decimal digits of other scripts; strings received from the wire are
    ASCII and the others are hex digests.) *)
Definition hex_digit (c : N) : option N :=
  if (48 <=? c) && (c <=? 57) then Some (c - 48)
  else if (97 <=? c) && (c <=? 102) then Some (c - 87)
  else if (65 <=? c) && (c <=? 70) then Some (c - 55)
  else None.
Definition int16 (c : N) : res N := match hex_digit c with Some v => Ok v | None => Err ValueError end.

(** auth/hmac.py:130-145 hex_to_digits *)
Fixpoint hex_to_digits (s : str) : res str :=
  match s with
  | [] => Ok []
  | c :: r =>
      do v <- int16 c;
      do out <- hex_to_digits r;
      Ok (dec (v / 10) ++ dec (v mod 10) ++ out)
  end.

(** [int(c)] on a string of one ASCII character *)
Definition int10 (c : N) : res N := if is_digit c then Ok (c - 48) else Err ValueError.

(** One hex digit, lower case. *)
Definition nib (v : N) : N := if v <? 10 then 48 + v else 87 + v.
(** [hex(v)[2:]] for v < 256 (here v <= 99) *)
Definition hex_tail (v : N) : str := if v <? 16 then [nib v] else [nib (v / 16); nib (v mod 16)].

(** auth/hmac.py:148-163 digits_to_hex: the first index of each pair exists;
    the second raises IndexError when the length is odd, after int() of the
    first succeeded. *)
Fixpoint digits_to_hex (s : str) : res str :=
  match s with
  | [] => Ok []
  | a :: [] => do _ <- int10 a; Err IndexError
  | a :: b :: r =>
      do x <- int10 a; do y <- int10 b;
      do out <- digits_to_hex r;
      Ok (hex_tail (x * 10 + y) ++ out)
  end.

(** auth/enum.py:10-19 *)
Inductive alg := SHA1 | SHA256.

(** auth/enum.py:29-44 from_string *)
Definition alg_from_string (s : str) : res alg :=
  if str_eqb s (lit "1") then Ok SHA1
  else if str_eqb s (lit "2") then Ok SHA256
  else Err ValueError.

(** auth/enum.py:21-27 to_message *)
Definition alg_to_message (a : alg) : msg :=
  MGeneric [lit "98"; match a with SHA1 => lit "1" | SHA256 => lit "2" end].

(** [bytes.hex()]: two lower-case digits per byte; a byte is taken modulo 256. *)
Definition hexs (b : list N) : str :=
  concat (map (fun x => [nib (x / 16 mod 16); nib (x mod 16)]) b).

(** [bytes.fromhex(s)]: ASCII white space is skipped between bytes. *)
Definition hex_space (c : N) : bool := (c =? 32) || ((9 <=? c) && (c <=? 13)).
Fixpoint fromhex (s : str) : res (list N) :=
  match s with
  | [] => Ok []
  | a :: r =>
      if hex_space a then fromhex r
      else match hex_digit a, r with
           | Some x, b :: r' =>
               match hex_digit b with
               | Some y => do out <- fromhex r'; Ok (x * 16 + y :: out)
               | None => Err ValueError
               end
           | _, _ => Err ValueError
           end
  end.

(** The bytes of [str.encode()], that is UTF-8, for the strings it accepts
    ([encode] below). *)
Definition utf8_char (c : N) : list N :=
  if c <? 128 then [c]
  else if c <? 2048 then [192 + c / 64; 128 + c mod 64]
  else if c <? 65536 then [224 + c / 4096; 128 + c / 64 mod 64; 128 + c mod 64]
  else [240 + c / 262144; 128 + c / 4096 mod 64; 128 + c / 64 mod 64; 128 + c mod 64].
Definition utf8 (s : str) : list N := concat (map utf8_char s).

(** [str.encode()] (auth/hmac.py:43, 79): the surrogates U+D800 to U+DFFF have
    no UTF-8 form. *)
Definition surrogate (c : N) : bool := (55296 <=? c) && (c <? 57344).
Definition encode (s : str) : res (list N) :=
  if existsb surrogate s then Err UnicodeEncodeError else Ok (utf8 s).

(** [hashlib] and [hmac] are arbitrary functions of bytes, whatever they
    compute: [hash a data] is the digest, [mac a key data] the HMAC digest.
    (Sha.v has the real ones.)  The keys and the text of the HMACs are ASCII
    (protocol/protocol.py:75), on which [str.encode()] is the identity. *)
Record crypto := {
  hash : alg -> list N -> list N;
  mac : alg -> list N -> list N -> list N }.

(** client_identity and server_identity, auth/hmac.py:21-22 *)
Definition ident_client : str := lit "736F70653E".
Definition ident_server : str := lit "636F70653E".

(** auth/hmac.py:17-54 client_hmac (the third branch of the algorithm test is
    unreachable with an [AuthAlgorithm]), for a password that [encode] accepts;
    Client.v calls [encode] first. *)
Definition client_hmac (C : crypto) (server_key client_key password : str) (a : alg) : list N :=
  let kab := hexs (hash C a (utf8 password)) in
  mac C a server_key (server_key ++ client_key ++ ident_client ++ ident_server ++ kab).

(** auth/hmac.py:57-90 server_hmac *)
Definition server_hmac (C : crypto) (server_key client_key password : str) (a : alg) : list N :=
  let kab := hexs (hash C a (utf8 password)) in
  mac C a server_key (client_key ++ server_key ++ kab).

(** auth/hmac.py:93-106 compare_hmac: [compare_digest] on two byte strings *)
Definition compare_hmac (a b : list N) : bool := str_eqb a b.

(** auth/hmac.py:109-127 create_key; [rnd] is what token_bytes(32) returned. *)
Definition create_key (C : crypto) (a : alg) (rnd : list N) : str := hexs (hash C a rnd).
