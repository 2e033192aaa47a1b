(** * Specification vocabulary for the handshake

    The published login, as sequences of frames (OpenWebNet introduction,
    section on identification, and docs/original/hmac.md), and every way in
    which the client may leave it. Nothing here mentions the programs of
    Client.v or the conversions of AuthHmac.v. *)
From Coq Require Import String List NArith ZArith Bool Lia.
From Verif Require Import PyStr Tags Messages SpecMsg AuthOpen AuthHmac IO Client.
Import ListNotations.
Open Scope N_scope.
Open Scope list_scope.

(** A value below 16 as two decimal digits ("each hexadecimal digit is
    represented with 2 digits, 1 = 01, a = 10") and a byte as four. *)
Definition two (v : N) : str := [48 + v / 10; 48 + v mod 10].
Definition four (b : N) : str := two (b / 16) ++ two (b mod 16).
Definition pairs (l : list N) : str := concat (map four l).
Definition bytes (l : list N) : Prop := Forall (fun b => b < 256) l.

(** The text of a digest: two lower-case hex digits per byte. *)
Definition hexchar (v : N) : N := if v <? 10 then 48 + v else 97 + (v - 10).
Definition hextext (l : list N) : str := concat (map (fun b => [hexchar (b / 16); hexchar (b mod 16)]) l).

(** Value of a hexadecimal digit, in either case. *)
Inductive hexval : N -> N -> Prop :=
| H_dec d : d < 10 -> hexval (48 + d) d
| H_low d : d < 6 -> hexval (97 + d) (10 + d)
| H_up d : d < 6 -> hexval (65 + d) (10 + d).

(** A lower case hexadecimal digit, and the usual hexadecimal numeral of a number
    below 256. *)
Definition low_hex (c v : N) : Prop := hexval c v /\ ~ (65 <= c <= 90).
Definition hex_numeral (v : N) (t : str) : Prop :=
  (v < 16 /\ exists c, t = [c] /\ low_hex c v) \/
  (16 <= v /\ exists a b x y, t = [a; b] /\ low_hex a x /\ low_hex b y /\ v = 16 * x + y).

(** What the client turns the text of a proof into: one byte per character,
    reading the two decimal digits of its value as hexadecimal ones. *)
Definition proof_bytes (t : str) (b : list N) : Prop :=
  Forall2 (fun c x => exists v, hexval c v /\ x = v / 10 * 16 + v mod 10) t b.

Definition frame_session (t : session) : list N :=
  wire [[57; 57]; match t with OldCommand => [48] | Command => [57] | Event => [49] end].
Definition frame_ack : list N := wire [[35]; [49]].
Definition frame_nack : list N := wire [[35]; [48]].

(** The first tag of a message. *)
Definition first_tag (m : msg) (t : str) : Prop := exists l, msg_tags m = t :: l.

Definition alg_name (a : alg) : str := match a with SHA1 => [49] | SHA256 => [50] end.

Section Handshake.
Context (C : crypto) (t : session) (pw : str) (rnd : list N).

Notation E := (ev Empty_set).

(** The client's key and the two proofs for the server key [k]. *)
Definition rb a := hextext (hash C a rnd).
Definition kab a := hextext (hash C a (utf8 pw)).
Definition client_proof a k : list N :=
  mac C a k (k ++ rb a ++ lit "736F70653E" ++ lit "636F70653E" ++ kab a).
Definition server_proof a k : list N := mac C a k (rb a ++ k ++ kab a).
Definition frame_auth a k : list N := wire [pairs (hash C a rnd); pairs (client_proof a k)].

Definition hello : list E := [Got MAck; Sent (frame_session t)].
(** ... up to the point where the client answered the challenge. *)
Definition open_to nonce ans : list E := hello ++ [Got (MGeneric [nonce]); Sent (wire [35 :: ans])].
Definition alg_to a more : list E :=
  hello ++ [Got (MGeneric ([57; 56] :: alg_name a :: more)); Sent frame_ack].
Definition auth_to a more m k : list E := alg_to a more ++ [Got m; Sent (frame_auth a k)].

(** [m] carries the server key [k], and the password can be encoded: no
    character of it is a surrogate. *)
Definition encodable (s : str) : Prop := Forall (fun c => ~ (55296 <= c < 57344)) s.
Definition server_key (m : msg) (k : str) : Prop := first_tag m k /\ encodable pw.

(** The complete handshakes. *)
Inductive logged_in : list E -> Prop :=
| L_free : logged_in (hello ++ [Got MAck])
| L_open nonce ans : own_calc_pass pw nonce = Ok ans -> logged_in (open_to nonce ans ++ [Got MAck])
| L_hmac a more m k m2 p :
    server_key m k -> m2 <> MNack -> first_tag m2 p -> proof_bytes p (server_proof a k) ->
    logged_in (auth_to a more m k ++ [Got m2; Sent frame_ack]).

(** Refused, with the documented exception. *)
Inductive refused : list E -> Prop :=
| R_hello m : m <> MAck -> refused [Got m]
| R_other m : m <> MAck -> List.length (msg_tags m) <> 1%nat -> ~ first_tag m [57; 56] -> msg_tags m <> [] ->
    refused (hello ++ [Got m])
| R_open nonce ans m : own_calc_pass pw nonce = Ok ans -> m <> MAck -> refused (open_to nonce ans ++ [Got m])
| R_alg n more : n <> [49] -> n <> [50] ->
    refused (hello ++ [Got (MGeneric ([57; 56] :: n :: more)); Sent frame_nack])
| R_nack a more m k : server_key m k -> refused (auth_to a more m k ++ [Got MNack])
| R_proof a more m k m2 p b :
    server_key m k -> m2 <> MNack -> first_tag m2 p -> proof_bytes p b -> b <> server_proof a k ->
    refused (auth_to a more m k ++ [Got m2]).

(** The gateway fell silent. *)
Inductive silent : list E -> Prop :=
| S_hello : silent []
| S_session : silent hello
| S_open nonce ans : own_calc_pass pw nonce = Ok ans -> silent (open_to nonce ans)
| S_alg a more : silent (alg_to a more)
| S_auth a more m k : server_key m k -> silent (auth_to a more m k).

(** The undocumented exception. *)
Inductive value_error : list E -> Prop :=
| V_password nonce e : own_calc_pass pw nonce = Err e -> value_error (hello ++ [Got (MGeneric [nonce])])
| V_proof a more m k m2 p :
    server_key m k -> m2 <> MNack -> first_tag m2 p -> (~ exists b, proof_bytes p b) ->
    value_error (auth_to a more m k ++ [Got m2]).

(** A message without any tag: it cannot come from the parser. *)
Inductive tagless : list E -> Prop :=
| T_resp : tagless (hello ++ [Got (MGeneric [])])
| T_key a more : tagless (alg_to a more ++ [Got (MGeneric [])])
| T_proof a more m k : server_key m k -> tagless (auth_to a more m k ++ [Got (MGeneric [])]).

(** The password cannot be encoded: this shows when the key arrives. *)
Inductive unencodable : list E -> Prop :=
| U_password a more m k : first_tag m k -> ~ encodable pw -> unencodable (alg_to a more ++ [Got m]).

Definition outcome (es : list E) (r : res unit) : Prop :=
  match r with
  | Ok tt => logged_in es
  | Err InvalidAuthentication => refused es
  | Err TimeoutError => silent es
  | Err ValueError => value_error es
  | Err IndexError => tagless es
  | Err UnicodeEncodeError => unencodable es
  | Err _ => False
  end.

(** The events agree with the script, and the script is left where the client
    stopped reading. *)
Definition follows (s : script) (es : list E) (r : res unit) (rest : script) : Prop :=
  match r with
  | Err TimeoutError =>
      s = map Some (gots es) ++ None :: rest \/ s = map Some (gots es) /\ rest = []
  | _ => s = map Some (gots es) ++ rest
  end.
End Handshake.
