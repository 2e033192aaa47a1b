(** * C88, C89: the tags of messages and the parsers of the classes *)
From Coq Require Import String List NArith ZArith Bool Lia.
From Verif Require Import PyStr Tags Messages SpecMsg MessageThms3 IO Client Items SpecParse ParseThms.
Import ListNotations.
Open Scope N_scope.
Open Scope list_scope.

(** ** C88 The tags of a received message are the tags of its frame *)

Theorem C88_parsed_tags : forall s l m,
  is_frame s l -> parse_message s = Ok m -> tags_view (msg_type m) l (msg_tags m).
Proof. exact parsed_tags. Qed.
Print Assumptions C88_parsed_tags.

(** The named attributes are the tags in the positions of the syntax. *)
Theorem C88_attributes : forall m,
  (msg_who m = None <-> In (msg_type m) [T_ACK; T_NACK; T_GENERIC]) /\
  (msg_where m = None <-> In (msg_type m) [T_ACK; T_NACK; T_GENERIC]) /\
  (forall w, msg_who m = Some w -> nth_error (msg_tags m) 0 = Some (who_str w)) /\
  (forall r, msg_where m = Some r -> nth_error (msg_tags m) (match msg_type m with T_NORMAL => 2 | _ => 1 end) = Some r) /\
  (forall a, get_what m = Ok a <-> msg_type m = T_NORMAL /\ nth_error (msg_tags m) 1 = Some a) /\
  (forall d, get_dimension m = Ok d <-> In (msg_type m) [T_DIMREQ; T_DIMWRI; T_DIMRES] /\ nth_error (msg_tags m) 2 = Some d) /\
  (forall vs, get_values m = Ok vs <-> In (msg_type m) [T_DIMWRI; T_DIMRES] /\ skipn 3 (msg_tags m) = vs).
Proof. exact accessors. Qed.
Print Assumptions C88_attributes.

(** Hashes tell messages apart as well as the hashes of their parts do. *)
Theorem C88_hash_separates : forall ht hs hl,
  (forall x y, ht x = ht y -> x = y) -> (forall x y, hs x = hs y -> x = y) -> (forall x y, hl x = hl y -> x = y) ->
  forall a b h, msg_hash ht hs hl a = Ok h -> msg_hash ht hs hl b = Ok h -> a = b.
Proof. exact hash_separates. Qed.
Print Assumptions C88_hash_separates.

Example C88_ex :
  parse_message (lit "*#1*12*#2*3##") = Ok (MDimWri LIGHTING (lit "12") (lit "2") [lit "3"]) /\
  msg_tags (MDimWri LIGHTING (lit "12") (lit "2") [lit "3"]) = map lit ["1"; "12"; "2"; "3"]%string /\
  tags_view T_DIMWRI (map lit ["#1"; "12"; "#2"; "3"]%string) (map lit ["1"; "12"; "2"; "3"]%string) /\
  is_frame (lit " *1*1*12## ") [lit "1"; lit "1"; lit "12"].
Proof.
  split; [vm_compute; reflexivity|]. split; [reflexivity|]. split; [|exact frame_example].
  apply V_hash. cbn. auto.
Qed.

(** ** C89 parse() of a message class accepts exactly its tag lists *)

(** Exactly which lists each class accepts, and the message it makes. *)
Theorem C89_class_parse : forall k l m, class_parse k l = Ok m <-> accepts k l m.
Proof. exact class_parse_iff. Qed.
Print Assumptions C89_class_parse.

(** Which exceptions are raised otherwise, and when at most. *)
Theorem C89_class_parse_errors : forall k l e, class_parse k l = Err e ->
  (e = IndexError /\ (List.length l < needed k)%nat) \/ (e = ValueError /\ needed k <> 0%nat /\ ~ In k [T_ACK; T_NACK]) \/
  (e = InvalidTag /\ ~ Forall tagtext l) \/ (e = InvalidMessage /\ In k [T_ACK; T_NACK]).
Proof. exact class_parse_errors. Qed.
Print Assumptions C89_class_parse_errors.

(** ACK.parse and NACK.parse should accept one list each: each of them accepts
    the other's, and anything else that has one of the two tags. *)
Theorem C89_ack_parse_refuted :
  (forall l, class_parse T_ACK (lit "#" :: l) = Ok MAck /\ class_parse T_NACK (lit "#" :: l) = Ok MNack) /\
  (forall a l, class_parse T_ACK (a :: lit "1" :: l) = Ok MAck /\ class_parse T_NACK (a :: lit "0" :: l) = Ok MNack).
Proof.
  exact (conj (fun l => conj (proj2 (class_parse_iff _ _ _) (X_ack l)) (proj2 (class_parse_iff _ _ _) (X_nack l)))
    (fun a l => conj (proj2 (class_parse_iff _ _ _) (X_ack' a l)) (proj2 (class_parse_iff _ _ _) (X_nack' a l)))).
Qed.
Print Assumptions C89_ack_parse_refuted.

(** Tags beyond those of the class are ignored, by the classes without values. *)
Theorem C89_extra_tags_refuted : forall k l m more,
  In k [T_ACK; T_NACK; T_NORMAL; T_STATUS; T_DIMREQ] -> class_parse k l = Ok m -> class_parse k (l ++ more) = Ok m.
Proof. exact extra_tags. Qed.
Print Assumptions C89_extra_tags_refuted.

Example C89_ex :
  class_parse T_ACK [lit "#"; lit "0"] = Ok MAck /\
  class_parse T_NORMAL (map lit ["1"; "0"; "12"; "7"]%string) = Ok (MNormal LIGHTING (lit "0") (lit "12")) /\
  class_parse T_NORMAL (map lit ["1"; "0"]%string) = Err IndexError /\
  class_parse T_STATUS (map lit ["77"; "0"]%string) = Err ValueError /\
  class_parse T_GENERIC (map lit ["77"; "x"]%string) = Err InvalidTag /\
  class_parse T_ACK (map lit ["77"; "0"]%string) = Err InvalidMessage.
Proof. vm_compute. repeat split. Qed.
