(** * Properties C06 to C15: messages *)
From Coq Require Import String List NArith ZArith Bool Lia.
From Verif Require Import PyStr Tags Messages SpecMsg SpecTag MessageThms MessageThms2 MessageThms3.
Import ListNotations.
Open Scope N_scope.
Open Scope list_scope.

(** ** C06 parse_message fails only in documented ways *)

Theorem C06_error_kinds : forall s e, parse_message s = Err e -> e = InvalidMessage \/ e = ValueError.
Proof. exact parse_errors. Qed.
Print Assumptions C06_error_kinds.

Theorem C06_value_error_iff : forall s,
  parse_message s = Err ValueError <-> exists l x, is_frame s l /\ who_text l x /\ ~ known_who x.
Proof. exact parse_value_error_iff. Qed.
Print Assumptions C06_value_error_iff.

Theorem C06_ok_iff : forall s m,
  parse_message s = Ok m <-> exists l, is_frame s l /\ denotes l m.
Proof. exact parse_ok_iff. Qed.
Print Assumptions C06_ok_iff.

Example C06_ex :
  parse_message (lit "*9*1*12##") = Err ValueError /\
  parse_message (lit "*1*1*12#") = Err InvalidMessage /\
  parse_message (lit "*1*1*12##") = Ok (MNormal LIGHTING (lit "1") (lit "12")).
Proof. repeat split. Qed.

(** ** C07 The accepted language *)

Theorem C07_language : forall s,
  parse_message s = Err InvalidMessage <-> forall l, ~ is_frame s l.
Proof. exact parse_invalid_iff. Qed.
Print Assumptions C07_language.

(** The same in terms of characters: after stripping, '*', then digits, '#'
    and '*', then "##", and exactly one occurrence of "##". *)
Theorem C07_language_chars : forall s,
  (exists l, is_frame s l) <->
  (exists w1 body w2, white w1 /\ white w2 /\ s = w1 ++ 42 :: body ++ [35; 35] ++ w2 /\
                      Forall wirechar body /\ ~ has_hh body).
Proof. exact frame_chars. Qed.
Print Assumptions C07_language_chars.

Example C07_ex : is_frame (lit " *1*1*12## ") [lit "1"; lit "1"; lit "12"].
Proof. exact frame_example. Qed.

(** ** C08 Messages are classified by tag structure *)

Theorem C08_classification : forall s l m,
  is_frame s l -> parse_message s = Ok m -> kind l (msg_type m).
Proof. exact parse_kind. Qed.
Print Assumptions C08_classification.

Theorem C08_kind_total_functional :
  (forall l, l <> [] -> exists k, kind l k) /\
  (forall l k1 k2, kind l k1 -> kind l k2 -> k1 = k2).
Proof. exact (conj kind_total kind_functional). Qed.
Print Assumptions C08_kind_total_functional.

(** A frame of a kind with a known WHO is always accepted, whatever the kind. *)
Theorem C08_frames_accepted : forall s l,
  is_frame s l -> (forall x, who_text l x -> known_who x) ->
  exists m, parse_message s = Ok m /\ kind l (msg_type m).
Proof. exact frame_accepted. Qed.
Print Assumptions C08_frames_accepted.

(** Reordering the class list changes nothing as long as DimensionRequest and
    DimensionWriting stay before DimensionResponse and DimensionResponse before
    NormalMessage; the documented winner is the one of [kind]. *)
Theorem C08_order_irrelevant : forall cs s l,
  is_frame s l -> good_order cs -> dispatch cs (strip s) l = parse_message s.
Proof. exact order_irrelevant. Qed.
Print Assumptions C08_order_irrelevant.

Example C08_ex :
  parse_message (lit "*#1*12*1##") = Ok (MDimReq LIGHTING (lit "12") (lit "1")) /\
  parse_message (lit "*#1*12*#1*3##") = Ok (MDimWri LIGHTING (lit "12") (lit "1") [lit "3"]) /\
  parse_message (lit "*#1*12*1*3##") = Ok (MDimRes LIGHTING (lit "12") (lit "1") [lit "3"]) /\
  parse_message (lit "*#1*12##") = Ok (MStatus LIGHTING (lit "12")) /\
  parse_message (lit "*99*1##") = Ok (MGeneric [lit "99"; lit "1"]).
Proof. repeat split. Qed.

(** ** C09 Printing then parsing gives the message back *)

Theorem C09_print_parse : forall m, wellformed m -> parse_message (msg_str m) = Ok m.
Proof. exact print_parse. Qed.
Print Assumptions C09_print_parse.

(** The side conditions are exact: without them the round trip fails. *)
Theorem C09_print_parse_iff : forall m,
  built m -> (parse_message (msg_str m) = Ok m <-> wellformed m).
Proof. exact print_parse_iff. Qed.
Print Assumptions C09_print_parse_iff.

(** The full claim (every built message) is false. *)
Theorem C09_print_parse_refuted :
  (exists m m', built m /\ parse_message (msg_str m) = Ok m' /\ msg_eq m' m = false) /\
  (forall w a p d, built (MDimReq w a (d ++ 35 :: p)) ->
     parse_message (msg_str (MDimReq w a (d ++ 35 :: p))) <> Ok (MDimReq w a (d ++ 35 :: p))) /\
  (forall w a p d vs, built (MDimWri w a (d ++ 35 :: p) vs) ->
     parse_message (msg_str (MDimWri w a (d ++ 35 :: p) vs)) <> Ok (MDimWri w a (d ++ 35 :: p) vs)) /\
  (forall w a d, built (MDimWri w a d []) ->
     parse_message (msg_str (MDimWri w a d [])) <> Ok (MDimWri w a d [])).
Proof. exact print_parse_failures. Qed.
Print Assumptions C09_print_parse_refuted.

Example C09_ex : wellformed (MDimRes ENERGY_MANAGEMENT (lit "51") (lit "72#1") [lit "10"; lit "20"]).
Proof. exact wellformed_example. Qed.

(** ** C10 Parsing then printing gives the frame back *)

Theorem C10_parse_print_iff : forall s l m,
  is_frame s l -> parse_message s = Ok m -> (msg_str m = strip s <-> ~ lossy l).
Proof. exact parse_print_iff. Qed.
Print Assumptions C10_parse_print_iff.

Example C10_ex :
  parse_message (lit "*#1*12*#2##") = Ok (MDimWri LIGHTING (lit "12") (lit "2") []) /\
  msg_str (MDimWri LIGHTING (lit "12") (lit "2") []) = lit "*#1*12*#2*##" /\
  parse_message (lit "*#18*51*#1200#1*5##") = Ok (MDimRes ENERGY_MANAGEMENT (lit "51") (lit "1200#1") [lit "5"]) /\
  msg_str (MDimRes ENERGY_MANAGEMENT (lit "51") (lit "1200#1") [lit "5"]) = lit "*#18*51*1200#1*5##".
Proof. repeat split. Qed.

(** ** C11 Two different messages never share a wire form *)

Theorem C11_injective : forall m1 m2,
  wellformed m1 -> wellformed m2 -> msg_str m1 = msg_str m2 -> m1 = m2.
Proof. exact print_injective. Qed.
Print Assumptions C11_injective.

(** Within one class only the empty value list is confused (with one empty value). *)
Theorem C11_injective_same_class : forall m1 m2,
  built m1 -> built m2 -> msg_type m1 = msg_type m2 -> msg_str m1 = msg_str m2 ->
  m1 = m2 \/
  exists w a d, (m1 = MDimWri w a d [] /\ m2 = MDimWri w a d [[]]) \/
                (m2 = MDimWri w a d [] /\ m1 = MDimWri w a d [[]]) \/
                (m1 = MDimRes w a d [] /\ m2 = MDimRes w a d [[]]) \/
                (m2 = MDimRes w a d [] /\ m1 = MDimRes w a d [[]]).
Proof. exact same_class_injective. Qed.
Print Assumptions C11_injective_same_class.

Example C11_ex :
  wellformed (MDimRes ENERGY_MANAGEMENT (lit "51") (lit "72#1") [lit "10"; lit "20"]) /\
  msg_str (MDimWri LIGHTING [] [] []) = msg_str (MDimWri LIGHTING [] [] [[]]).
Proof. split; [exact wellformed_example|reflexivity]. Qed.

(** ** C12 Every message built from validated tags can be encoded *)

Theorem C12_bytes : forall m,
  built m ->
  msg_bytes m = Ok (msg_str m) /\ Forall wirechar (msg_str m) /\
  exists b, msg_str m = 42 :: b ++ [35; 35].
Proof. exact bytes_ok. Qed.
Print Assumptions C12_bytes.

Theorem C12_generic_bytes_refuted : exists m, msg_bytes m = Err UnicodeEncodeError.
Proof. exact bytes_fail. Qed.
Print Assumptions C12_generic_bytes_refuted.

Example C12_ex : built (MNormal LIGHTING (lit "1") (lit "12#4")).
Proof. exact built_example. Qed.

(** ** C13 Message equality and hashing agree *)

Theorem C13_eq_is_equality : forall a b, msg_eq a b = true <-> a = b.
Proof. exact msg_eq_spec. Qed.
Print Assumptions C13_eq_is_equality.

Theorem C13_eq_equivalence :
  (forall a, msg_eq a a = true) /\
  (forall a b, msg_eq a b = msg_eq b a) /\
  (forall a b c, msg_eq a b = true -> msg_eq b c = true -> msg_eq a c = true) /\
  (forall a b, msg_eq a b = true -> msg_str a = msg_str b /\ msg_type a = msg_type b) /\
  (forall a b, msg_ne a b = true <-> a <> b).
Proof. exact msg_eq_equiv. Qed.
Print Assumptions C13_eq_equivalence.

Theorem C13_eq_hash : forall ht hs hl a b,
  msg_eq a b = true -> msg_hash ht hs hl a = msg_hash ht hs hl b.
Proof. exact msg_eq_hash. Qed.
Print Assumptions C13_eq_hash.

(** "Every message is hashable" is false exactly for generic messages. *)
Theorem C13_hashable_refuted : forall ht hs hl m,
  (msg_hash ht hs hl m = Err TypeError <-> msg_type m = T_GENERIC) /\
  (msg_type m <> T_GENERIC -> exists h, msg_hash ht hs hl m = Ok h).
Proof. exact msg_hashable. Qed.
Print Assumptions C13_hashable_refuted.

Example C13_ex :
  msg_eq (MDimWri LIGHTING [] [] []) (MDimRes LIGHTING [] [] []) = false /\
  msg_eq (MDimRes LIGHTING [] [] []) (MDimWri LIGHTING [] [] []) = false.
Proof. split; reflexivity. Qed.

(** ** C14 ACK and NACK are recognised exactly *)

Theorem C14_ack_nack : forall s,
  (parse_message s = Ok MAck <-> exists w1 w2, white w1 /\ white w2 /\ s = w1 ++ lit "*#*1##" ++ w2) /\
  (parse_message s = Ok MNack <-> exists w1 w2, white w1 /\ white w2 /\ s = w1 ++ lit "*#*0##" ++ w2).
Proof. exact ack_nack. Qed.
Print Assumptions C14_ack_nack.

Example C14_ex : parse_message (lit "*#*1##") = Ok MAck /\ parse_message (lit "*#*01##") <> Ok MAck.
Proof. split; [reflexivity|discriminate]. Qed.

(** ** C15 Unknown WHO frames become generic messages (refuted) *)

(** Every frame of a kind that has a WHO, with a WHO not in the list, raises
    ValueError, which is not one of the library's parse errors: the promised
    GenericMessage is never returned. *)
Theorem C15_unknown_who_refuted : forall s l x,
  is_frame s l -> who_text l x -> ~ In x who_numbers ->
  parse_message s = Err ValueError /\ is_parse_error ValueError = false.
Proof. intros s l x F W I. split; [exact (unknown_who s l x F W I)|reflexivity]. Qed.
Print Assumptions C15_unknown_who_refuted.

(** What holds: generic messages are returned only for shapes without WHO. *)
Theorem C15_generic_only_without_who_partial : forall s l t,
  is_frame s l -> parse_message s = Ok (MGeneric t) -> t = l /\ kind l T_GENERIC /\ forall x, ~ who_text l x.
Proof. exact generic_without_who. Qed.
Print Assumptions C15_generic_only_without_who_partial.

Example C15_ex : is_frame (lit "*9*1*12##") [lit "9"; lit "1"; lit "12"] /\
  who_text [lit "9"; lit "1"; lit "12"] (lit "9") /\ ~ In (lit "9") who_numbers.
Proof. exact unknown_example. Qed.
