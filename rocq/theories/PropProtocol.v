(** * Properties C16 to C19 and C63: packets and frames *)
From Coq Require Import String List NArith ZArith Bool Lia.
From Verif Require Import PyStr Tags Messages SpecMsg MessageThms MessageThms2 MessageThms3 Protocol SpecProto ProtoThms.
Import ListNotations.
Open Scope N_scope.
Open Scope list_scope.

(** ** C16 Messages packed in packets are all delivered in order *)

(** Any number of packets, any number of frames in each, ASCII white space
    before any frame and at the end of a packet. *)
Theorem C16_delivery : forall q (packets : list (list (str * msg) * str)),
  Forall (fun p => Forall (fun f => ascii_white (fst f) /\ streamable (snd f)) (fst p) /\ ascii_white (snd p)) packets ->
  feed {| c_queue := q; c_open := true |} (map (fun p => packet_text (fst p) (snd p)) packets)
  = {| c_queue := q ++ concat (map (fun p => map snd (fst p)) packets); c_open := true |}.
Proof. exact feed_ok. Qed.
Print Assumptions C16_delivery.

(** The side condition is needed: a well-formed message whose last tag ends
    with '#' is never delivered, although it parses. *)
Theorem C16_trailing_hash_refuted : forall m q,
  wellformed m -> (exists u, msg_str m = u ++ [35; 35; 35]) ->
  parse_message (msg_str m) = Ok m /\ exists e, data_received q (msg_str m) = (q, Some e).
Proof. intros m q W H. exact (conj (print_parse m W) (trailing_hash m q W H)). Qed.
Print Assumptions C16_trailing_hash_refuted.

Example C16_ex :
  streamable (MNormal LIGHTING (lit "1") (lit "12")) /\
  feed fresh [lit "*1*1*12##*1*0*13##"; lit "*#*1## "] =
  {| c_queue := [MNormal LIGHTING (lit "1") (lit "12"); MNormal LIGHTING (lit "0") (lit "13"); MAck]; c_open := true |} /\
  wellformed (MNormal LIGHTING (lit "1") (lit "12#")) /\
  data_received [] (lit "*1*1*12###") = ([], Some InvalidMessage).
Proof.
  split; [apply normal_streamable; [apply wiretagb_spec|apply digits_all|discriminate]; reflexivity|].
  split; [reflexivity|]. split; [|reflexivity].
  split; [|exact I]. apply wiretagsb. reflexivity.
Qed.

(** ** C17 Delivery does not depend on TCP segmentation (refuted) *)

(** A frame received in two pieces is delivered exactly when the cut is at an
    end or just before the terminator. *)
Theorem C17_segmentation_refuted : forall m u v,
  streamable m -> msg_str m = u ++ v ->
  (feed fresh [u; v] = {| c_queue := [m]; c_open := true |} <-> u = [] \/ v = [] \/ v = [35; 35]).
Proof. exact cut_frame. Qed.
Print Assumptions C17_segmentation_refuted.

(** A cut inside the digits of an address delivers the command for another
    address and then closes the connection. *)
Theorem C17_wrong_address_refuted : forall w what a b,
  wiretag what -> digits a -> digits b -> a <> [] -> b <> [] ->
  let sent := MNormal w what (a ++ b) in
  let u := removesuffix hh (msg_str (MNormal w what a)) in
  msg_str sent = u ++ b ++ [35; 35] /\
  feed fresh [u; b ++ [35; 35]] = {| c_queue := [MNormal w what a]; c_open := false |}.
Proof. exact cut_address. Qed.
Print Assumptions C17_wrong_address_refuted.

(** What does hold: two segmentations at frame boundaries of one stream of
    messages give the same result. *)
Theorem C17_boundaries_partial : forall q (p1 p2 : list (list msg)),
  Forall (Forall streamable) p1 -> Forall (Forall streamable) p2 -> concat p1 = concat p2 ->
  feed {| c_queue := q; c_open := true |} (map texts p1) = feed {| c_queue := q; c_open := true |} (map texts p2).
Proof. exact feed_boundaries. Qed.
Print Assumptions C17_boundaries_partial.

Example C17_ex :
  feed fresh [lit "*1*1*1"; lit "2##"] = {| c_queue := [MNormal LIGHTING (lit "1") (lit "1")]; c_open := false |} /\
  feed fresh [lit "*1*1*12##"] = {| c_queue := [MNormal LIGHTING (lit "1") (lit "12")]; c_open := true |}.
Proof. split; reflexivity. Qed.

(** ** C18 A packet is queued entirely or not at all *)

Theorem C18_all_or_nothing : forall q data,
  (exists ms, packet_messages data = Ok ms /\ data_received q data = (q ++ ms, None)) \/
  (exists e, packet_messages data = Err e /\ data_received q data = (q, Some e)).
Proof. exact data_received_all_or_nothing. Qed.
Print Assumptions C18_all_or_nothing.

(** What a packet that is accepted contains: ASCII text which, stripped and cut
    at the leftmost terminators, has only empty pieces and valid frames. *)
Theorem C18_packet_iff : forall data ms,
  packet_messages data = Ok ms <->
  Forall (fun c => c < 128) data /\
  exists w1 text w2 ps,
    data = w1 ++ text ++ w2 /\ white w1 /\ white w2 /\ stripped text /\ cut text ps /\
    Forall2 (fun p m => exists l, is_frame (p ++ [35; 35]) l /\ denotes l m)
            (filter (fun p => negb (str_eqb p [])) ps) ms.
Proof. exact packet_iff. Qed.
Print Assumptions C18_packet_iff.

Theorem C18_errors : forall data e,
  packet_messages data = Err e -> e = InvalidMessage \/ e = ValueError \/ e = UnicodeDecodeError.
Proof. exact packet_errors. Qed.
Print Assumptions C18_errors.

(** Why a packet is refused: a byte that is not ASCII, or else its first piece
    that is not a frame of a known WHO. *)
Theorem C18_error_iff : forall data e,
  packet_messages data = Err e <->
  (e = UnicodeDecodeError /\ exists c, In c data /\ 128 <= c) \/
  (Forall (fun c => c < 128) data /\
   exists w1 text w2 ps ps1 p ps2,
     data = w1 ++ text ++ w2 /\ white w1 /\ white w2 /\ stripped text /\ cut text ps /\
     filter (fun p => negb (str_eqb p [])) ps = ps1 ++ p :: ps2 /\
     (forall q, In q ps1 -> exists l m, is_frame (q ++ [35; 35]) l /\ denotes l m) /\
     ((e = InvalidMessage /\ forall l, ~ is_frame (p ++ [35; 35]) l) \/
      (e = ValueError /\ exists l x, is_frame (p ++ [35; 35]) l /\ who_text l x /\ ~ known_who x))).
Proof. exact packet_error_iff. Qed.
Print Assumptions C18_error_iff.

Example C18_ex :
  data_received [MAck] (lit "*1*1*12##*9*1*1##") = ([MAck], Some ValueError) /\
  data_received [MAck] [200] = ([MAck], Some UnicodeDecodeError) /\
  data_received [MAck] (lit "*1*1*12######*#*0##") = ([MAck; MNormal LIGHTING (lit "1") (lit "12"); MNack], None).
Proof. repeat split. Qed.

(** ** C19 One bad frame discards its good neighbours (refuted isolation) *)

Theorem C19_isolation_refuted : forall q ms1 b e ms2,
  Forall streamable ms1 -> Forall streamable ms2 -> bad b e ->
  data_received q (texts ms1 ++ (b ++ [35; 35]) ++ texts ms2) = (q, Some e).
Proof. exact bad_frame. Qed.
Print Assumptions C19_isolation_refuted.

(** ** C63 One bad frame ends the connection *)

Theorem C63_bad_frame_closes : forall q ms1 b e ms2 later,
  Forall streamable ms1 -> Forall streamable ms2 -> bad b e ->
  feed {| c_queue := q; c_open := true |} ((texts ms1 ++ (b ++ [35; 35]) ++ texts ms2) :: later)
  = {| c_queue := q; c_open := false |}.
Proof. exact bad_frame_closes. Qed.
Print Assumptions C63_bad_frame_closes.

(** The connection stays open exactly as long as every packet is accepted. *)
Theorem C63_open_iff : forall q packets,
  c_open (feed {| c_queue := q; c_open := true |} packets) = true <->
  Forall (fun p => exists ms, packet_messages p = Ok ms) packets.
Proof. exact feed_open_iff. Qed.
Print Assumptions C63_open_iff.

Example C19_ex :
  bad (lit "*9*1*12") ValueError /\
  feed fresh [lit "*1*1*12##*9*1*12##*1*0*13##"; lit "*1*1*12##"] = {| c_queue := []; c_open := false |}.
Proof.
  split; [|reflexivity]. split; [discriminate|]. split.
  - split; [apply has_hh_count; reflexivity|]. intros (u & E). cbn in E.
    do 7 (destruct u as [|? u]; [discriminate|injection E as _ E]). destruct u; discriminate.
  - split; [repeat constructor|]. split; [split; reflexivity|reflexivity].
Qed.

(** A frame of an unlisted WHO after two good packets: the third is not read. *)
Example C63_ex :
  feed fresh [lit "*1*1*12##"; lit "*1*1*12##*#*1##"; lit "*9*1*12##"; lit "*1*0*12##"] =
    {| c_queue := [MNormal LIGHTING (lit "1") (lit "12"); MNormal LIGHTING (lit "1") (lit "12"); MAck]; c_open := false |} /\
  c_open (feed fresh [lit "*1*1*12##"; lit "*1*1*12##*#*1##"]) = true.
Proof. split; reflexivity. Qed.
