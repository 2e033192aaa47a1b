(** * Property C106: what the exceptions carry *)
From Coq Require Import String List NArith ZArith Bool Lia.
From Verif Require Import PyStr Regex Tags Messages SpecMsg MessageThms Protocol SpecProto Client Items Energy SpecEnergy Dispatch ParseThms Errors
  SpecErrors ErrorThms.
Import ListNotations.
Open Scope N_scope.
Open Scope list_scope.

(** The attribute changes nothing else: without it these are the functions of
    the other properties. *)
Theorem C106_same :
  (forall a, forget (tag_make_x a) = tag_make a) /\
  (forall k l, forget (class_parse_x k l) = class_parse k l) /\
  (forall s, forget (parse_message_x s) = parse_message s) /\
  (forall data, forget (packet_messages_x data) = packet_messages data) /\
  (forall c w, forget (energy_management_x c w) = energy_management c w) /\
  (forall c w, forget (stop_go_x c w) = stop_go c w) /\
  (forall c m, forget (class_call_x c m) = class_call c m).
Proof.
  exact (conj forget_tag (conj forget_class (conj forget_parse (conj forget_packet
    (conj forget_energy (conj forget_stop_go forget_call)))))).
Qed.
Print Assumptions C106_same.

(** A text that is not a frame: the InvalidMessage carries it, at most without
    the white space around it, and what it carries is not a frame either.  The
    other failure of the parser is a plain ValueError. *)
Theorem C106_text : forall s,
  ((forall l, ~ is_frame s l) ->
   exists t, blames (parse_message_x s) InvalidMessage t /\ about s t /\ (t = s \/ stripped t) /\ forall l, ~ is_frame t l) /\
  (forall l r, is_frame s l -> parse_message_x s = Raise r -> r = {| r_class := ValueError; r_what := None |}).
Proof. exact (fun s => conj (text_blamed s) (text_value s)). Qed.
Print Assumptions C106_text.

(** A packet: the exception is about the first frame in it that cannot be
    parsed, every frame before it can. *)
Theorem C106_packet : forall data r, packet_messages_x data = Raise r ->
  (r = {| r_class := UnicodeDecodeError; r_what := None |} /\ ~ Forall (fun c => c < 128) data) \/
  exists w1 text w2 ps1 p ps2,
    data = w1 ++ text ++ w2 /\ white w1 /\ white w2 /\ cut text (ps1 ++ p :: ps2) /\ p <> [] /\
    (forall q, In q ps1 -> q <> [] -> exists l m, is_frame (q ++ [35; 35]) l /\ denotes l m) /\
    ((exists t, r = {| r_class := InvalidMessage; r_what := Some t |} /\ about (p ++ [35; 35]) t /\
                (t = p ++ [35; 35] \/ stripped t) /\ forall l, ~ is_frame t l) \/
     (r = {| r_class := ValueError; r_what := None |} /\
      exists l x, is_frame (p ++ [35; 35]) l /\ who_text l x /\ ~ known_who x)).
Proof. exact packet_blamed. Qed.
Print Assumptions C106_packet.

(** InvalidTag carries a text outside the alphabet of the tags: the text given
    to the constructor of a tag, or one of the tags given to a class parser
    (without its '#'); for a generic message, the first of them. *)
Theorem C106_tag :
  (forall a r, tag_make_x a = Raise r -> r_class r = InvalidTag -> exists t, written a t /\ ~ tagtext t /\ r_what r = Some t) /\
  (forall k l r, class_parse_x k l = Raise r -> r_class r = InvalidTag ->
     exists t, r_what r = Some t /\ ~ tagtext t /\ (In t l \/ In (35 :: t) l)) /\
  (forall l, ~ Forall tagtext l ->
     exists l1 t l2, l = l1 ++ t :: l2 /\ Forall tagtext l1 /\ ~ tagtext t /\ blames (class_parse_x T_GENERIC l) InvalidTag t).
Proof. exact (conj make_blamed (conj tag_blamed generic_blamed)). Qed.
Print Assumptions C106_tag.

(** NACK.parse reports the frame of the tags it was given. *)
Theorem C106_nack : forall l r, class_parse_x T_NACK l = Raise r -> r_class r = InvalidMessage -> r_what r = Some (wire l).
Proof. exact nack_blamed. Qed.
Print Assumptions C106_nack.

(** ACK.parse does not: it reports the same sentence whatever it was given. *)
Theorem C106_ack_refuted : forall l r, class_parse_x T_ACK l = Raise r -> r_class r = InvalidMessage ->
  r_what r = Some (lit "Invalid ACK message") /\ r_what r <> Some (wire l).
Proof.
  intros l r E C. pose proof (ack_blamed l r E C) as W. split; [exact W|]. rewrite W. intros [= X].
  destruct l as [|t l]; discriminate.
Qed.
Print Assumptions C106_ack_refuted.

(** Energy items: the InvalidTag carries the address. *)
Theorem C106_address : forall c w r, energy_management_x c w = Raise r -> r_class r = InvalidTag -> r_what r = Some w.
Proof. exact energy_blamed. Qed.
Print Assumptions C106_address.

(** A StopGo with the address of another energy item: the tag of the exception
    is a sentence. *)
Theorem C106_stop_go_refuted : forall c w r, stop_go_x c w = Raise r -> r_class r = InvalidTag ->
  ((forall t, ~ energy_class w t) /\ r_what r = Some w) \/
  ((exists t, energy_class w t /\ t <> STOP_GO) /\ r_what r = Some (lit "Invalid tag for a Stop&Go item: " ++ w)).
Proof. exact stop_go_blamed. Qed.
Print Assumptions C106_stop_go_refuted.

(** request_status over messages given by the caller: the first one that is not
    the answer of a Stop&Go device is reported. *)
Theorem C106_status : forall ms st r, status_of_messages_x ms st = Raise r -> r_class r = InvalidMessage ->
  exists ms1 m ms2, ms = ms1 ++ m :: ms2 /\ (exists st', status_of_messages_x ms1 st = Okx st') /\ r_what r = Some (msg_str m) /\
    (forall w a d vs, m = MDimRes w a d vs -> ~ known_dim d).
Proof. exact status_blamed. Qed.
Print Assumptions C106_status.

(** call_callbacks of lights, automations and cameras reports the message. *)
Theorem C106_callbacks : forall c m r, In c [C_Light; C_Automation; C_Camera] ->
  class_call_x c m = Raise r -> r_class r = InvalidMessage -> r_what r = Some (msg_str m).
Proof.
  intros c m r I E C. rewrite (callback_blamed c m r E C). destruct I as [<-|[<-|[<-|[]]]]; reflexivity.
Qed.
Print Assumptions C106_callbacks.

(** Those of the gateway and of the energy items report a sentence. *)
Theorem C106_callbacks_refuted : forall c m r, In c [C_Gateway; C_Energy] ->
  class_call_x c m = Raise r -> r_class r = InvalidMessage ->
  r_what r = Some (lit "The message is not a DimensionResponse message.") /\ r_what r <> Some (msg_str m).
Proof.
  intros c m r I E C. rewrite (callback_blamed c m r E C). split.
  - destruct I as [<-|[<-|[]]]; reflexivity.
  - intros [= X]. assert (Y : forall m, exists t, msg_str m = 42 :: t) by (intros []; eexists; reflexivity).
    destruct (Y m) as [t Z]. rewrite Z in X. destruct I as [<-|[<-|[]]]; discriminate.
Qed.
Print Assumptions C106_callbacks_refuted.

Example C106_ex :
  blames (parse_message_x (lit " *1*x*12## ")) InvalidMessage (lit "*1*x*12##") /\
  blames (parse_message_x (lit " *1*1*12 ")) InvalidMessage (lit " *1*1*12 ") /\
   blames (packet_messages_x (lit "*1*1*12##*1*x*13##*y##")) InvalidMessage (lit "*1*x*13##") /\
   blames (class_parse_x T_NACK [lit "1"; lit "2"]) InvalidMessage (lit "*1*2##") /\
   blames (class_parse_x T_ACK [lit "1"; lit "2"]) InvalidMessage (lit "Invalid ACK message") /\
   blames (class_parse_x T_DIMWRI [lit "#1"; lit "12"; lit "#1x"]) InvalidTag (lit "1x") /\
   blames (tag_make_x (ABool false)) InvalidTag (lit "False") /\
   blames (tag_make_x (AInt (-12))) InvalidTag (lit "-12") /\
   blames (class_call_x C_Light MAck) InvalidMessage (lit "*#*1##") /\
   blames (class_call_x C_Energy MAck) InvalidMessage (lit "The message is not a DimensionResponse message.").
Proof. vm_compute. repeat split. Qed.

Example C106_ex_items : forall c,
  blames (stop_go_x c (lit "51")) InvalidTag (lit "Invalid tag for a Stop&Go item: 51") /\
  blames (stop_go_x c (lit "31")) InvalidTag (lit "31") /\
  blames (energy_management_x c (lit "75#1")) InvalidTag (lit "75#1") /\
  blames (status_of_messages_x [MDimRes ENERGY_MANAGEMENT (lit "11") (lit "251") [lit "1"]; MDimRes ENERGY_MANAGEMENT (lit "11") (lit "113") [lit "7"]]
    fresh_status) InvalidMessage (lit "*#18*11*113*7##").
Proof. intros c. vm_compute. repeat split. Qed.
