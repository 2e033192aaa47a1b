(** * C47: item commands are well-formed frames that parse back *)
From Coq Require Import String List NArith ZArith Bool Lia.
From Verif Require Import PyStr Tags Messages SpecMsg IO Client Items Lighting PyDate Gateway PyFloat Energy SpecFrames FrameThms.
Import ListNotations.
Open Scope N_scope.
Open Scope list_scope.

(** Whatever the gateway answers, each frame a method writes is the text of a
    message of the intended kind with the WHO and the WHERE of the item, and
    parsing it gives that message back. *)
Theorem C47_frames : forall it Y A (x : io Y A) k s b,
  wiretag (it_where it) -> method it Y A x k -> In b (sents (evs_of (x s))) ->
  exists m, addressed it m /\ msg_type m = k /\ b = msg_str m /\ parse_message b = Ok m.
Proof. exact (fun it Y A x k s b H => method_frames it H Y A x k s b). Qed.
Print Assumptions C47_frames.

(** The four methods whose dimension has parameters never write a frame that
    parses back. *)
Theorem C47_parameterised_refuted : forall it Y A (x : io Y A) k s b,
  wiretag (it_where it) -> parameterised it Y A x k -> In b (sents (evs_of (x s))) ->
  exists m, addressed it m /\ msg_type m = k /\ b = msg_str m /\ parse_message b <> Ok m.
Proof. exact (fun it Y A x k s b H => parameterised_frames it H Y A x k s b). Qed.
Print Assumptions C47_parameterised_refuted.

(** Nor does the method that passes text through, when the text contains the
    end of a frame. *)
Theorem C47_brightness_refuted : forall it Y t u s b,
  wiretag (it_where it) -> has_hh t \/ has_hh u ->
  In b (sents (evs_of ((set_brightness_with_speed it (AStr t) (AStr u) : io Y unit) s))) ->
  exists m, addressed it m /\ b = msg_str m /\ parse_message b <> Ok m.
Proof. exact (fun it Y t u s b H => brightness_frames it H Y t u s b). Qed.
Print Assumptions C47_brightness_refuted.

Definition here : item :=
  {| it_client := {| cl_session := Command; cl_proto := true |}; it_who := LIGHTING; it_where := lit "12" |}.

(** The methods do write frames. *)
Example C47_ex :
  sents (evs_of ((set_hsv here 10 20 30 : io Empty_set unit) [Some MAck])) = [lit "*#1*12*#12*10*20*30##"] /\
  sents (evs_of ((get_netinfo here : io Empty_set _) [Some (MDimRes GATEWAY [] (lit "10") (map lit ["10"; "0"; "0"; "1"]%string)); Some MAck]))
    = [lit "*#1*12*10##"; lit "*#1*12*11##"] /\
  sents (evs_of ((start_sending_instant_power here 5 1 : io Empty_set unit) [])) = [lit "*#1*12*#1200#1*5##"] /\
  parse_message (lit "*#1*12*#1200#1*5##") = Ok (MDimRes LIGHTING (lit "12") (lit "1200#1") [lit "5"]) /\
  sents (evs_of ((set_brightness_with_speed here (AStr (lit "1##")) (AStr (lit "2")) : io Empty_set unit) [])) = [lit "*#1*12*#1*1##*2##"] /\
  parse_message (lit "*#1*12*#1*1##*2##") = Err InvalidMessage.
Proof. vm_compute. repeat split. Qed.

Example C47_ex_where : wiretag (it_where here) /\ has_hh (lit "1##").
Proof. split; [apply digits_wire, LightThms2.digits_all; reflexivity|]. exists (lit "1"), []. reflexivity. Qed.
