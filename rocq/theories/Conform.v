(** * The expectations of the project's own unit tests, on the model

    Not proofs of properties: each example is an assertion of a test in
    /repo/tests, evaluated on the model, as a check of the transcription. *)
From Coq Require Import String List NArith ZArith Bool.
From Verif Require Import PyStr Tags Messages Protocol AuthOpen IO Client Items Lighting.
Import ListNotations.
Open Scope N_scope.
Open Scope list_scope.

Definition ok_str (x : res msg) : option str := match x with Ok m => Some (msg_str m) | Err _ => None end.

(** tests/auth/test_open.py *)
Example test_auth_v1 : own_calc_pass (lit "12345") (lit "844308954") = Ok (lit "4294506975").
Proof. vm_compute. reflexivity. Qed.

(** tests/messages/test_ack.py, test_nack.py *)
Example test_ack : parse_message (lit "*#*1##") = Ok MAck /\ msg_str MAck = lit "*#*1##" /\ msg_tags MAck = [lit "#"; lit "1"] /\ msg_type MAck = T_ACK.
Proof. vm_compute. repeat split. Qed.
Example test_nack : parse_message (lit "*#*0##") = Ok MNack /\ msg_str MNack = lit "*#*0##" /\ msg_tags MNack = [lit "#"; lit "0"] /\ msg_type MNack = T_NACK.
Proof. vm_compute. repeat split. Qed.

(** tests/messages/test_generic.py *)
Example test_generic : parse_message (lit "*98*1##") = Ok (MGeneric [lit "98"; lit "1"]) /\ ok_str (parse_message (lit "*98*1##")) = Some (lit "*98*1##").
Proof. vm_compute. repeat split. Qed.

(** tests/messages/test_normal.py *)
Example test_normal : parse_message (lit "*1*1*12##") = Ok (MNormal LIGHTING (lit "1") (lit "12")) /\ ok_str (parse_message (lit "*1*1*12##")) = Some (lit "*1*1*12##").
Proof. vm_compute. repeat split. Qed.
Example test_normal_with_params :
  parse_message (lit "*2*1*41#4#2##") = Ok (MNormal AUTOMATION (lit "1") (lit "41#4#2")) /\
  ok_str (parse_message (lit "*2*1*41#4#2##")) = Some (lit "*2*1*41#4#2##") /\
  twp_tag (lit "41#4#2") = lit "41" /\ twp_parameters (lit "41#4#2") = [lit "4"; lit "2"].
Proof. vm_compute. repeat split. Qed.

(** tests/messages/test_status.py *)
Example test_status_request : parse_message (lit "*#1*12##") = Ok (MStatus LIGHTING (lit "12")) /\ ok_str (parse_message (lit "*#1*12##")) = Some (lit "*#1*12##").
Proof. vm_compute. repeat split. Qed.
Example test_status_request_with_params :
  parse_message (lit "*#1*41#4#2##") = Ok (MStatus LIGHTING (lit "41#4#2")) /\ ok_str (parse_message (lit "*#1*41#4#2##")) = Some (lit "*#1*41#4#2##").
Proof. vm_compute. repeat split. Qed.

(** tests/messages/test_dimension.py *)
Example test_dimension_request : parse_message (lit "*#13**1##") = Ok (MDimReq GATEWAY [] (lit "1")) /\ ok_str (parse_message (lit "*#13**1##")) = Some (lit "*#13**1##").
Proof. vm_compute. repeat split. Qed.
Example test_dimension_request_with_params :
  parse_message (lit "*#13*7#3*1##") = Ok (MDimReq GATEWAY (lit "7#3") (lit "1")) /\ ok_str (parse_message (lit "*#13*7#3*1##")) = Some (lit "*#13*7#3*1##") /\
  twp_tag (lit "7#3") = lit "7" /\ twp_parameters (lit "7#3") = [lit "3"].
Proof. vm_compute. repeat split. Qed.
Example test_dimension_writing :
  parse_message (lit "*#13**#0*21*10*00*01##") = Ok (MDimWri GATEWAY [] (lit "0") [lit "21"; lit "10"; lit "00"; lit "01"]) /\
  ok_str (parse_message (lit "*#13**#0*21*10*00*01##")) = Some (lit "*#13**#0*21*10*00*01##").
Proof. vm_compute. repeat split. Qed.
Example test_dimension_writing_with_params :
  parse_message (lit "*#13*7#3*#0*21*10*00*01##") = Ok (MDimWri GATEWAY (lit "7#3") (lit "0") [lit "21"; lit "10"; lit "00"; lit "01"]) /\
  ok_str (parse_message (lit "*#13*7#3*#0*21*10*00*01##")) = Some (lit "*#13*7#3*#0*21*10*00*01##").
Proof. vm_compute. repeat split. Qed.
Example test_dimension_response :
  parse_message (lit "*#13**1*1*1*1*2012##") = Ok (MDimRes GATEWAY [] (lit "1") [lit "1"; lit "1"; lit "1"; lit "2012"]) /\
  ok_str (parse_message (lit "*#13**1*1*1*1*2012##")) = Some (lit "*#13**1*1*1*1*2012##").
Proof. vm_compute. repeat split. Qed.
Example test_dimension_response_with_params :
  parse_message (lit "*#13*7#3*1*1*1*1*2012##") = Ok (MDimRes GATEWAY (lit "7#3") (lit "1") [lit "1"; lit "1"; lit "1"; lit "2012"]) /\
  ok_str (parse_message (lit "*#13*7#3*1*1*1*1*2012##")) = Some (lit "*#13*7#3*1*1*1*1*2012##").
Proof. vm_compute. repeat split. Qed.

(** tests/protocol/test_protocol.py *)
Example test_data_received : data_received [] (lit "*#*1##") = ([MAck], None) /\ msg_bytes MAck = Ok (lit "*#*1##").
Proof. vm_compute. repeat split. Qed.
Example test_data_received_invalid : exists e, data_received [] (lit "deadbeef") = ([], Some e) /\ is_parse_error e = true.
Proof. exists InvalidMessage. vm_compute. repeat split. Qed.
Example test_data_received_not_ascii : data_received [] [255; 255; 255] = ([], Some UnicodeDecodeError).
Proof. vm_compute. reflexivity. Qed.

(** tests/protocol/test_session.py *)
Example test_session_type_message_generation :
  ok_str (session_message Command) = Some (lit "*99*9##") /\ ok_str (session_message Event) = Some (lit "*99*1##") /\
  ok_str (session_message OldCommand) = Some (lit "*99*0##").
Proof. vm_compute. repeat split. Qed.

(** tests/tags/test_tag.py *)
Example test_tag_with_params :
  tag_make (AStr (lit "123")) = Ok (lit "123") /\ twp_tag (lit "123") = lit "123" /\ twp_parameters (lit "123") = [] /\
  twp_tag (lit "123#512#123#1#22#1213") = lit "123" /\
  twp_parameters (lit "123#512#123#1#22#1213") = map lit ["512"; "123"; "1"; "22"; "1213"]%string /\
  twp_tag (lit "#512#123#1#22#1213") = [] /\ twp_tag [] = [] /\ twp_parameters [] = [] /\
  tag_make (AStr (lit "123#512#123#-1")) = Err InvalidTag /\ tag_make (AStr (lit "123#param1#param2")) = Err InvalidTag /\
  tag_make (AStr (lit "#param1#param2")) = Err InvalidTag.
Proof. vm_compute. repeat split. Qed.
Example test_tag :
  tag_tag (lit "123") = lit "123" /\ tag_parameters (lit "123") = None /\ tag_tag (lit "#123") = lit "123" /\ tag_tag [] = [] /\
  tag_make (AStr (lit "123sjkkw")) = Err InvalidTag.
Proof. vm_compute. repeat split. Qed.
Example test_conversion_to_params_tag :
  with_parameter (lit "123") (AStr (lit "1")) = Ok (lit "123#1") /\ with_parameter (lit "123#1") (AStr (lit "1")) = Ok (lit "123#1#1").
Proof. vm_compute. repeat split. Qed.

(** tests/tags/test_who.py *)
Example test_who_conversion : who_name SCENE = Ok (lit "Scene") /\ who_name LIGHTING = Ok (lit "Lighting") /\ who_name AUTOMATION = Ok (lit "Automation").
Proof. vm_compute. repeat split. Qed.
Example test_parsing :
  who_of (lit "0") = Ok SCENE /\ who_of (lit "1") = Ok LIGHTING /\ who_of (lit "2") = Ok AUTOMATION /\
  who_of (lit "invalid") = Err ValueError /\ who_of (lit "1527627") = Err ValueError.
Proof. vm_compute. repeat split. Qed.

(** tests/items/test_camera.py: the frames of the three commands *)
Definition camera : item := {| it_client := {| cl_session := Command; cl_proto := true |}; it_who := VIDEO_DOOR_ENTRY; it_where := lit "4000" |}.
Definition writes_of {A} (x : list (ev Empty_set) * script * res A) : list (list N) :=
  flat_map (fun e => match e with Sent b => [b] | _ => [] end) (fst (fst x)).
Example test_camera :
  writes_of (receive_video camera [Some MAck]) = [lit "*7*0*4000##"] /\
  writes_of (run_cam camera zoom_in [Some MAck]) = [lit "*7*120##"] /\
  writes_of (run_cam camera free_resources [Some MAck]) = [lit "*7*9##"].
Proof. vm_compute. repeat split. Qed.
