(** * The example programs: /repo/examples/*/main.py, command sessions

    Each is [run(host, port, password)]: a client is made and started, a few
    calls are made, the client is closed.  What it prints or logs itself are its
    yielded values.  [asyncio.sleep] has no effect here. *)
From Coq Require Import String List NArith ZArith Bool Lia.
From Verif Require Import PyStr PyDate PyFloat Tags Messages AuthHmac IO Client Items Lighting Gateway Energy Dispatch.
From Verif Require Log.
Import ListNotations.
Open Scope N_scope.
Open Scope list_scope.

(** A line on the standard output, or a record of the root logger: a text,
    followed by [str()] of a value if there is one. *)
Inductive shown := Printed (t : str) (v : option val) | Logged (l : Log.level) (t : str) (v : option val).
Definition print (t : str) : io shown unit := yield (Printed t None).
Definition log (l : Log.level) (t : str) : io shown unit := yield (Logged l t None).

(** [await client.start()]: client/base.py:81-139 *)
Definition opened {Y} (C : crypto) (t : session) (password : str) (rnd : list N) (up : bool) : io Y client :=
  fun s => match start C (new_client t) password rnd up s with
           | (c, (es, s1, Ok _)) => (es, s1, Ok c)
           | (_, (es, s1, Err e)) => (es, s1, Err e)
           end.

(** What all of them do: Client() (whose default session is the command one,
    client/base.py:41), start(), the calls, close(). *)
Definition example (body : client -> io shown unit) (C : crypto) (password : str) (rnd : list N) (up : bool) : io shown client :=
  let* c := opened C Command password rnd up in
  let* _ := body c in
  ret (close c).

(** [async for y in g: ...] with a body that shows one thing. *)
Fixpoint showing {Y Z} (f : Y -> Z) (es : list (ev Y)) : list (ev Z) :=
  match es with
  | [] => []
  | Sent b :: r => Sent b :: showing f r
  | Got m :: r => Got m :: showing f r
  | Yielded y :: r => Yielded (f y) :: showing f r
  end.
Definition async_for {Y Z} (g : io Y unit) (f : Y -> Z) : io Z unit :=
  fun s => match g s with (es, s', r) => (showing f es, s', r) end.

(** Light, Automation and Camera made from a str: items/base.py:38-55 *)
Definition made (c : client) (w : who) (whr : str) : res item :=
  do a <- mk whr; Ok {| it_client := c; it_who := w; it_where := a |}.

(** light_01/main.py:14-21 *)
Definition light_01 (c : client) : io shown unit :=
  let* light := lift (made c LIGHTING (lit "32")) in
  let* _ := run_base light turn_on_1_min in
  async_for (light_get_status light)
    (fun y => Printed (lit "Light " ++ fst y ++ lit " status: " ++ (if snd y then lit "ON" else lit "OFF")) None).

(** automation_01/main.py:14-24 *)
Definition automation_01 (c : client) : io shown unit :=
  let* shutter := lift (made c AUTOMATION (lit "15")) in
  let* _ := run_auto shutter up in
  let* _ := run_auto shutter stop in
  let* _ := run_auto shutter down in
  run_auto shutter stop.

(** camera_01/main.py:15-38 *)
Definition camera_01 (host : str) (c : client) : io shown unit :=
  let* camera := lift (made c VIDEO_DOOR_ENTRY (lit "4000")) in
  let* _ := print (lit "Activating camera...") in
  let* _ := receive_video camera in
  let* _ := print (lit "Camera activated!") in
  let* _ := print (lit "Video stream available at: http://" ++ host ++ lit "/telecamera.php") in
  let* _ := print (10 :: lit "Adjusting camera settings...") in
  let* _ := run_cam camera zoom_in in
  let* _ := run_cam camera increase_luminosity in
  let* _ := run_cam camera increase_contrast in
  let* _ := print (10 :: lit "Displaying dial 1-1...") in
  let* _ := display_dial camera 1 1 in
  let* _ := print (10 :: lit "Freeing video resources...") in
  run_cam camera free_resources.

(** energy_management_01/main.py:18-24 *)
Definition energy_management_01 (c : client) : io shown unit :=
  let* f520 := lift (energy_management c (lit "51")) in
  let* power := get_active_power f520 in
  yield (Logged Log.INFO (lit "Active power: ") (Some (VFloat power))).

(** gateway.py:41-49 the names of the GatewayModel members *)
Definition gateway_model_names : list (str * str) :=
  map (fun p => (lit (fst p), lit (snd p)))
    [("0", "GENERIC"); ("2", "MHServer"); ("4", "MH200"); ("6", "F452"); ("7", "F452V"); ("11", "MHServer2");
     ("12", "H4684"); ("23", "HL4684"); ("200", "MH202")]%string.
Definition gateway_model_name (m : str) : str :=
  match find (fun p => str_eqb (fst p) m) gateway_model_names with Some p => snd p | None => [] end.

(** gateway_01/main.py:18-34 *)
Definition gateway_01 (c : client) : io shown unit :=
  let g := gateway c in
  let* ip := get_ip g in
  let* _ := yield (Printed [] (Some (VAddr ip))) in
  let* model := get_model g in
  let* _ := print (gateway_model_name model) in
  let* dt := get_datetime g in
  let* _ := yield (Printed [] (Some (VDateTime dt))) in
  let* kernel := get_kernel_version g in
  print kernel.

(** [try: x except asyncio.TimeoutError: ...]: [None] if it was raised. *)
Definition attempt {Y A} (x : io Y A) : io Y (option A) :=
  fun s => match x s with
           | (es, s', Ok a) => (es, s', Ok (Some a))
           | (es, s', Err TimeoutError) => (es, s', Ok None)
           | (es, s', Err e) => (es, s', Err e)
           end.

(** [t[-4:]] *)
Definition last4 {A} (l : list A) : list A := skipn (List.length l - 4) l.

(** custom_message_01/main.py:31-36, with the outcome of the [try]. *)
Definition custom_message_01_end (resp status : option msg) : io shown unit :=
  match resp, status with
  | Some resp, Some st =>
      if msg_eq st MAck then
        let* _ := log Log.INFO (lit "The server acknowledged the message") in
        let ip := last4 (msg_tags resp) in
        let* a := lift (index ip 0) in
        let* b := lift (index ip 1) in
        let* c := lift (index ip 2) in
        let* d := lift (index ip 3) in
        print (lit "The ip address of the server is " ++ a ++ [46] ++ b ++ [46] ++ c ++ [46] ++ d)
      else log Log.ERROR (lit "The server did not acknowledge the message")
  | _, _ => log Log.ERROR (lit "The server did not acknowledge the message")
  end.

(** custom_message_01/main.py:16-36 *)
Definition custom_message_01 (c : client) : io shown unit :=
  let* whr := lift (mk []) in
  let* dim := lift (mk (lit "10")) in
  let* _ := client_send c false (MDimReq GATEWAY whr dim) in
  let* resp := attempt (client_read c) in
  match resp with
  | None =>
      let* _ := log Log.ERROR (lit "Timeout while waiting for response") in
      custom_message_01_end None None
  | Some resp =>
      if msg_eq resp MNack then log Log.ERROR (lit "The server did not acknowledge the message")
      else
        let* status := attempt (client_read c) in
        match status with
        | None =>
            let* _ := log Log.ERROR (lit "Timeout while waiting for response") in
            custom_message_01_end (Some resp) None
        | Some st => custom_message_01_end (Some resp) (Some st)
        end
  end.

(** [str()] of a list of strs that contain only digits *)
Definition list_text (l : list str) : str :=
  lit "[" ++ Log.join2 (map (fun x => [39] ++ x ++ [39]) l) ++ lit "]".

(** custom_message_02/main.py:30-41: what is done with a message that is not an
    ACK. *)
Definition custom_message_02_body (m : msg) : list shown * res unit :=
  match m with
  | MNack => ([Logged Log.ERROR (lit "Received NACK") None], Ok tt)
  | MDimRes w whr d vs =>
      let ps := twp_parameters d in
      ([Logged Log.INFO (lit "Received response: " ++ msg_str m) None; Printed (list_text ps) None] ++
       match index ps 0, index ps 1, index vs 0, index vs 1 with
       | Ok month, Ok day, Ok t, Ok v =>
           [Logged Log.INFO (lit "Month: " ++ month ++ lit ", Day: " ++ day ++ lit ", Number of the measure: " ++ t ++ lit ", Value: " ++ v) None]
       | _, _, _, _ => []
       end,
       do _ <- index ps 0; do _ <- index ps 1; do _ <- index vs 0; do _ <- index vs 1; Ok tt)
  | _ => ([], Ok tt)
  end.

(** custom_message_02/main.py:20-41, by recursion on the messages to come
    ([_protocol] is set, so read_message takes the next one). *)
Fixpoint custom_message_02_loop (s : script) : list (ev shown) * script * res unit :=
  match s with
  | [] => ([Yielded (Logged Log.ERROR (lit "Timeout") None)], [], Ok tt)
  | None :: s' => ([Yielded (Logged Log.ERROR (lit "Timeout") None)], s', Ok tt)
  | Some m :: s' =>
      if mtype_eqb (msg_type m) T_ACK then ([Got m], s', Ok tt)
      else match custom_message_02_body m with
           | (ys, Ok _) => match custom_message_02_loop s' with (es, s'', r) => (Got m :: map Yielded ys ++ es, s'', r) end
           | (ys, Err e) => (Got m :: map Yielded ys, s', Err e)
           end
  end.

(** custom_message_02/main.py:16-41 *)
Definition custom_message_02 (c : client) : io shown unit :=
  let* whr := lift (mk (lit "52")) in
  let* dim := lift (mk (lit "511#10#7")) in
  let* _ := client_send c false (MDimReq ENERGY_MANAGEMENT whr dim) in
  custom_message_02_loop.
