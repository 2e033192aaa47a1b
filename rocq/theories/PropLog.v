(** * Properties C109 and C110: the log *)
From Coq Require Import String List NArith ZArith Bool Lia.
From Verif Require Import PyStr Regex Tags Messages SpecMsg MessageThms3 AuthOpen AuthHmac SpecOpen OpenThms IO Protocol SpecProto Client Items Energy Dispatch
  Errors SpecErrors ErrorThms Log SpecLog LogThms LogThms2 SpecClient.
Import ListNotations.
Open Scope N_scope.
Open Scope list_scope.

(** ** C109: the log is a transcript of the traffic (refuted in part) *)

(** One DEBUG record for each packet that was accepted and held a message, in
    order, with the messages of that packet: together, what was queued. *)
Theorem C109_received : forall other self es, exists groups,
  c_queue (n_conn (nrun other self es)) = concat groups /\ Forall (fun g => g <> [] /\ Forall built g) groups /\
  filter told_received (n_log (nrun other self es)) =
    map (fun g => Rec L_protocol DEBUG (lit "Received messages: " ++ msgs_repr g)) groups.
Proof. exact run_received. Qed.
Print Assumptions C109_received.

(** One DEBUG record for each message given to the transport, in order, with
    its text; while the connection is open, these are the frames written. *)
Theorem C109_sent : forall other self es,
  filter told_sent (n_log (nrun other self es)) =
    map (fun m => Rec L_protocol DEBUG (lit "Sent message: " ++ msg_str m)) (sends es) /\
  exists k, n_written (nrun other self es) = firstn k (map msg_str (sends es)) /\
    (c_open (n_conn (nrun other self es)) = true -> k = length (sends es)) /\ (k <= length (sends es))%nat.
Proof. exact run_sent. Qed.
Print Assumptions C109_sent.

(** The texts lose nothing: histories with the same log received the same
    messages and were told to send the same frames. *)
Theorem C109_same : forall other1 self1 other2 self2 es1 es2,
  n_log (nrun other1 self1 es1) = n_log (nrun other2 self2 es2) ->
  c_queue (n_conn (nrun other1 self1 es1)) = c_queue (n_conn (nrun other2 self2 es2)) /\
  map msg_str (sends es1) = map msg_str (sends es2).
Proof. exact log_determines. Qed.
Print Assumptions C109_same.

(** After the end of the connection "Sent message" is logged and nothing written. *)
Theorem C109_sent_refuted : forall other self es m, c_open (n_conn (nrun other self es)) = false ->
  forallb (fun c => c <? 128) (msg_str m) = true ->
  n_written (nrun other self (es ++ [NSend m])) = n_written (nrun other self es) /\
  n_log (nrun other self (es ++ [NSend m])) = n_log (nrun other self es) ++ [Rec L_protocol DEBUG (lit "Sent message: " ++ msg_str m)].
Proof.
  intros other self es m O A. rewrite nrun_snoc. cbn [nstep]. pose proof (msg_bytes_cases m) as B. rewrite A in B. rewrite B, O. split; reflexivity.
Qed.
Print Assumptions C109_sent_refuted.

(** A packet that is refused: two ERROR records and the end of the connection;
    before them a WARNING with the hexadecimal form of the packet if it is not
    ASCII, or with the text of the part that is no message; but no WARNING
    where the part is a frame of an unknown WHO. *)
Theorem C109_refused : forall other self n data e, c_open (n_conn n) = true -> packet_messages data = Err e ->
  exists w what, n_log (nstep other self n (NData data)) = n_log n ++ w ++
    [Rec L_client ERROR (lit "Exception occurred: Fatal error: protocol.data_received() call failed. (" ++ what ++ lit ")"); Rec L_client ERROR (lit "Protocol error: " ++ self)] /\
  c_open (n_conn (nstep other self n (NData data))) = false /\
  ((~ Forall (fun c => c < 128) data /\ w = [Rec L_protocol WARNING (lit "Received data not ascii: " ++ hexs data)]) \/
   exists w1 text w2 ps1 p ps2,
    data = w1 ++ text ++ w2 /\ white w1 /\ white w2 /\ cut text (ps1 ++ p :: ps2) /\ p <> [] /\
    (forall q, In q ps1 -> q <> [] -> exists l m, is_frame (q ++ [35; 35]) l /\ denotes l m) /\
    ((exists t, what = lit "Invalid message: " ++ t /\ w = [Rec L_protocol WARNING (lit "Received invalid message: Invalid message: " ++ t)] /\
                about (p ++ [35; 35]) t /\ (t = p ++ [35; 35] \/ stripped t) /\ forall l, ~ is_frame t l) \/
     (w = [] /\ exists l x, is_frame (p ++ [35; 35]) l /\ who_text l x /\ ~ known_who x))).
Proof. exact refused_log. Qed.
Print Assumptions C109_refused.

(** At INFO a connection on which nothing is refused shows its beginning and
    its end, whatever is received, sent, paused, resumed or closed. *)
Theorem C109_quiet : forall other self es, Forall accepted es ->
  filter seen_at_info (n_log (nrun other self es)) = Rec L_protocol INFO (lit "Connection made") :: map end_record (ends es).
Proof. exact quiet_log. Qed.
Print Assumptions C109_quiet.

(** After close(), the loss of the connection or a refused packet nothing is
    received or written any more. *)
Theorem C109_end : forall other self es e es',
  (e = NClose \/ (exists why, e = NLost why) \/ exists data x, e = NData data /\ packet_messages data = Err x) ->
  c_queue (n_conn (nrun other self (es ++ e :: es'))) = c_queue (n_conn (nrun other self es)) /\
  n_written (nrun other self (es ++ e :: es')) = n_written (nrun other self es).
Proof. exact closed_for_good. Qed.
Print Assumptions C109_end.

Definition log_ex : list nev :=
  [NData (lit "*#*1##"); NSend (MGeneric [lit "99"; lit "0"]); NPause; NData (lit "*1*1*12##*1*0*13##"); NData []; NResume;
   NData (lit "*77*1*12##"); NSend MAck; NLost (Some (lit "Unknown WHO: 77"))].
Example C109_run_ex : forall self,
  let n := nrun (fun _ _ => lit "Unknown WHO: 77") self log_ex in
  n_written n = [lit "*99*0##"] /\
  n_log n = [
    Rec L_protocol INFO (lit "Connection made");
    Rec L_protocol DEBUG (lit "Received messages: [<ACK: #,1>]");
    Rec L_protocol DEBUG (lit "Sent message: *99*0##");
    Rec L_protocol DEBUG (lit "Paused writing");
    Rec L_protocol DEBUG (lit "Received messages: [<NormalMessage: 1,1,12>, <NormalMessage: 1,0,13>]");
    Rec L_protocol DEBUG (lit "Resumed writing");
    Rec L_client ERROR (lit "Exception occurred: Fatal error: protocol.data_received() call failed. (Unknown WHO: 77)");
    Rec L_client ERROR (lit "Protocol error: " ++ self);
    Rec L_protocol DEBUG (lit "Sent message: *#*1##");
    Rec L_protocol INFO (lit "Connection lost with exception: Unknown WHO: 77")].
Proof. intros self. vm_compute. split; reflexivity. Qed.

Example C109_refused_ex : forall other self,
  n_log (nrun other self [NData (lit "*1*1*12##*1*+*13##")]) = [
    Rec L_protocol INFO (lit "Connection made");
    Rec L_protocol WARNING (lit "Received invalid message: Invalid message: *1*+*13##");
    Rec L_client ERROR (lit "Exception occurred: Fatal error: protocol.data_received() call failed. (Invalid message: *1*+*13##)");
    Rec L_client ERROR (lit "Protocol error: " ++ self)] /\
  nth 1 (n_log (nrun other self [NData [42; 200; 7]])) (Rec L_client ERROR []) = Rec L_protocol WARNING (lit "Received data not ascii: 2ac807").
Proof. intros. vm_compute. split; reflexivity. Qed.

Example C109_quiet_ex : Forall accepted (firstn 6 log_ex).
Proof. repeat (apply Forall_cons; [intros d [= <-] || (intros d E; discriminate E); eexists; vm_compute; reflexivity|]). apply Forall_nil. Qed.

(** ** C110: the log does not reveal the password (refuted) *)

(** The model with records and texts is the model of start(). *)
Theorem C110_same : forall Y other odd C c p rnd connected s,
  fst (start_l other odd C c p rnd connected s) = fst (start (Y := Y) C c p rnd connected s) /\
  forget_out (snd (start_l other odd C c p rnd connected s)) = snd (start (Y := Y) C c p rnd connected s).
Proof. exact @start_same. Qed.
Print Assumptions C110_same.

(** At INFO: for a given conversation the records and the text of the exception
    are the same for all passwords, up to whether the login succeeds. *)
Theorem C110_info : forall other odd C c connected s, exists l e, forall p rnd, numeric p \/ ~ open_challenge s /\ encodable p ->
  (snd (snd (start_l other odd C c p rnd connected s)) = inl tt /\
   infos (fst (fst (snd (start_l other odd C c p rnd connected s)))) = l ++ [Rec L_client INFO (lit "Client ready")]) \/
  (snd (snd (start_l other odd C c p rnd connected s)) = inr e /\ infos (fst (fst (snd (start_l other odd C c p rnd connected s)))) = l).
Proof. exact start_blind. Qed.
Print Assumptions C110_info.

(** At DEBUG, with the OPEN algorithm: the record of the reply and the nonce
    give the password away, as on the wire (C29). *)
Theorem C110_debug_refuted : forall other odd C c p v rnd nonce s, py_int p = Ok v ->
  exists d, In (Rec L_protocol DEBUG (lit "Sent message: *#" ++ d ++ lit "##")) (logged (fst (fst (snd (start_l other odd C c p rnd true (challenge nonce s)))))) /\
    recover nonce (Z.of_N (dval d)) = (v mod 2 ^ 32)%Z.
Proof. exact open_leak. Qed.
Print Assumptions C110_debug_refuted.

(** A password that is no number, on an OPEN challenge: the exception of start()
    spells it out. *)
Theorem C110_text_refuted : forall other odd C c p rnd nonce s, plain_password p -> ~ numeric p ->
  snd (snd (start_l other odd C c p rnd true (challenge nonce s))) =
    inr (ValueError, lit "invalid literal for int() with base 10: '" ++ p ++ lit "'") /\
  infos (fst (fst (snd (start_l other odd C c p rnd true (challenge nonce s))))) =
    [Rec L_protocol INFO (lit "Connection made"); Rec L_client INFO (lit "Using open authentication")].
Proof. exact open_text. Qed.
Print Assumptions C110_text_refuted.

Definition client_ex : client := {| cl_session := Command; cl_proto := false |}.
Definition crypto_ex : crypto := {| hash := fun _ x => x; mac := fun _ _ x => [1; N.of_nat (length x) mod 10] |}.
Definition start_ex (p : str) (s : script) :=
  snd (start_l (fun _ _ => []) (fun _ => []) crypto_ex client_ex p [] true s).

Example C110_open_ex : logged (fst (fst (start_ex (lit "12345") (challenge (lit "603356072") [Some MAck])))) = [
    Rec L_protocol INFO (lit "Connection made");
    Rec L_client DEBUG (lit "Connection started");
    Rec L_client DEBUG (lit "Starting handshake");
    Rec L_protocol DEBUG (lit "Sent message: *99*9##");
    Rec L_client INFO (lit "Using open authentication");
    Rec L_protocol DEBUG (lit "Sent message: *#25280520##");
    Rec L_client INFO (lit "Client ready")] /\
  recover (lit "603356072") 25280520 = 12345%Z.
Proof. vm_compute. split; reflexivity. Qed.

Example C110_text_ex : plain_password (lit "my secret") /\ ~ numeric (lit "my secret").
Proof.
  split.
  - split; [|vm_compute; discriminate]. repeat (apply Forall_cons; [vm_compute; repeat split; discriminate|]). apply Forall_nil.
  - intros [v E]. vm_compute in E. discriminate.
Qed.

(** Both outcomes of C110_info occur in one conversation, which is no OPEN one. *)
Definition hmac_script : script :=
  [Some MAck; Some (MGeneric [lit "98"; lit "2"]); Some (MGeneric [lit "0711"]); Some (MGeneric [lit "16"])].
Example C110_info_ex :
  ~ open_challenge hmac_script /\
  snd (start_ex (lit "secret") hmac_script) = inl tt /\
  snd (start_ex (lit "guess") hmac_script) = inr (InvalidAuthentication, lit "Invalid password") /\
  infos (fst (fst (start_ex (lit "secret") hmac_script))) =
    [Rec L_protocol INFO (lit "Connection made"); Rec L_client INFO (lit "Using hmac authentication"); Rec L_client INFO (lit "Client ready")].
Proof.
  split; [|vm_compute; repeat split; reflexivity]. intros (m1 & m2 & s' & E & L). injection E as <- <- _. discriminate.
Qed.
