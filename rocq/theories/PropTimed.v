(** * C86, C87: how long a call can take *)
From Coq Require Import String List NArith ZArith Bool Lia.
From Verif Require Import PyStr Tags Messages AuthHmac IO Client Items Lighting SpecFrames Timed SpecTimed TimedThms.
Import ListNotations.
Open Scope N_scope.
Open Scope list_scope.

(** ** C86 Commands and start() end in bounded time *)

(** Every command ends within five seconds, whatever arrives and whenever, and
    there is no way for it not to end. *)
Theorem C86_commands_end : forall it Y A (x : io Y A) t arr,
  command_method it Y A x ->
  (exists es r t' arr', timed x t arr es r t' arr') /\
  forall es r t' arr', timed x t arr es r t' arr' -> t <= t' <= t + 5000.
Proof.
  exact (fun it Y A x t arr M => conj (timed_exists _ x t arr (command_lawful it Y A x M))
    (fun es r t' arr' => timed_within 1 x t arr es r t' arr' (command_lawful it Y A x M))).
Qed.
Print Assumptions C86_commands_end.

(** It ends at once without reading, when the next message is there, or after
    exactly five seconds of silence with TimeoutError. *)
Theorem C86_commands_exactly : forall it Y A (x : io Y A) t arr es r t' arr',
  command_method it Y A x -> timed x t arr es r t' arr' ->
  (gots es = [] /\ t' = t /\ arr' = arr) \/
  (exists a m, arr = (a, m) :: arr' /\ gots es = [m] /\ a <= t + 5000 /\ t' = N.max t a) \/
  (gots es = [] /\ r = Err TimeoutError /\ t' = t + 5000 /\ arr' = arr /\ quiet_until t' arr).
Proof. exact (fun it Y A x t arr es r t' arr' M => one_read x t arr es r t' arr' (command_lawful it Y A x M)). Qed.
Print Assumptions C86_commands_exactly.

(** start(), once connected, ends within twenty seconds: at most four messages
    are awaited. *)
Theorem C86_start_ends : forall Y C c pw rnd t arr,
  (exists es r t' arr', timed (handshake (Y:=Y) C c pw rnd) t arr es r t' arr') /\
  forall es r t' arr', timed (handshake (Y:=Y) C c pw rnd) t arr es r t' arr' ->
    t <= t' <= t + 20000 /\ (List.length (gots es) <= 4)%nat.
Proof.
  exact (fun Y C c pw rnd t arr => conj (timed_exists _ _ t arr (lawful_handshake C c pw rnd))
    (fun es r t' arr' H => conj (timed_within 4 _ t arr es r t' arr' (lawful_handshake C c pw rnd) H)
      match timed_reads _ _ _ _ _ _ _ _ (lawful_handshake C c pw rnd) H with
      | or_introl (conj _ F) => F
      | or_intror (conj _ (conj F _)) => le_S_n _ _ (le_S _ _ F)
      end)).
Qed.
Print Assumptions C86_start_ends.

(** ** C87 Requests end in bounded time *)

(** A request ends, within five seconds for each message it read and five more. *)
Theorem C87_requests_end : forall it Y A (x : io Y A) t arr,
  request_method it Y A x ->
  (exists es r t' arr', timed x t arr es r t' arr') /\
  forall es r t' arr', timed x t arr es r t' arr' ->
    t <= t' <= t + 5000 * (read_count es + 1) /\
    exists t1, waits t arr (map Some (gots es)) t1 arr' /\
      (t' = t1 \/ r = Err TimeoutError /\ t' = t1 + 5000 /\ quiet_until t' arr').
Proof.
  exact (fun it Y A x t arr M => conj (timed_exists _ x t arr (request_lawful it Y A x M))
    (fun es r t' arr' H => conj (timed_replies _ x t arr es r t' arr' (request_lawful it Y A x M) H)
       (timed_silence _ x t arr es r t' arr' (request_lawful it Y A x M) H))).
Qed.
Print Assumptions C87_requests_end.

(** But no bound holds for all requests: a gateway that keeps answering, one
    reply every five seconds, keeps the request running for as long as it likes,
    and the request then succeeds. *)
Theorem C87_status_bound_refuted : forall bound it Y (body : msg -> res (list Y)) m ys b t,
  is_cmd_session (it_client it) = true -> cl_proto (it_client it) = true ->
  msg_bytes (create_status_message it) = Ok b -> msg_type m = T_NORMAL -> body m = Ok ys ->
  exists arr es t', timed (send_status_request it body) t arr es (Ok tt) t' [] /\ bound < t' - t.
Proof.
  exact (fun bound it Y body m ys b t C P B T M =>
    match status_drip it body m ys b (S (N.to_nat bound)) t C P B T M with
    | ex_intro _ es H => ex_intro _ (drip (S (N.to_nat bound)) t m) (ex_intro _ es (ex_intro _ (t + read_timeout * N.of_nat (S (N.to_nat bound))) (conj H (drip_long bound t))))
    end).
Qed.
Print Assumptions C87_status_bound_refuted.

Theorem C87_dimension_bound_refuted : forall bound it dim Y (body : msg -> res (list Y)) m ys b t,
  is_cmd_session (it_client it) = true -> cl_proto (it_client it) = true ->
  mk dim = Ok dim -> msg_bytes (create_dimension_request_message it dim) = Ok b -> msg_type m = T_DIMRES -> body m = Ok ys ->
  exists arr es t', timed (send_dimension_request it dim body) t arr es (Ok tt) t' [] /\ bound < t' - t.
Proof.
  exact (fun bound it dim Y body m ys b t C P D B T M =>
    match request_drip it dim body m ys b (S (N.to_nat bound)) t C P D B T M with
    | ex_intro _ es H => ex_intro _ (drip (S (N.to_nat bound)) t m) (ex_intro _ es (ex_intro _ (t + read_timeout * N.of_nat (S (N.to_nat bound))) (conj H (drip_long bound t))))
    end).
Qed.
Print Assumptions C87_dimension_bound_refuted.

(** ** Concrete cases *)

Definition lamp : item :=
  {| it_client := {| cl_session := Command; cl_proto := true |}; it_who := LIGHTING; it_where := lit "12" |}.

Example C86_ex_method : command_method lamp Empty_set unit (run_base lamp turn_on).
Proof. exists T_NORMAL. split; [left; apply M_light|auto]. Qed.

(** The gateway answers after 1.2 seconds. *)
Example C86_ex_answer :
  timed (run_base (Y:=Empty_set) lamp turn_on) 100 [(1300, MAck)] [Sent (lit "*1*1*12##"); Got MAck] (Ok tt) 1300 [].
Proof.
  exists [Some MAck]. split; [|reflexivity]. apply W_message; [discriminate|]. constructor.
Qed.
(** The gateway answers too late. *)
Example C86_ex_silence :
  timed (run_base (Y:=Empty_set) lamp turn_on) 100 [(6000, MAck)] [Sent (lit "*1*1*12##")] (Err TimeoutError) 5100 [(6000, MAck)].
Proof.
  exists [None]. split; [|reflexivity]. apply W_deadline; [discriminate|]. constructor.
Qed.
(** A login without password that takes seven seconds. *)
Example C86_ex_start :
  timed (handshake (Y:=Empty_set) {| hash := fun _ _ => []; mac := fun _ _ _ => [] |} (it_client lamp) (lit "1") []) 0
    [(3000, MAck); (7000, MAck)] [Got MAck; Sent (lit "*99*9##"); Got MAck] (Ok tt) 7000 [].
Proof.
  exists [Some MAck; Some MAck]. split; [|reflexivity].
  apply W_message; [discriminate|]. apply W_message; [discriminate|]. constructor.
Qed.

Example C87_ex_method : request_method lamp _ _ (light_get_status lamp).
Proof. exists T_STATUS. split; [left; apply M_light_status|auto]. Qed.
Example C87_ex :
  timed (light_get_status lamp) 0 [(4000, MNormal LIGHTING (lit "1") (lit "12")); (8000, MAck)]
    [Sent (lit "*#1*12##"); Got (MNormal LIGHTING (lit "1") (lit "12")); Yielded (lit "12", true); Got MAck] (Ok tt) 8000 [].
Proof.
  exists [Some (MNormal LIGHTING (lit "1") (lit "12")); Some MAck]. split; [|reflexivity].
  apply W_message; [discriminate|]. apply W_message; [discriminate|]. constructor.
Qed.
Example C87_ex_hyp :
  msg_bytes (create_status_message lamp) = Ok (lit "*#1*12##") /\
  light_status_body (MNormal LIGHTING (lit "1") (lit "12")) = Ok [(lit "12", true)].
Proof. split; reflexivity. Qed.
