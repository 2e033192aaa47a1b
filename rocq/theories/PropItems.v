(** * Properties C44 to C46: commands, requests and their replies *)
From Coq Require Import String List NArith ZArith Bool Lia.
From Verif Require Import PyStr Tags Messages SpecMsg MessageThms3 Protocol SpecProto Queue IO Client SpecItem Items ItemThms ItemThms2.
Import ListNotations.
Open Scope N_scope.
Open Scope list_scope.

Definition lamp : item :=
  {| it_client := {| cl_session := Command; cl_proto := true |}; it_who := LIGHTING; it_where := lit "12" |}.
Lemma lamp_ready : ready lamp /\ placed lamp.
Proof. split; [split; [discriminate|reflexivity]|]. apply (wiretagb_spec (lit "12")). reflexivity. Qed.

(** ** C44 A command succeeds exactly when it is acknowledged *)

Theorem C44_command : forall Y it what (s : script),
  ready it -> placed it -> tagtext what ->
  @answered Y (frame_cmd (it_who it) what (it_where it)) s (send_normal_message it what s).
Proof. exact @command_answered. Qed.
Print Assumptions C44_command.

Theorem C44_writing : forall Y it dim v vs (s : script),
  ready it -> placed it -> tagtext dim -> Forall tagtext (v :: vs) ->
  @answered Y (frame_dimwri (it_who it) (it_where it) dim (v :: vs)) s (send_dimension_writing it dim (v :: vs) s).
Proof. exact @writing_answered. Qed.
Print Assumptions C44_writing.

(** A WHAT or a dimension that is not a tag, and a client that cannot send:
    nothing is written and nothing is read. *)
Theorem C44_bad_tag : forall Y it what dim vs (s : script),
  (~ tagtext what -> (send_normal_message it what s : list (ev Y) * script * res unit) = ([], s, Err InvalidTag)) /\
  (~ tagtext dim -> (send_dimension_writing it dim vs s : list (ev Y) * script * res unit) = ([], s, Err InvalidTag)).
Proof. intros. split; [apply command_refused|apply writing_refused]. Qed.
Print Assumptions C44_bad_tag.

Theorem C44_no_session : forall Y it what dim vs (s : script),
  ~ ready it ->
  (tagtext what -> (send_normal_message it what s : list (ev Y) * script * res unit) = ([], s, Err InvalidSession)) /\
  (tagtext dim -> (send_dimension_writing it dim vs s : list (ev Y) * script * res unit) = ([], s, Err InvalidSession)).
Proof. intros Y it what dim vs s H. split; [apply command_no_session|apply writing_no_session]; assumption. Qed.
Print Assumptions C44_no_session.

Example C44_ex :
  (send_normal_message lamp (lit "1") [Some MAck; Some MNack] : list (ev Empty_set) * script * res unit) =
    ([Sent (lit "*1*1*12##"); Got MAck], [Some MNack], Ok tt) /\
  (send_dimension_writing lamp (lit "2") [lit "0"; lit "5"; lit "0"] [Some MNack] : list (ev Empty_set) * script * res unit) =
    ([Sent (lit "*#1*12*#2*0*5*0##"); Got MNack], [], Err ResponseError) /\
  ready lamp /\ placed lamp.
Proof. split; [reflexivity|]. split; [reflexivity|]. exact lamp_ready. Qed.

(** ** C45 A request yields all replies up to the ACK *)

Theorem C45_status : forall it (s : script),
  ready it -> placed it ->
  requested (frame_status (it_who it) (it_where it)) normal s (send_status_request it as_is s).
Proof. exact status_requested. Qed.
Print Assumptions C45_status.

Theorem C45_dimension : forall it dim (s : script),
  ready it -> placed it -> tagtext dim ->
  requested (frame_dimreq (it_who it) (it_where it) dim) dimres s (send_dimension_request it dim as_is s).
Proof. exact dimension_requested. Qed.
Print Assumptions C45_dimension.

(** The request for a single value reads all replies as well and returns the
    first; no reply at all is a ResponseError. *)
Theorem C45_single : forall Y it dim (s : script),
  ready it -> placed it -> tagtext dim ->
  exists es rest r rs,
    (single_dim_req it dim s : list (ev Y) * script * res msg) = (es, rest, r) /\
    Forall dimres rs /\
    sents es = [frame_dimreq (it_who it) (it_where it) dim] /\
    yields es = [] /\
    exists r0, stream_end dimres rs s (gots es) rest r0 /\
      match r0, rs with
      | Err e, _ => r = Err e
      | Ok _, [] => r = Err ResponseError
      | Ok _, m :: _ => r = Ok m
      end.
Proof. exact @single_spec. Qed.
Print Assumptions C45_single.

Example C45_ex :
  let a := MNormal LIGHTING (lit "1") (lit "12") in
  let b := MNormal LIGHTING (lit "0") (lit "13") in
  send_status_request lamp as_is [Some a; Some b; Some MAck; Some a] =
    ([Sent (lit "*#1*12##"); Got a; Yielded a; Got b; Yielded b; Got MAck], [Some a], Ok tt) /\
  send_status_request lamp as_is [Some a; Some MNack; Some MAck] =
    ([Sent (lit "*#1*12##"); Got a; Yielded a; Got MNack], [Some MAck], Err ResponseError).
Proof. split; reflexivity. Qed.

(** ** C46 Replies belong to the command that caused them (refuted) *)

(** One task, a gateway that answers every command before its timeout: the
    n-th result is what the n-th answer says. *)
Theorem C46_prompt_partial : forall cs (rs : list msg),
  Forall call_ok cs -> length cs = length rs ->
  run_all cs (map Some rs) = map (fun m => verdict (Some m)) rs.
Proof. exact prompt_match. Qed.
Print Assumptions C46_prompt_partial.

(** After [k] timeouts every later command is judged by the answer to the
    command [k] places before it. *)
Theorem C46_late_refuted : forall cs k (rs : list msg),
  Forall call_ok cs -> length cs = (k + length rs)%nat ->
  run_all cs (repeat None k ++ map Some rs) =
  repeat (Err TimeoutError) k ++ map (fun m => verdict (Some m)) rs.
Proof. exact late_shift. Qed.
Print Assumptions C46_late_refuted.

(** A rejected command is reported as accepted. *)
Theorem C46_wrong_success_refuted : forall it c1 c2,
  call_ok (it, c1) -> call_ok (it, c2) ->
  run_all [(it, c1); (it, c2)] [None; Some MAck; Some MNack] = [Err TimeoutError; Ok tt].
Proof. exact late_wrong. Qed.
Print Assumptions C46_wrong_success_refuted.

(** The same after a status request that met an unexpected reply. *)
Theorem C46_leftover_refuted : forall it rs m c (rest : script),
  ready it -> placed it -> call_ok (it, c) ->
  Forall normal rs -> m <> MAck -> ~ normal m ->
  let x := send_status_request it as_is (map Some rs ++ Some m :: Some MAck :: Some MNack :: rest) in
  res_of x = Err ResponseError /\ rest_of x = Some MAck :: Some MNack :: rest /\
  run_all [(it, c)] (rest_of x) = [Ok tt].
Proof. exact leftover_wrong. Qed.
Print Assumptions C46_leftover_refuted.

(** Two tasks: task 0 asked first and the first answer is for it, but task 1
    receives it. *)
Theorem C46_swap_refuted : forall m1 m2,
  streamable m1 -> streamable m2 ->
  exists s, qrun (qinit 2) (swap (msg_str m1) (msg_str m2)) = Some s /\ q_out s = [(1%nat, m1); (0%nat, m2)].
Proof. exact swap_wrong. Qed.
Print Assumptions C46_swap_refuted.

Example C46_ex :
  call_ok (lamp, CWhat (lit "1")) /\ call_ok (lamp, CWrite (lit "2") (lit "0") [lit "5"; lit "0"]) /\
  streamable MAck /\ streamable MNack /\
  run_all [(lamp, CWhat (lit "1")); (lamp, CWhat (lit "0"))] [Some MAck; Some MNack] = [Ok tt; Err ResponseError].
Proof.
  split; [|split; [|split; [|split; [|reflexivity]]]].
  - split; [apply lamp_ready|]. split; [apply lamp_ready|]. apply (wiretagb_spec (lit "1")). reflexivity.
  - split; [apply lamp_ready|]. split; [apply lamp_ready|].
    split; [apply (wiretagb_spec (lit "2")); reflexivity|].
    apply Forall_cons; [apply (wiretagb_spec (lit "0")); reflexivity|].
    apply Forall_cons; [apply (wiretagb_spec (lit "5")); reflexivity|].
    apply Forall_cons; [apply (wiretagb_spec (lit "0")); reflexivity|apply Forall_nil].
  - split; [split; [constructor|exact I]|]. intros [u E]. apply (f_equal (@rev N)) in E.
    rewrite rev_app_distr in E. discriminate E.
  - split; [split; [constructor|exact I]|]. intros [u E]. apply (f_equal (@rev N)) in E.
    rewrite rev_app_distr in E. discriminate E.
Qed.
