(** * Which reply judges which command *)
From Coq Require Import String List NArith ZArith Bool Lia.
From Verif Require Import PyStr Tags Messages SpecMsg MessageThms2 Protocol SpecProto ProtoThms Queue QueueThms IO Client SpecItem Items HandshakeThms ItemThms.
Import ListNotations.
Open Scope N_scope.
Open Scope list_scope.

(** ** Single dimension requests *)

Lemma drop_yields_spec {Y Z} (es : list (ev Y)) :
  sents (drop_yields (Z:=Z) es) = sents es /\ gots (drop_yields (Z:=Z) es) = gots es /\ yields (drop_yields (Z:=Z) es) = [].
Proof.
  induction es as [|[b|m|y] es (IH1 & IH2 & IH3)]; cbn; [auto| | |auto].
  - rewrite IH1. auto.
  - rewrite IH2. auto.
Qed.

(** All replies are read, the first one is the result. *)
Theorem single_spec {Y} it dim (s : script) :
  ready it -> placed it -> tagtext dim ->
  exists es rest r rs,
    (single_dim_req it dim s : list (ev Y) * script * res msg) = (es, rest, r) /\
    Forall dimres rs /\
    sents es = [frame_dimreq (it_who it) (it_where it) dim] /\
    yields es = [] /\
    exists r0, stream_end dimres rs s (gots es) rest r0 /\
      match r0, rs with
      | Err e, _ => r = Err e
      | Ok _, [] => r = Err ResponseError
      | Ok _, m :: _ => r = Ok m
      end.
Proof.
  intros Hr Hp Hd. pose proof (dimension_requested it dim s Hr Hp Hd) as (rs & H1 & H2 & H3 & H4).
  unfold single_dim_req, andthen, collect.
  destruct (send_dimension_request it dim as_is s) as [[es rest] r0] eqn:E.
  unfold evs_of, rest_of, res_of in *. cbn [fst snd] in *.
  destruct (drop_yields_spec (Z:=Y) es) as (D1 & D2 & D3).
  destruct r0 as [[]|e].
  - destruct rs as [|m rs]; rewrite H3.
    + do 3 eexists. exists []. split; [reflexivity|]. split; [constructor|].
      rewrite app_nil_r, D1, D2, D3, H2. split; [reflexivity|]. split; [reflexivity|].
      exists (Ok tt). split; [assumption|reflexivity].
    + assert (Hm : is_dimres m = true) by (apply is_dimres_spec; inversion H1; assumption).
      rewrite Hm. do 3 eexists. exists (m :: rs). split; [reflexivity|]. split; [assumption|].
      rewrite app_nil_r, D1, D2, D3, H2. split; [reflexivity|]. split; [reflexivity|].
      exists (Ok tt). split; [assumption|reflexivity].
  - do 3 eexists. exists rs. split; [reflexivity|]. split; [assumption|].
    rewrite D1, D2, D3, H2. split; [reflexivity|]. split; [reflexivity|].
    exists (Err e). split; [assumption|reflexivity].
Qed.

(** ** One task *)

(** A command call on an item. *)
Inductive cmd := CWhat (what : str) | CWrite (dim v : str) (vs : list str).
Definition cmd_ok (c : cmd) : Prop :=
  match c with CWhat w => tagtext w | CWrite d v vs => tagtext d /\ Forall tagtext (v :: vs) end.
Definition cmd_run (it : item) (c : cmd) : io Empty_set unit :=
  match c with CWhat w => send_normal_message it w | CWrite d v vs => send_dimension_writing it d (v :: vs) end.

(** Calls made one after the other by one task; the results. *)
Fixpoint run_all (cs : list (item * cmd)) (s : script) : list (res unit) :=
  match cs with
  | [] => []
  | (it, c) :: cs' => match cmd_run it c s with (_, s', r) => r :: run_all cs' s' end
  end.

(** What a reply says about a command. *)
Definition verdict (e : option msg) : res unit :=
  match e with Some MAck => Ok tt | Some _ => Err ResponseError | None => Err TimeoutError end.

Definition call_ok (p : item * cmd) : Prop := ready (fst p) /\ placed (fst p) /\ cmd_ok (snd p).

Lemma cmd_answered p (s : script) :
  call_ok p -> exists b, answered b s (cmd_run (fst p) (snd p) s).
Proof.
  destruct p as [it [w|d v vs]]; intros (Hr & Hp & Hc); cbn [fst snd] in *.
  - eexists. apply command_answered; assumption.
  - destruct Hc as [Hd Hv]. eexists. apply writing_answered; assumption.
Qed.

Lemma cmd_head p e (s : script) :
  call_ok p -> exists es, cmd_run (fst p) (snd p) (e :: s) = (es, s, verdict e).
Proof.
  intros H. destruct (cmd_answered p (e :: s) H) as [b Hb].
  inversion Hb as [s' E1 E2|m s' Hm E1 E2|s' E1 E2|]; subst; eexists; [reflexivity| |reflexivity].
  destruct m; try reflexivity. congruence.
Qed.

(** The j-th command is judged by the j-th thing that happens to a read. *)
Theorem by_position cs (s : script) :
  Forall call_ok cs -> (length cs <= length s)%nat ->
  run_all cs s = map verdict (firstn (length cs) s).
Proof.
  intros H. revert s. induction H as [|p cs Hp _ IH]; intros s Hl; [reflexivity|].
  destruct s as [|e s]; [cbn in Hl; lia|]. destruct p as [it c].
  destruct (cmd_head (it, c) e s Hp) as [es E]. cbn [fst snd] in E.
  cbn [run_all length firstn map]. rewrite E. rewrite IH by (cbn in Hl; lia). reflexivity.
Qed.

(** A gateway that answers each command, in order; the first [k] answers come
    after the timeout of the command they belong to: they are in the queue
    when the next commands are sent. *)
Theorem late_shift cs k (rs : list msg) :
  Forall call_ok cs -> length cs = (k + length rs)%nat ->
  run_all cs (repeat None k ++ map Some rs) =
  repeat (Err TimeoutError) k ++ map (fun m => verdict (Some m)) rs.
Proof.
  intros H Hl. rewrite by_position; [|assumption|rewrite app_length, repeat_length, map_length; lia].
  rewrite firstn_all2 by (rewrite app_length, repeat_length, map_length; lia).
  rewrite map_app, map_map. f_equal. clear. induction k; cbn; congruence.
Qed.

Theorem prompt_match cs (rs : list msg) :
  Forall call_ok cs -> length cs = length rs ->
  run_all cs (map Some rs) = map (fun m => verdict (Some m)) rs.
Proof. intros H Hl. exact (late_shift cs 0 rs H Hl). Qed.

(** The first command is accepted late, the second one is rejected, and the
    second call reports success. *)
Theorem late_wrong it c1 c2 :
  call_ok (it, c1) -> call_ok (it, c2) ->
  run_all [(it, c1); (it, c2)] [None; Some MAck; Some MNack] = [Err TimeoutError; Ok tt].
Proof.
  intros H1 H2. rewrite by_position; [reflexivity| |cbn; lia].
  apply Forall_cons; [assumption|]. apply Forall_cons; [assumption|apply Forall_nil].
Qed.

(** A status request that is refused part way leaves the rest of its replies;
    the next command takes one of them for its own answer. *)
Theorem leftover_wrong it rs m c (rest : script) :
  ready it -> placed it -> call_ok (it, c) ->
  Forall normal rs -> m <> MAck -> ~ normal m ->
  let x := send_status_request it as_is (map Some rs ++ Some m :: Some MAck :: Some MNack :: rest) in
  res_of x = Err ResponseError /\ rest_of x = Some MAck :: Some MNack :: rest /\
  run_all [(it, c)] (rest_of x) = [Ok tt].
Proof.
  intros Hr Hp Hc Hrs Hm Hn x.
  assert (H : res_of x = Err ResponseError /\ rest_of x = Some MAck :: Some MNack :: rest).
  { subst x. unfold send_status_request, create_status_message.
    rewrite (andthen_ok _ _ _ _ _ _ (item_send_ok it _ _ _ Hr (status_bytes _ _ Hp))).
    match goal with |- res_of (pre ?a ?y) = _ /\ _ => destruct (pre_parts a y) as (_ & -> & ->) end.
    unfold reply_loop. rewrite (proj2 Hr). cbn [negb].
    induction Hrs as [|n rs Hn' _ IH].
    - cbn [map app replies]. destruct (nack_dec m) as [->|Hm1]; [split; reflexivity|].
      rewrite (type_not_nack _ Hm1), (type_not_ack _ Hm).
      destruct (is_normal m) eqn:E; [apply is_normal_spec in E; contradiction|]. split; reflexivity.
    - destruct Hn' as (w & a & b & ->). cbn [map app replies msg_type mtype_eqb is_normal negb as_is].
      destruct (replies is_normal as_is _) as [[es s'] r]. exact IH. }
  destruct H as [H1 H2]. split; [exact H1|]. split; [exact H2|]. rewrite H2.
  rewrite by_position; [reflexivity| |cbn; lia]. apply Forall_cons; [assumption|apply Forall_nil].
Qed.

(** ** Two tasks *)

(** Task 0 waits first, the answer to its command arrives first, and yet task 1
    takes it: its get() runs before the woken task 0 does. *)
Definition swap (b1 b2 : list N) : list qevent :=
  [EGet 0; EPacket b1; EGet 1; ERun 0; EPacket b2; ERun 0].

Lemma deliver_one q m :
  streamable m -> deliver {| c_queue := q; c_open := true |} (msg_str m) = {| c_queue := q ++ [m]; c_open := true |}.
Proof.
  intros H. pose proof (texts_ok [m] (Forall_cons _ H (Forall_nil _))) as E.
  replace (texts [m]) with (msg_str m) in E by (unfold texts; cbn; rewrite ?app_nil_r; reflexivity).
  unfold deliver, data_received. cbn [c_open c_queue]. rewrite E. reflexivity.
Qed.

Theorem swap_wrong m1 m2 :
  streamable m1 -> streamable m2 ->
  exists s, qrun (qinit 2) (swap (msg_str m1) (msg_str m2)) = Some s /\ q_out s = [(1%nat, m1); (0%nat, m2)].
Proof.
  intros H1 H2. unfold swap, qinit, fresh. cbn [qrun qstep repeat q_readers nth_error try_get q_conn c_queue q_getters q_out setnth app].
  rewrite deliver_one by assumption. cbn [c_queue length Nat.sub wakeups wakeup nth_error setnth app qrun qstep q_readers try_get q_conn q_getters q_out c_open].
  rewrite deliver_one by assumption. cbn [c_queue length Nat.sub wakeups wakeup nth_error setnth app qrun qstep q_readers try_get q_conn q_getters q_out c_open].
  eexists. split; reflexivity.
Qed.
