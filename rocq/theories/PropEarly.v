(** * C137: using a client while its start() is under way *)
From Coq Require Import String List NArith ZArith Bool Lia.
From Verif Require Import PyStr Tags Messages AuthOpen AuthHmac IO Client Items Queue QueueThms PropClient Starts SpecStarts StartsThms StartsThms2 StartsThms3
  Early SpecEarly EarlyThms.
Import ListNotations.
Open Scope N_scope.
Open Scope list_scope.

(** Before the first start() has its connection every call that sends or reads
    raises InvalidSession, and nothing is written. *)
Theorem C137_before C ty pw rnd n l s : erun C ty pw rnd (before_starts n) l = Some s -> (forall t, ~ In (EStarts (SConnect t)) l) ->
  s_conns s = [] /\ forall t p, In (EUse t p) l -> (forall r, p <> PEnd r) -> nth_error (s_calls s) t = Some (TEnded (Err InvalidSession)).
Proof. intros R N. destruct (before_any C ty pw rnd n l s R N) as (A & _ & B). auto. Qed.
Print Assumptions C137_before.

(** From then on, however calls and start()s are interleaved: each that ends, but
    for TimeoutError and InvalidSession, has had a conversation of its own that
    ends so, with the messages that it took and the frames that it wrote.  For
    start() the handshake: *)
Theorem C137_start C ty pw rnd n l s t r : erun C ty pw rnd (before_starts n) l = Some s -> In (EStarts (SConnect t)) l ->
  nth_error (s_calls s) t = Some (TEnded r) -> r <> Err TimeoutError -> r <> Err InvalidSession ->
  exists es : list (ev Empty_set), handshake C {| cl_session := ty; cl_proto := true |} pw (rnd t) (map Some (taken_by t s)) = (es, [], r) /\
    gots es = taken_by t s /\ sents es = given_by t s.
Proof.
  intros R J T D1 D2. destruct (erun_along C ty pw rnd n l s R) as (pr & [_ A] & B). destruct (A t _ T) as (es & p & Co & Ta & Gi & St). specialize (B t _ T).
  assert (P : pr t = start_prog C ty pw (rnd t)).
  { apply (begins_unique C ty pw rnd n l s t _ _ R); [|right; auto]. destruct r as [u|[]]; cbn in B; auto; contradiction. }
  rewrite P in Co. destruct St as [->|[E|E]]; [|contradiction|contradiction].
  change (taken_by t s) with (entries n_taken t (s_conns s)). change (given_by t s) with (entries n_given t (s_conns s)). rewrite Ta, Gi. exists es.
  rewrite <- (prog_handshake C {| cl_session := ty; cl_proto := true |} pw (rnd t) (map Some (gots es)) eq_refl). cbn [cl_session]. split; [apply comes_end, Co|auto].
Qed.
Print Assumptions C137_start.

(** For a command of an item: if it returns, it wrote its frame, took one message,
    and that was an ACK.  *)
Theorem C137_command C ty pw rnd n l s t it what r : cl_proto (it_client it) = true -> cl_session (it_client it) <> Event ->
  erun C ty pw rnd (before_starts n) l = Some s -> In (EUse t (normal_prog it what)) l ->
  nth_error (s_calls s) t = Some (TEnded r) -> r <> Err TimeoutError -> r <> Err InvalidSession ->
  exists es : list (ev Empty_set), send_normal_message it what (map Some (taken_by t s)) = (es, [], r) /\
    gots es = taken_by t s /\ sents es = given_by t s /\
    (r = Ok tt -> exists w b, mk what = Ok w /\ msg_bytes (MNormal (it_who it) w (it_where it)) = Ok b /\ given_by t s = [b] /\
                              exists m, taken_by t s = [m] /\ msg_type m = T_ACK).
Proof.
  intros CP CS R J T D1 D2. destruct (erun_along C ty pw rnd n l s R) as (pr & [_ A] & B). destruct (A t _ T) as (es & p & Co & Ta & Gi & St). specialize (B t _ T).
  assert (P : pr t = normal_prog it what).
  { apply (begins_unique C ty pw rnd n l s t _ _ R); [|left; exact J]. destruct r as [u|[]]; cbn in B; auto; contradiction. }
  rewrite P in Co. destruct St as [->|[E|E]]; [|contradiction|contradiction].
  change (taken_by t s) with (entries n_taken t (s_conns s)). change (given_by t s) with (entries n_given t (s_conns s)). rewrite Ta, Gi. exists es.
  pose proof (comes_end _ _ _ Co) as E. rewrite <- (prog_normal it what _ CP CS). split; [exact E|]. split; [reflexivity|]. split; [reflexivity|]. intros ->.
  unfold normal_prog, create_normal_message in E. rewrite plift_run in E. destruct (mk what) as [w|e]; [|discriminate]. cbn [bind] in E. cbn [run_prog] in E.
  destruct (msg_bytes (MNormal (it_who it) w (it_where it))) as [b|e] eqn:MB; [|discriminate].
  exists w, b. split; [reflexivity|]. split; [exact MB|]. destruct (gots es) as [|m g] eqn:G; cbn [map] in E; [discriminate|].
  destruct (mtype_eqb (msg_type m) T_ACK) eqn:MA; cbn in E; [|discriminate]. injection E as <- E. split; [reflexivity|]. exists m. destruct g; [|discriminate]. split; [reflexivity|].
  destruct (msg_type m); cbn in MA; congruence.
Qed.
Print Assumptions C137_command.

(** The claim that a command which returns was acknowledged by the gateway is
    false from the connection to the end of start(): while the greeting lies
    unread, any command of any item returns at once. *)
Theorem C137_greeting C ty pw rnd s t i c q it what w b :
  s_current s = Some i -> nth_error (s_conns s) i = Some c -> n_unread c = MAck :: q -> nth_error (s_calls s) t = Some TNew ->
  mk what = Ok w -> msg_bytes (MNormal (it_who it) w (it_where it)) = Ok b ->
  exists s', estep C ty pw rnd s (EUse t (normal_prog it what)) = Some s' /\ nth_error (s_calls s') t = Some (TEnded (Ok tt)).
Proof.
  intros Cu N U T M B. cbn [estep]. rewrite T, Cu. eexists. split; [reflexivity|]. unfold normal_prog, create_normal_message. rewrite M. cbn [bind plift go]. rewrite B.
  rewrite (on_conn_same _ _ _ _ N). cbn [give n_unread]. rewrite U. cbn. apply setnth_same, nth_error_Some. congruence.
Qed.
Print Assumptions C137_greeting.

(** At a gateway without password that refuses commands before the request for a
    session: the command is refused and returns normally, and start(), which
    would have succeeded alone, raises. *)
Definition lamp : item := {| it_client := {| cl_session := Command; cl_proto := true |}; it_who := LIGHTING; it_where := lit "12" |}.
Definition too_early : list eact :=
  [EStarts (SConnect 0); EStarts (SArrive 0 [MAck]); EUse 1 (normal_prog lamp (lit "1")); EStarts (SArrive 0 [MNack]); EStarts (SWake 0)]%nat.
Theorem C137_refuted :
  exists s c, erun toy Command (lit "12345") (fun _ => []) (before_starts 2) too_early = Some s /\ keeper s /\
    s_conns s = [c] /\ s_calls s = [TEnded (Err InvalidAuthentication); TEnded (Ok tt)] /\
    n_given c = [(1%nat, lit "*1*1*12##")] /\ n_taken c = [(1%nat, MAck); (0%nat, MNack)].
Proof.
  eexists _, _. split; [vm_compute; reflexivity|]. split; [|vm_compute; repeat split; reflexivity].
  intros i c N. destruct i as [|i]; cbn in N; [|destruct i; discriminate]. injection N as <-. vm_compute. eexists. reflexivity.
Qed.
Print Assumptions C137_refuted.

(** Another order in which the same calls end as they should: the command is
    refused, start() returns. *)
Example C137_case :
  exists s, erun toy Command (lit "12345") (fun _ => []) (before_starts 2)
    [EStarts (SConnect 0); EUse 1 (normal_prog lamp (lit "1")); EStarts (SArrive 0 [MAck]); EStarts (SWake 0); EStarts (SArrive 0 [MNack]); EStarts (SWake 1);
     EStarts (SArrive 0 [MAck]); EStarts (SWake 0)]%nat = Some s /\ s_calls s = [TEnded (Ok tt); TEnded (Err ResponseError)] /\
    taken_by 0 s = [MAck; MAck] /\ given_by 1 s = [lit "*1*1*12##"] /\ keeper s.
Proof.
  eexists. split; [vm_compute; reflexivity|]. split; [vm_compute; reflexivity|]. split; [vm_compute; reflexivity|]. split; [vm_compute; reflexivity|].
  intros i c N. destruct i as [|i]; cbn in N; [|destruct i; discriminate]. injection N as <-. vm_compute. eexists. reflexivity.
Qed.

(** Before the connection. *)
Example C137_before_case : exists s, erun toy Command (lit "12345") (fun _ => []) (before_starts 2) [EUse 1 (normal_prog lamp (lit "1")); EStarts (SRefuse 0)]%nat = Some s /\
  s_calls s = [TEnded (Err TimeoutError); TEnded (Err InvalidSession)].
Proof. eexists. split; [vm_compute; reflexivity|]. vm_compute. reflexivity. Qed.
