(** * Properties C84 and C85: starting a client again *)
From Coq Require Import String List NArith ZArith Bool Lia.
From Verif Require Import PyStr Tags Messages Protocol Restart SpecRestart RestartThms.
Import ListNotations.
Open Scope N_scope.
Open Scope list_scope.

(** ** C84 A restart begins with a clean connection *)

(** Whatever happened before (failed starts, earlier connections that are still
    receiving), after a start and until the next one or close() the messages
    read are those that arrived on the new connection, in order from the first,
    and a read gives the next one. *)
Theorem C84_clean : forall acts1 acts2 ms b, let s1 := live born (acts1 ++ [Connect]) in
  let n := length (lc_conns (live born acts1)) in
  same_session acts2 -> received n acts2 ms b ->
  exists got rest, ms = got ++ rest /\ lc_reads (live s1 acts2) = lc_reads s1 ++ map (pair n) got /\
    lc_reads (lstep (live s1 acts2) Read) = lc_reads s1 ++ map (pair n) (got ++ firstn 1 rest).
Proof. exact clean_restart. Qed.
Print Assumptions C84_clean.

(** What arrives on a connection is determined by the history. *)
Theorem C84_total : forall n acts, exists ms b, received n acts ms b.
Proof. exact received_total. Qed.
Print Assumptions C84_total.
Theorem C84_determined : forall n acts ms b, received n acts ms b -> forall ms' b', received n acts ms' b' -> ms' = ms /\ b' = b.
Proof. exact received_unique. Qed.
Print Assumptions C84_determined.

(** Yet each start after the first, and each end of a connection after the
    first, raises InvalidStateError in the protocol (it is logged as an error
    and has no other effect). *)
Theorem C84_errors : forall acts, lc_errors (live born acts) = ((connects acts - 1) + (losts (live born acts) - 1))%nat.
Proof. exact restart_errors. Qed.
Print Assumptions C84_errors.

Definition on12 : list N := lit "*1*1*12##".
Definition ack : list N := lit "*#*1##".
Definition lightmsg : msg := MNormal LIGHTING (lit "1") (lit "12").

(** The first connection still gets a packet after the second was made. *)
Example C84_ex : let acts1 := [ConnectFails; Connect; Arrive 0 (ack ++ on12); Read; CloseClient; LostCall 0] in
  let acts2 := [Arrive 0 on12; Arrive 1 ack; Read; Arrive 1 on12; Read] in
  same_session acts2 /\ received 1 acts2 ([MAck] ++ [lightmsg]) true /\
  lc_reads (live born (acts1 ++ [Connect] ++ acts2)) = [(0%nat, MAck); (1%nat, MAck); (1%nat, lightmsg)] /\
  lc_errors (live born (acts1 ++ [Connect] ++ acts2)) = 1%nat.
Proof.
  cbv zeta. split; [split; intros H; cbn in H; intuition discriminate|]. split.
  - apply (R_other 1 [Arrive 0 on12; Arrive 1 ack; Read; Arrive 1 on12]); [|discriminate|discriminate].
    apply (R_packet 1 [Arrive 0 on12; Arrive 1 ack; Read] [MAck] on12 [lightmsg]); [|reflexivity].
    apply (R_other 1 [Arrive 0 on12; Arrive 1 ack]); [|discriminate|discriminate].
    apply (R_packet 1 [Arrive 0 on12] [] ack [MAck]); [|reflexivity].
    apply (R_other 1 [] [] true (Arrive 0 on12)); [constructor|intros d; discriminate|discriminate].
  - vm_compute. split; reflexivity.
Qed.

(** ** C85 close() leaves no connection open *)

(** A second start() abandons the connection of the first: nothing the client
    does closes it any more. *)
Theorem C85_leak_refuted : forall acts1 acts2, let n := length (lc_conns (live born acts1)) in
  ~ In (Drop n) acts2 -> (forall data e, In (Arrive n data) acts2 -> packet_messages data <> Err e) ->
  is_open (live born (acts1 ++ [Connect; Connect] ++ acts2)) n.
Proof. exact second_start_leaks. Qed.
Print Assumptions C85_leak_refuted.

(** If the client is closed, or its connection has ended, before each new start,
    then close() leaves nothing open. *)
Theorem C85_tidy_partial : forall acts i, tidy born acts -> ~ is_open (live born (acts ++ [CloseClient])) i.
Proof. exact tidy_closed. Qed.
Print Assumptions C85_tidy_partial.

Example C85_ex : is_open (live born [Connect; Connect; CloseClient]) 0 /\ ~ is_open (live born [Connect; Connect; CloseClient]) 1 /\
  tidy born [Connect; Arrive 0 ack; CloseClient; Connect; Drop 1; Connect].
Proof.
  split; [exists fresh; split; reflexivity|]. split.
  - intros (c & Q & O). vm_compute in Q. injection Q as <-. discriminate O.
  - repeat split; try discriminate; cbn; intros _ i E; try discriminate E.
    injection E as <-. intros (c & Q & O). vm_compute in Q. injection Q as <-. discriminate O.
Qed.
