(** * Property C120: one call at a time never waits for the transport *)
From Coq Require Import String List NArith ZArith Bool Lia.
From Verif Require Import PyStr Tags Messages SpecMsg SpecTag SpecProto MessageThms3 Protocol Queue Sender SenderThms IO Client SpecItem Items Lighting SpecLight ItemThms LightThms2
  Conc SpecConc SpecSerial SpecHouse HouseThms HouseThms2 PropHouse SpecTogether SerialThms2 TogetherThms PropTogether Line SpecLine PropLine SpecArrive ArriveThms.
Import ListNotations.
Open Scope N_scope.
Open Scope list_scope.

(** Tasks that make one call at a time between them, a gateway that deals with a
    frame once all of it has arrived: whatever the water marks and however slowly
    the socket takes the bytes, no task is ever asleep in send_message. *)
Theorem C120_never_waits : forall high low gw n es h l h' inn out c evs cs, gateway_ok gw -> house_ok h -> plain h -> Forall call_ok cs ->
  locked high low n es -> undisturbed es -> arriving gw high low (linit n) h [] [] 0 es l h' inn out c evs -> made (started es) cs ->
  Forall (eq SIdle) (s_tasks (l_s l)).
Proof. exact nobody_waits. Qed.
Print Assumptions C120_never_waits.

(** When nobody is in the middle of a call, everything is on the wire and the
    transport is not paused. *)
Theorem C120_start : forall high low gw n es h l h' inn out c evs cs, gateway_ok gw -> house_ok h -> plain h -> Forall call_ok cs ->
  locked high low n es -> undisturbed es -> arriving gw high low (linit n) h [] [] 0 es l h' inn out c evs -> made (started es) cs ->
  Forall (eq PIdle) (k_pc (l_c l)) -> s_buffer (l_s l) = [] /\ s_lock (l_s l) = false.
Proof.
  intros high low gw n es h l h' inn out c evs cs G Hh P F Lk U A M Ip.
  eapply calm_start; try eassumption. eapply nobody_waits; eassumption.
Qed.
Print Assumptions C120_start.

(** What waits in the transport's buffer is never more than the end of the frame
    of the last call. *)
Theorem C120_buffer : forall high low gw n es h l h' inn out c evs cs, gateway_ok gw -> house_ok h -> plain h -> Forall call_ok cs ->
  locked high low n es -> undisturbed es -> arriving gw high low (linit n) h [] [] 0 es l h' inn out c evs -> made (started es) cs ->
  s_buffer (l_s l) = [] \/ exists before i p b u, started es = before ++ [(i, (p, b))] /\ b = u ++ s_buffer (l_s l).
Proof. exact single_frame. Qed.
Print Assumptions C120_buffer.

(** ** A concrete case: the slow socket of C119_ex *)

Ltac step_a := eapply Ar_step; [discriminate|vm_compute; reflexivity|]; cbn [app].
Ltac obey_a o := eapply Ar_obey; [vm_compute; lia|exists o; split; [order_tac|split; [reflexivity|obey_tac]]|]; cbn [app].

Example C120_ex : exists l h' evs, locked 4 2 2 slow /\ undisturbed slow /\ arriving gw0 4 2 (linit 2) house0 [] [] 0 slow l h' [] [] 15 evs /\
  made (started slow) [on_call; ask_call] /\ Forall (eq PIdle) (k_pc (l_c l)) /\
  exists l0, lrun 4 2 (linit 2) (firstn 1 slow) = Some l0 /\ s_buffer (l_s l0) = lit "1*0##" /\ s_lock (l_s l0) = true.
Proof.
  destruct C119_ex as (_ & _ & _ & Lk & U & _ & M & _). do 3 eexists. split; [exact Lk|]. split; [exact U|]. split.
  { unfold slow. step_a. step_a. step_a. obey_a (Command LIGHTING (lit "1") (lit "0")).
    eapply (Ar_packet gw0 4 2 _ _ _ [frame_ack] []); [vm_compute; reflexivity|]. step_a. step_a. obey_a (Status LIGHTING (lit "0")).
    eapply (Ar_packet gw0 4 2 _ _ _ [lit "*1*1*11##"]); [vm_compute; reflexivity|]. step_a.
    eapply (Ar_packet gw0 4 2 _ _ _ [lit "*1*1*12##"; frame_ack] []); [vm_compute; reflexivity|]. step_a. apply Ar_nil. }
  split; [exact M|]. split; [repeat constructor|]. eexists. split; [vm_compute; reflexivity|]. split; reflexivity.
Qed.

(** ** Without the lock *)

(** A second task that calls while the frame of the first is still buffered has
    to wait. *)
Theorem C120_unlocked_refuted : exists high low gw n es h l h' inn out c evs cs, gateway_ok gw /\ house_ok h /\ plain h /\ Forall call_ok cs /\
  undisturbed es /\ arriving gw high low (linit n) h [] [] 0 es l h' inn out c evs /\ made (started es) cs /\
  exists i m d, nth_error (s_tasks (l_s l)) i = Some (SSleep m d).
Proof.
  exists 4%nat, 2%nat, gw0, 2%nat, [LCall 0 PCommand on_msg 0; LCall 1 (PRequest is_normal) ask_msg 0], house0. do 6 eexists. exists [on_call; ask_call].
  split; [apply gw0_ok|]. split; [apply house0_ok|]. split; [apply plain0|]. split; [apply calls_ok|]. split; [repeat constructor|].
  split; [step_a; step_a; apply Ar_nil|]. split.
  - repeat constructor.
    + eexists. split; [apply (F_light _ _ 1); reflexivity|]. split; [apply W_command; reflexivity|reflexivity].
    + eexists. split; [apply F_ask_light|]. split; [|reflexivity]. apply W_status; [reflexivity|discriminate|apply is_normal_spec].
  - exists 1%nat, ask_msg. eexists. vm_compute. reflexivity.
Qed.
Print Assumptions C120_unlocked_refuted.
