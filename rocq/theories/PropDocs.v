(** * Property C128: the events of the documentation *)
From Coq Require Import String List NArith ZArith Bool Lia.
From Verif Require Import PyStr PyFloat Tags Messages SpecMsg SpecTag MessageThms Protocol LightThms2 Gateway Energy SpecEnergy Dispatch SpecDispatch DispatchThms2
  Errors Log LoopLog SpecLoopLog SpecDocs DocsThms.
Import ListNotations.
Open Scope N_scope.
Open Scope list_scope.

(** In every history of an installation that sends what is documented, the
    client stays connected and the loop goes on waiting.  Of the events it got
    to, those with the fate [Told] started the calls of the callbacks
    registered for them, in order, and no other event did; each left the
    records of its fate. *)
Theorem C128_fates : forall why v r acts evs q, v < 13 -> history r acts evs q ->
  exists its tss ls,
    st_loop (run v (enter v (Dispatch.connected r)) acts) = Dispatch.Waiting /\ st_trans (run v (enter v (Dispatch.connected r)) acts) = Some false /\
    st_items (run v (enter v (Dispatch.connected r)) acts) = its /\ NoDup its /\
    length (st_queue (run v (enter v (Dispatch.connected r)) acts)) = length q /\
    st_started (run v (enter v (Dispatch.connected r)) acts) = concat tss /\
    l_log (run_l why v (enter_l why v (Dispatch.connected r)) acts) = concat ls /\
    Forall2 (fun ev ts => called its (fst ev) (snd (snd ev)) ts) evs tss /\
    Forall2 (fun ev l => recorded (fst ev) (fst (snd ev)) (snd (snd ev)) l) evs ls.
Proof. exact documented_run. Qed.
Print Assumptions C128_fates.

(** Each frame has one fate. *)
Theorem C128_unique : forall tags f f', row tags f -> row tags f' -> f = f'.
Proof. exact fate_unique. Qed.
Print Assumptions C128_unique.

(** The documented events that are not [Told] (the level of a dimmer, the state
    of a shutter, of an actuator, every report of an energy meter, all of the
    alarm, the thermostats, the cameras, the sound and the scenes) start no call,
    whatever callbacks are registered. *)
Theorem C128_unheard_refuted : forall v r acts evs q, v < 13 -> history r acts evs q ->
  Forall (fun ev => forall w whr k args, snd (snd ev) <> Told w whr k args) evs ->
  st_started (run v (enter v (Dispatch.connected r)) acts) = [].
Proof.
  intros v r acts evs q Hv H N. destruct (documented_run (fun _ _ => []) v r acts evs q Hv H) as (its & tss & ls & _ & _ & _ & _ & _ & -> & _ & C & _).
  clear - N C. induction C as [|[r' [tags f]] ts evs tss C F IH]; [reflexivity|]. inversion N as [|? ? Nf N']; subst. cbn [concat fst snd] in *.
  rewrite (IH N'), app_nil_r. destruct f; cbn [called] in C; try exact C. exfalso. eapply Nf. reflexivity.
Qed.
Print Assumptions C128_unheard_refuted.

(** The answers about the auxiliaries, "*9*k*n##" (who5.md:128-137), have a WHO
    that the library does not know (tags/who.py:53 gives it the number 8): on any
    connection, one of them closes it, and the other frames of its packet and
    all later ones are lost. *)
Theorem C128_answers_refuted : forall q k n pre post later, num k -> num n ->
  Forall (fun e => row (fst e) (snd e)) pre -> Forall (fun e => row (fst e) (snd e)) post ->
  feed {| c_queue := q; c_open := true |} (concat (map wire (map fst pre ++ [lit "9"; k; n] :: map fst post)) :: later) = {| c_queue := q; c_open := false |}.
Proof. exact auxiliary_closes. Qed.
Print Assumptions C128_answers_refuted.

(** On an event connection nothing reaches a callback any more, and the loop
    waits for ever. *)
Theorem C128_auxiliary_refuted : forall v r acts evs k n pre post, v < 13 -> history r acts evs [] -> num k -> num n ->
  Forall (fun e => row (fst e) (snd e)) pre -> Forall (fun e => row (fst e) (snd e)) post -> forall more,
  let s := run v (enter v (Dispatch.connected r)) (acts ++ Packet (concat (map wire (map fst pre ++ [lit "9"; k; n] :: map fst post))) :: more) in
  st_loop s = Dispatch.Waiting /\ st_queue s = [] /\ st_started s = st_started (run v (enter v (Dispatch.connected r)) acts).
Proof. exact auxiliary_ends. Qed.
Print Assumptions C128_auxiliary_refuted.

Definition takes2 : callback := {| cb_id := 1; cb_takes := fun n => (n =? 2)%nat |}.
Definition lamps : registry := register no_callbacks (K_light STATUS_CHANGE) takes2.

Definition sent : list (list str * fate) :=
  [([lit "1"; lit "1"; lit "12"], Told LIGHTING (lit "12") (K_light STATUS_CHANGE) [VBool true]);
   ([lit "#1"; lit "12"; lit "1"; lit "150"; lit "0"], Complained [lit "#1"; lit "12"; lit "1"; lit "150"; lit "0"]);
   ([lit "#1"; lit "12"; lit "14"; lit "300"], Passed_over);
   ([lit "5"; lit "11"; lit "#3"], No_class BURGLAR_ALARM (lit "#3"));
   ([lit "5"; lit "8"; []; []], Unknown);
   ([lit "#2"; lit "31"; lit "#11#0#50"; lit "1"], Complained [lit "#2"; lit "31"; lit "11#0#50"; lit "1"])].

Ltac isnum := split; [apply digits_all; reflexivity|discriminate].

Example C128_rows : Forall (fun e => row (fst e) (snd e)) sent.
Proof.
  assert (G : forall s, num s -> groups s) by exact num_groups.
  unfold sent. repeat first [apply Forall_nil | apply Forall_cons]; cbn [fst snd].
  - apply R_light; [isnum|apply G; isnum|split; reflexivity].
  - apply R_level; [apply G; isnum|isnum|isnum].
  - apply R_white; [apply G; isnum|isnum].
  - apply (R_classless BURGLAR_ALARM); [cbn; tauto|apply G; isnum|]. exists [], [lit "3"]. split; [reflexivity|]. split; [constructor|].
    split; [constructor; [isnum|constructor]|discriminate].
  - apply R_alarm_star. isnum.
  - apply (R_shutter_level (lit "31") (lit "0") (lit "50") (lit "1")); [apply G; isnum|isnum|isnum|isnum].
Qed.

Example C128_history : history lamps [Packet (lit "*1*1*12##*#1*12*1*150*0##*#1*12*14*300##*5*11*#3##*5*8**##*#2*31*#11#0#50*1##"); Wake]
  (map (pair lamps) sent) [].
Proof.
  pose proof (H_packet lamps [] [] [] sent (H_start lamps) C128_rows) as H. cbn [app] in H.
  exact (H_wake lamps _ _ _ H).
Qed.

Example C128_ex : forall why,
  let acts := [Packet (lit "*1*1*12##*#1*12*1*150*0##*#1*12*14*300##*5*11*#3##*5*8**##*#2*31*#11#0#50*1##"); Wake] in
  st_started (run 12 (enter 12 (Dispatch.connected lamps)) acts) = [(1, [VItem 0; VBool true])] /\
  skipn 1 (l_log (run_l why 12 (enter_l why 12 (Dispatch.connected lamps)) acts)) =
    [Rec L_client WARNING (lit "Item not found for message *#1*12*1*150*0##");
     Rec L_client INFO (lit "Item type not supported, WHO=5, WHERE=#3");
     Rec L_client WARNING (lit "Received an unknown message: *5*8**##");
     Rec L_client WARNING (lit "Message not supported *#2*31*11#0#50*1##");
     Rec L_client WARNING (lit "Item not found for message *#2*31*11#0#50*1##")].
Proof. intros why. vm_compute. split; reflexivity. Qed.

Example C128_auxiliary_ex :
  st_started (run 12 (enter 12 (Dispatch.connected lamps)) [Packet (lit "*1*1*12##*9*1*3##"); Wake; Packet (lit "*1*1*12##"); Wake]) = [] /\
  num (lit "1") /\ num (lit "3").
Proof. split; [vm_compute; reflexivity|]. split; isnum. Qed.
