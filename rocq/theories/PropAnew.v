(** * Property C142: loop() on a client that is started again *)
From Coq Require Import String List NArith ZArith Bool Lia.
From Verif Require Import PyStr Tags Messages SpecMsg Protocol Queue QueueThms IO Client Items Dispatch SpecDispatch DispatchThms DispatchThms2 PropDispatch
  SpecLoop LoopThms Loops LoopsThms Anew SpecAnew AnewThms AnewThms2 AnewThms3.
Import ListNotations.
Open Scope N_scope.
Open Scope list_scope.

(** In every history, with any number of connections and of tasks: the callbacks
    called are those of the messages that loops took, in that order, and what
    arrived on each connection is what was taken from it, followed by what is
    unread there. *)
Theorem C142_once : forall v n r es s, v < 13 -> arun v (ainit n r) es = Some s ->
  (exists tss, a_started s = concat tss /\ Forall2 (handled (a_items s)) (map snd (a_taken s)) tss) /\
  forall k ms l, delivered k es ms l -> ms = from k (a_taken s) ++ unread s k.
Proof. exact once. Qed.
Print Assumptions C142_once.

(** What a loop() takes when it goes on: one message from the connection it waited
    on, everything else from the connection that the client has then; each with the
    callbacks registered up to then. *)
Theorem C142_current : forall v n r es s o e s', holds es o -> arun v (ainit n r) es = Some s -> astep v s e = Some s' ->
  exists tk, a_taken s' = a_taken s ++ tk /\
    match tk with
    | [] => True
    | (k, i, _) :: rest =>
        ((e = ALoop i /\ o = Some k) \/ (e = ARun i /\ waits_at s i k)) /\ Forall (fun t => snd (fst t) = i /\ o = Some (fst (fst t))) rest
    end /\ Forall (fun t => fst (snd t) = regs r es) tk.
Proof. exact current. Qed.
Print Assumptions C142_current.

(** The items outlive every connection. *)
Theorem C142_items : forall v es s s', arun v s es = Some s' -> exists l, a_items s' = a_items s ++ l.
Proof. exact kept_items. Qed.
Print Assumptions C142_items.

(** The scheduled steps run out, and then nothing is unread on a connection on
    which a loop() waits. *)
Theorem C142_catches_up : forall v n r es s, arun v (ainit n r) es = Some s ->
  (exists b, forall js s', arun v s (map ARun js) = Some s' -> (length js <= b)%nat) /\
  (forall i k, calm v s -> waits_at s i k -> unread s k = []).
Proof. intros v n r es s H. split; [exact (rests v n r es s H)|]. intros i k. exact (catches_up v n r es s i k H). Qed.
Print Assumptions C142_catches_up.

(** A loop() ends only so: it returns when the transport of the connection that
    the client has is closing; it fails at once if there is none, and with an
    AttributeError if there is none after a message; a stray message ends it; it is
    cancelled. *)
Theorem C142_ends : forall v n r es s o e s', v < 13 -> holds es o -> arun v (ainit n r) es = Some s -> astep v s e = Some s' ->
  a_ended s' = a_ended s \/
  exists i x, (e = ALoop i \/ e = ARun i) /\ a_ended s' = a_ended s ++ [(i, x)] /\
    match x with
    | OReturned => exists k, o = Some k /\ up s k = false
    | OFailed InvalidSession => o = None /\ e = ALoop i
    | OFailed AttributeError => o = None /\ e = ARun i
    | OFailed x => (x = IndexError \/ x = InvalidTag) /\ exists tk t, a_taken s' = a_taken s ++ tk ++ [t] /\ stray (snd (snd t))
    | _ => exists k, waits_at s i k /\ e = ARun i
    end.
Proof. exact ended_by. Qed.
Print Assumptions C142_ends.

(** Refuted: that starting the client again brings a loop() back.  One that waits
    when its connection ends or is closed waits on that connection for ever,
    however often the client is started: it takes nothing and does not end, unless
    it is cancelled. *)
Theorem C142_deaf_refuted : forall v n r es s i k e s1 more s', arun v (ainit n r) es = Some s -> calm v s -> waits_at s i k ->
  (e = ADrop k \/ (e = AClose /\ holds es (Some k))) -> astep v s e = Some s1 ->
  Forall (fun e => e <> ACancel i) more -> arun v s1 more = Some s' ->
  waits_at s' i k /\ astep v s' (ARun i) = None /\
  filter (fun t => Nat.eqb (snd (fst t)) i) (a_taken s') = filter (fun t => Nat.eqb (snd (fst t)) i) (a_taken s) /\
  filter (fun t => Nat.eqb (fst t) i) (a_ended s') = filter (fun t => Nat.eqb (fst t) i) (a_ended s).
Proof. exact deaf. Qed.
Print Assumptions C142_deaf_refuted.

(** So, if it is the only one, no event of any later connection is heard. *)
Theorem C142_unheard_refuted : forall v r es s k e s1 more s', v < 13 -> arun v (ainit 1 r) es = Some s -> calm v s -> waits_at s 0 k ->
  (e = ADrop k \/ (e = AClose /\ holds es (Some k))) -> astep v s e = Some s1 ->
  Forall (fun e => e <> ACancel 0) more -> arun v s1 more = Some s' ->
  a_taken s' = a_taken s /\ a_started s' = a_started s /\
  forall k2 ms l, (starts es <= k2)%nat -> delivered k2 (es ++ e :: more) ms l -> unread s' k2 = ms.
Proof. exact unheard. Qed.
Print Assumptions C142_unheard_refuted.

(** Refuted: that everything which arrives is dispatched as long as a loop() runs.
    What is unread on a connection that the client does not have any more, and on
    which nobody waits, is never read. *)
Theorem C142_abandoned_refuted : forall v n r es s k o more s', arun v (ainit n r) es = Some s -> holds es o -> o <> Some k -> (k < starts es)%nat -> (forall i, ~ waits_at s i k) ->
  arun v s more = Some s' -> from k (a_taken s') = from k (a_taken s) /\ forall i, ~ waits_at s' i k.
Proof. exact abandoned. Qed.
Print Assumptions C142_abandoned_refuted.

(** ** Cases *)

(** The first connection ends with a message unread; the client is started again;
    the loop() takes that message and goes over to the new connection. *)
Definition luck : list aevent :=
  [ARegister (K_light STATUS_CHANGE) f1; AStart; ALoop 0; APacket 0 light_on; ARun 0; APacket 0 light_on; ADrop 0; AStart; ARun 0; APacket 1 light_on; ARun 0].
Example C142_luck : exists s, arun 12 (ainit 1 no_callbacks) luck = Some s /\ holds luck (Some 1%nat) /\
  map (fun t => fst (fst t)) (a_taken s) = [0; 0; 1]%nat /\ length (a_started s) = 3%nat /\ waits_at s 0 1 /\ length (a_items s) = 1%nat /\
  exists ms, delivered 1 luck ms Up /\ length ms = 1%nat.
Proof.
  eexists. split; [vm_compute; reflexivity|]. split.
  { repeat (first [apply (Ho_start [ARegister (K_light STATUS_CHANGE) f1; AStart; ALoop 0; APacket 0 light_on; ARun 0; APacket 0 light_on; ADrop 0])|
      match goal with |- holds ?l ?o => let a := eval cbv in (removelast l) in let e := eval cbv in (last l AStart) in apply (Ho_other a e o); [|discriminate|discriminate] end]). }
  split; [vm_compute; reflexivity|]. split; [vm_compute; reflexivity|]. split; [vm_compute; reflexivity|]. split; [vm_compute; reflexivity|].
  eexists. split; [|shelve].
  refine (V_other 1 [ARegister (K_light STATUS_CHANGE) f1; AStart; ALoop 0; APacket 0 light_on; ARun 0; APacket 0 light_on; ADrop 0; AStart; ARun 0; APacket 1 light_on] _ Up (ARun 0) _ I).
  refine (V_packet 1 [ARegister (K_light STATUS_CHANGE) f1; AStart; ALoop 0; APacket 0 light_on; ARun 0; APacket 0 light_on; ADrop 0; AStart; ARun 0] [] light_on _ _ ltac:(vm_compute; reflexivity)).
  refine (V_other 1 [ARegister (K_light STATUS_CHANGE) f1; AStart; ALoop 0; APacket 0 light_on; ARun 0; APacket 0 light_on; ADrop 0; AStart] _ Up (ARun 0) _ I).
  refine (V_start 1 [ARegister (K_light STATUS_CHANGE) f1; AStart; ALoop 0; APacket 0 light_on; ARun 0; APacket 0 light_on; ADrop 0] [] NotYet _).
  refine (V_other 1 [ARegister (K_light STATUS_CHANGE) f1; AStart; ALoop 0; APacket 0 light_on; ARun 0; APacket 0 light_on] _ NotYet (ADrop 0) _ _); [|cbn; discriminate].
  refine (V_other 1 [ARegister (K_light STATUS_CHANGE) f1; AStart; ALoop 0; APacket 0 light_on; ARun 0] _ NotYet (APacket 0 light_on) _ _); [|cbn; discriminate].
  refine (V_other 1 [ARegister (K_light STATUS_CHANGE) f1; AStart; ALoop 0; APacket 0 light_on] _ NotYet (ARun 0) _ I).
  refine (V_other 1 [ARegister (K_light STATUS_CHANGE) f1; AStart; ALoop 0] _ NotYet (APacket 0 light_on) _ _); [|cbn; discriminate].
  refine (V_other 1 [ARegister (K_light STATUS_CHANGE) f1; AStart] _ NotYet (ALoop 0) _ I).
  refine (V_start 1 [ARegister (K_light STATUS_CHANGE) f1] [] NotYet _).
  refine (V_other 1 [] _ NotYet (ARegister (K_light STATUS_CHANGE) f1) _ I). constructor.
  Unshelve. reflexivity.
Qed.

(** The connection ends while the loop() waits with nothing to read: the event on
    the next connection is not heard. *)
Example C142_deaf : exists s s1 s', arun 12 (ainit 1 no_callbacks) [ARegister (K_light STATUS_CHANGE) f1; AStart; ALoop 0] = Some s /\ calm 12 s /\ waits_at s 0 0 /\
  astep 12 s (ADrop 0) = Some s1 /\ arun 12 s1 [AStart; APacket 1 light_on] = Some s' /\ length (unread s' 1) = 1%nat /\ a_started s' = [] /\ a_ended s' = [].
Proof.
  eexists _, _, _. split; [vm_compute; reflexivity|]. split; [intros [|[|i]]; reflexivity|]. split; [reflexivity|]. split; [vm_compute; reflexivity|]. split; [vm_compute; reflexivity|].
  split; [reflexivity|]. split; reflexivity.
Qed.

(** The same with close(). *)
Example C142_closed : exists s s1 s', arun 12 (ainit 1 no_callbacks) [ARegister (K_light STATUS_CHANGE) f1; AStart; ALoop 0] = Some s /\
  holds [ARegister (K_light STATUS_CHANGE) f1; AStart; ALoop 0] (Some 0%nat) /\
  astep 12 s AClose = Some s1 /\ arun 12 s1 [AStart; APacket 1 light_on] = Some s' /\ length (unread s' 1) = 1%nat /\ a_started s' = [] /\ a_ended s' = [].
Proof.
  eexists _, _, _. split; [vm_compute; reflexivity|].
  split; [refine (Ho_other [ARegister (K_light STATUS_CHANGE) f1; AStart] (ALoop 0) _ _ ltac:(discriminate) ltac:(discriminate)); exact (Ho_start [ARegister (K_light STATUS_CHANGE) f1])|].
  split; [vm_compute; reflexivity|]. split; [vm_compute; reflexivity|]. split; [reflexivity|]. split; reflexivity.
Qed.

(** start() without close(): of two messages on the old connection the loop()
    reads one; the other one is never read. *)
Definition left_behind : list aevent :=
  [ARegister (K_light STATUS_CHANGE) f1; AStart; ALoop 0; AStart; APacket 0 (light_on ++ light_on); ARun 0].
Example C142_abandoned : exists s, arun 12 (ainit 1 no_callbacks) left_behind = Some s /\ holds left_behind (Some 1%nat) /\ starts left_behind = 2%nat /\
  waits_at s 0 1 /\ (forall i, ~ waits_at s i 0) /\ length (unread s 0) = 1%nat /\ up s 0 = true /\ length (a_started s) = 1%nat.
Proof.
  eexists. split; [vm_compute; reflexivity|]. split.
  { repeat (first [apply (Ho_start [ARegister (K_light STATUS_CHANGE) f1; AStart; ALoop 0])|
      match goal with |- holds ?l ?o => let a := eval cbv in (removelast l) in let e := eval cbv in (last l AStart) in apply (Ho_other a e o); [|discriminate|discriminate] end]). }
  split; [reflexivity|]. split; [reflexivity|]. split; [intros [|[|i]] H; discriminate|]. split; [reflexivity|]. split; reflexivity.
Qed.

(** close() between the arrival and the reading of a message: the loop() handles the
    message and fails. *)
Example C142_fails : exists s, arun 12 (ainit 1 no_callbacks) [ARegister (K_light STATUS_CHANGE) f1; AStart; ALoop 0; APacket 0 light_on; AClose; ARun 0] = Some s /\
  length (a_started s) = 1%nat /\ a_ended s = [(0%nat, OFailed AttributeError)].
Proof. eexists. split; [vm_compute; reflexivity|]. split; reflexivity. Qed.
