(** * Property C119: calls over the whole line *)
From Coq Require Import String List NArith ZArith Bool Lia.
From Verif Require Import PyStr Tags Messages SpecMsg SpecTag SpecProto MessageThms3 Protocol Queue Sender SenderThms IO Client SpecItem Items Lighting SpecLight ItemThms LightThms2
  Conc SpecConc SpecSerial SpecHouse HouseThms HouseThms2 PropHouse SpecTogether SerialThms2 TogetherThms PropTogether Line SpecLine LineThms LineThms2 LineThms3.
Import ListNotations.
Open Scope N_scope.
Open Scope list_scope.

(** Whatever the tasks do, whenever the transport pauses, wakes or breaks: the
    sending side goes through exactly what Sender.v allows and the reading side
    through what Conc.v allows, with the same packets; and the calls that got as far
    as reading are exactly those whose frames the transport was given, in the same
    order. *)
Theorem C119_sides : forall high low n es l, lrun high low (linit n) es = Some l ->
  srun high low (sinit n) (sending es) = Some (l_s l) /\
  exists ks, crun (cinit n) ks = Some (l_c l) /\ received_packets ks = packets es /\ (forall i, In (KTimeout i) ks -> In (LTimeout i) es) /\
    map (fun c => (fst c, snd (snd c))) (all_calls ks) = map (fun c => (fst c, msg_str (snd c))) (handed (s_done (l_s l))).
Proof. exact sides. Qed.
Print Assumptions C119_sides.

(** With a lock around the calls and no timeouts, the bytes on their way are the
    frames of the calls, whole and in the order in which the calls started, but for
    the frame of at most one call, which still waits for the transport. *)
Theorem C119_bytes : forall high low n es l, lrun high low (linit n) es = Some l -> locked high low n es -> undisturbed es ->
  exists sent w, started es = sent ++ w /\ s_wire (l_s l) ++ s_buffer (l_s l) = concat (map (fun c => snd (snd c)) sent) /\
    (length w <= 1)%nat /\ (forall i c, In (i, c) w -> exists m, nth_error (s_tasks (l_s l)) i = Some (SSleep m (snd c))) /\
    (w = [] -> Forall (eq SIdle) (s_tasks (l_s l))).
Proof.
  intros high low n es l R Lk U. destruct (lock_run high low n es l R Lk U) as (ks & w & Rk & Pr & T & S & A & Dz & L & Dn & Wr & N).
  exists (all_calls ks), w. split; [auto|]. split.
  - destruct (sides high low n es l R) as (Sr & _). rewrite (b_live _ (bytes_reachable high low n _ _ Sr) L).
    clear - Dn Wr. revert Wr. generalize (all_calls ks). unfold SenderThms.written. induction Dn as [|y ys Hy Dn IH]; intros cs E; destruct cs as [|k cs]; try discriminate; [reflexivity|].
    cbn [map] in E. injection E as E1 E2 E3. cbn [map concat filter]. destruct y as [[i m] o]. cbn [snd] in Hy. subst o. cbn [fst snd is_written map concat] in *. rewrite E2. f_equal. apply IH, E3.
  - destruct Dz as [Id|i p m Hs Hn O Id]; (split; [cbn; lia|]); (split; [|first [discriminate | intros _; exact Id]]).
    + intros i c [].
    + intros i' c [E|[]]. injection E as <- <-. eauto.
Qed.
Print Assumptions C119_bytes.

(** In front of a house: the gateway obeys the frames in order, whenever it gets
    to them, and its answers come back in packets cut between frames.  It obeyed
    the first [j] calls and the house went through their story; the first [k] calls
    ended as the story says, their tasks having read the messages on which the
    call, made alone, yields what the story says; at most one call has not ended,
    and none when nobody is in the middle of a call.
    When everything was obeyed and has arrived and nothing is left to do, all calls
    have ended like this and nothing is unread. *)
Theorem C119_story : forall gw high low n es l h h' inn out evs cs, gateway_ok gw -> house_ok h -> plain h -> Forall call_ok cs ->
  locked high low n es -> undisturbed es -> watched gw high low (linit n) h [] [] es l h' inn out evs -> made (started es) cs ->
  exists j log heard, story gw h (firstn j cs) log evs h' /\ length log = j /\ length heard = j /\
    Forall2 (fun c x => alone c (fst x) (snd x)) (firstn j cs) (combine heard log) /\
    (exists k pend read, (k <= j <= length cs)%nat /\ (length cs <= k + 1)%nat /\
       k_done (l_c l) = firstn k (combine (map fst (started es)) (map snd log)) /\
       q_out (k_q (l_c l)) = concat (map tagged_with (firstn k (combine (map fst (started es)) heard))) ++ map (pair pend) read /\
       (Forall (eq SIdle) (s_tasks (l_s l)) -> Forall (eq PIdle) (k_pc (l_c l)) -> k = length cs /\ inn = [])) /\
    (inn = [] -> out = [] -> Forall (eq SIdle) (s_tasks (l_s l)) -> (forall i, cstep (l_c l) (KRun i) = None) ->
       j = length cs /\ k_done (l_c l) = combine (map fst (started es)) (map snd log) /\
       q_out (k_q (l_c l)) = concat (map tagged_with (combine (map fst (started es)) heard)) /\ c_queue (q_conn (k_q (l_c l))) = []).
Proof. exact line_story. Qed.
Print Assumptions C119_story.

(** ** A concrete case: a slow socket, marks at 4 and 2 bytes *)

Definition on_msg : msg := MNormal LIGHTING (lit "1") (lit "0").
Definition ask_msg : msg := MStatus LIGHTING (lit "0").
Definition slow : list levent :=
  [LCall 0 PCommand on_msg 3; LDrain 2; LDrain 3; LPacket (lit "*#*1##"); LRun 0;
   LCall 1 (PRequest is_normal) ask_msg 7; LPacket (lit "*1*1*11##"); LRun 1; LPacket (lit "*1*1*12##*#*1##"); LRun 1].

Ltac step_x := eapply Wa_step; [discriminate|vm_compute; reflexivity|]; match goal with |- watched _ _ _ ?l _ _ _ _ _ _ _ _ _ => idtac end; cbn [app].
Ltac obey_x o := eapply Wa_obey; [exists o; split; [order_tac|split; [reflexivity|obey_tac]]|]; cbn [app].

Example C119_ex : exists l h' evs, locked 4 2 2 slow /\ undisturbed slow /\ watched gw0 4 2 (linit 2) house0 [] [] slow l h' [] [] evs /\
  made (started slow) [on_call; ask_call] /\ Forall (eq SIdle) (s_tasks (l_s l)) /\ (forall i, cstep (l_c l) (KRun i) = None) /\
  k_done (l_c l) = [(0%nat, Ok tt); (1%nat, Ok tt)] /\ s_wire (l_s l) = lit "*1*1*0##*#1*0##" /\ map p_state h' = [lit "1"; lit "1"; lit "0"].
Proof.
  do 3 eexists. split.
  { intros pre i p m k post l E R. unfold slow in E.
    assert (X : pre = [] \/ pre = firstn 5 slow).
    { do 10 (destruct pre as [|? pre]; [first [left; reflexivity | right; reflexivity | discriminate E]|cbn [app] in E; injection E as <- E]). destruct pre; discriminate E. }
    destruct X as [-> | ->]; vm_compute in R; injection R as <-; split; repeat constructor. }
  split; [repeat constructor|]. split.
  { unfold slow. step_x. step_x. step_x. obey_x (Command LIGHTING (lit "1") (lit "0")).
    eapply (Wa_packet gw0 4 2 _ _ _ [frame_ack] []); [vm_compute; reflexivity|]. step_x. step_x. obey_x (Status LIGHTING (lit "0")).
    eapply (Wa_packet gw0 4 2 _ _ _ [lit "*1*1*11##"]); [vm_compute; reflexivity|]. step_x.
    eapply (Wa_packet gw0 4 2 _ _ _ [lit "*1*1*12##"; frame_ack] []); [vm_compute; reflexivity|]. step_x. apply Wa_nil. }
  split.
  { repeat constructor.
    - eexists. split; [apply (F_light _ _ 1); reflexivity|]. split; [apply W_command; reflexivity|reflexivity].
    - eexists. split; [apply F_ask_light|]. split; [|reflexivity]. apply W_status; [reflexivity|discriminate|apply is_normal_spec]. }
  split; [repeat constructor|]. split; [intros [|[|[|j]]]; reflexivity|]. split; [vm_compute; reflexivity|]. split; vm_compute; reflexivity.
Qed.

(** ** Without the lock *)

(** The transport is paused when one task switches a lamp on; another task that
    switches it off right after it is no longer paused overtakes it.  All calls
    succeed, and the lamp ends up on, although the calls made in this order leave
    it off. *)
Definition on11 : call := CLight (h_item LIGHTING "11") (LBase turn_on).
Definition passed : list levent :=
  [LCall 0 (PRequest is_normal) ask_msg 0; LCall 1 PCommand (MNormal LIGHTING (lit "1") (lit "11")) 9; LDrain 7;
   LPacket (lit "*1*0*11##*1*5*12##*#*1##"); LRun 0;
   LCall 2 PCommand (MNormal LIGHTING (lit "0") (lit "11")) 9; LPacket (lit "*#*1##"); LRun 2;
   LWake 1 9; LPacket (lit "*#*1##"); LRun 1].
Theorem C119_order_refuted : exists gw high low n es l h h' evs cs, gateway_ok gw /\ house_ok h /\ plain h /\ Forall call_ok cs /\ undisturbed es /\
  watched gw high low (linit n) h [] [] es l h' [] [] evs /\ made (started es) cs /\
  Forall (eq SIdle) (s_tasks (l_s l)) /\ (forall i, cstep (l_c l) (KRun i) = None) /\
  k_done (l_c l) = [(0%nat, Ok tt); (2%nat, Ok tt); (1%nat, Ok tt)] /\ c_queue (q_conn (k_q (l_c l))) = [] /\
  map p_state h' = [lit "1"; lit "5"; lit "0"] /\
  (forall log evs0 h0, story gw h cs log evs0 h0 -> map p_state h0 = [lit "0"; lit "5"; lit "0"]).
Proof.
  exists gw0, 4%nat, 2%nat, 3%nat, passed. eexists. exists house0. do 2 eexists. exists [ask_call; on11; off_call].
  assert (O1 : stands_for ask_call (Status LIGHTING (lit "0"))) by apply F_ask_light.
  assert (O2 : stands_for on11 (Command LIGHTING (lit "1") (lit "11"))) by exact (F_light (h_item LIGHTING "11") (LBase turn_on) 1 eq_refl).
  assert (O3 : stands_for off_call (Command LIGHTING (lit "0") (lit "11"))) by exact (F_light (h_item LIGHTING "11") (LBase turn_off) 0 eq_refl).
  split; [apply gw0_ok|]. split; [apply house0_ok|]. split; [apply plain0|]. split.
  { repeat apply Forall_cons; [| | |apply Forall_nil]; (split; [split; [discriminate|reflexivity]|]; split; [tag_ok|]; split; [reflexivity|]; eauto). }
  split; [repeat constructor|]. split.
  { unfold passed. step_x. step_x. step_x. obey_x (Status LIGHTING (lit "0")).
    eapply (Wa_packet gw0 4 2 _ _ _ [lit "*1*0*11##"; lit "*1*5*12##"; frame_ack] []); [vm_compute; reflexivity|]. step_x. step_x. obey_x (Command LIGHTING (lit "0") (lit "11")).
    eapply (Wa_packet gw0 4 2 _ _ _ [frame_ack] []); [vm_compute; reflexivity|]. step_x. step_x. obey_x (Command LIGHTING (lit "1") (lit "11")).
    eapply (Wa_packet gw0 4 2 _ _ _ [frame_ack] []); [vm_compute; reflexivity|]. step_x. apply Wa_nil. }
  split.
  { repeat constructor.
    - eexists. split; [exact O1|]. split; [|reflexivity]. apply W_status; [reflexivity|discriminate|apply is_normal_spec].
    - eexists. split; [exact O2|]. split; [apply W_command; reflexivity|reflexivity].
    - eexists. split; [exact O3|]. split; [apply W_command; reflexivity|reflexivity]. }
  split; [repeat constructor|]. split; [intros [|[|[|[|j]]]]; reflexivity|]. split; [vm_compute; reflexivity|]. split; [vm_compute; reflexivity|]. split; [vm_compute; reflexivity|].
  intros log evs0 h0 St. inversion St as [|? ? ? h1 obs r e1 log1 e2 ? D St1]; subst. inversion St1 as [|? ? ? h2 obs2 r2 e3 log2 e4 ? D2 St2]; subst.
  inversion St2 as [|? ? ? h3 obs3 r3 e5 log3 e6 ? D3 St3]; subst. inversion St3; subst.
  assert (H1 : h1 = house0).
  { inversion D as [o Ho X|o hx ans ex Ho Ac X O|o hx ans ex yss Ho Ac X O F]; subst; rewrite (stands_fun _ _ _ Ho O1) in *; [reflexivity|discriminate Ac|]. inversion O; subst; auto. }
  subst h1.
  assert (H2 : map p_state h2 = [lit "1"; lit "5"; lit "0"] /\ map (fun p => aimed gw0 LIGHTING (lit "11") p) h2 = [true; false; false]).
  { inversion D2 as [o Ho X|o hx ans ex Ho Ac X O|o hx ans ex yss Ho Ac X O F]; subst; rewrite (stands_fun _ _ _ Ho O2) in *; [discriminate X| |discriminate Ac].
    inversion O; subst; try (exfalso; congruence). split; reflexivity. }
  destruct H2 as (H2 & H2').
  destruct h2 as [|x [|y [|z [|]]]]; try discriminate. cbn [map] in H2, H2'. injection H2 as Ex Ey Ez. injection H2' as Ax Ay Az.
  inversion D3 as [o Ho X|o hx ans ex Ho Ac X O|o hx ans ex yss Ho Ac X O F]; subst; rewrite (stands_fun _ _ _ Ho O3) in *; [|  |discriminate Ac].
  - cbn [at_whom existsb] in X. change (lit "11") with [49; 49] in X. rewrite Ax in X. discriminate X.
  - inversion O; subst; try (exfalso; congruence). match goal with H := done_to _ _ _ _ _ |- _ => unfold H end. unfold done_to. cbn [map]. rewrite Ax, Ay, Az. cbn. rewrite Ey, Ez. reflexivity.
Qed.
Print Assumptions C119_order_refuted.
