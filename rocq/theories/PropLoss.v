(** * Property C124: connections that are lost, calls that are cancelled *)
From Coq Require Import String List NArith ZArith Bool Lia.
From Verif Require Import PyStr Tags Messages SpecMsg SpecTag SpecProto MessageThms3 Protocol Queue Sender SenderThms IO Client SpecItem Items Lighting SpecLight ItemThms LightThms2
  Conc SpecConc SpecSerial SpecHouse HouseThms HouseThms2 PropHouse SpecTogether SerialThms2 TogetherThms PropTogether Line SpecLine LineThms LineThms2 LineThms3 PropLine SpecCrowd CrowdThms PropCrowd
  SpecLate LateThms SpecAgain AgainThms PropAgain SpecLoss LossThms.
Import ListNotations.
Open Scope N_scope.
Open Scope list_scope.

(** Several connections in front of one house, any of which may be lost at any
    moment; calls may time out, and may be cancelled while their message waits for
    a paused transport.  The house went through the story of calls whose messages
    the transport had taken, in an order that keeps that of every connection; of
    those of one connection, the first so many.  So a call that was cancelled before
    it was sent, or made on a lost connection, has no effect.  A call answered on a
    connection on which no earlier call had timed out was told what that story says
    of it: in particular it took effect, if it was told so. *)
Theorem C124_story : forall gw high low ns es ord ls h h' inn out evs css, gateway_ok gw -> house_ok h -> plain h ->
  crowd gw high low (fun j => linit (ns j)) h (fun _ => []) (fun _ => []) es ord ls h' inn out evs ->
  (forall j, behaves_any high low ns es css j) ->
  exists cs log heard, story gw h cs log evs h' /\ length cs = length ord /\ length log = length ord /\ length heard = length ord /\
    Forall2 (fun c x => alone c (fst x) (snd x)) cs (combine heard log) /\
    forall j, let sent := among went_out (outcomes (ls j)) (css j) in
      (length (outcomes (ls j)) <= length (css j) <= length (outcomes (ls j)) + 1)%nat /\ (Forall (eq SIdle) (s_tasks (l_s (ls j))) -> length (outcomes (ls j)) = length (css j)) /\
      (count j ord <= length sent)%nat /\ mine j ord cs = firstn (count j ord) sent /\ (inn j = [] -> count j ord = length sent) /\
      told_any es j ord (ls j) (out j) log heard /\
      forall i r, in_time (map snd (k_done (l_c (ls j)))) i r -> nth_error (map snd (mine j ord log)) i = Some r /\
        exists more, map snd (q_out (k_q (l_c (ls j)))) = concat (firstn (Datatypes.S i) (mine j ord heard)) ++ more.
Proof. exact any_story. Qed.
Print Assumptions C124_story.

(** A call answered in time comes before every call started later, on whichever
    connection. *)
Theorem C124_order : forall gw high low ns css es1 ord1 ls1 h h1 inn1 out1 evs1 es2 ord2 ls2 h2 inn2 out2 evs2, gateway_ok gw -> house_ok h -> plain h ->
  crowd gw high low (fun j => linit (ns j)) h (fun _ => []) (fun _ => []) es1 ord1 ls1 h1 inn1 out1 evs1 ->
  crowd gw high low ls1 h1 inn1 out1 es2 ord2 ls2 h2 inn2 out2 evs2 ->
  (forall j, behaves_any high low ns (es1 ++ es2) css j) ->
  forall i j a b r, in_time (map snd (k_done (l_c (ls1 i)))) a r -> (length (started (of_client j es1)) <= b)%nat -> nth_error (outcomes (ls2 j)) b = Some OWritten ->
  exists p, turn i a (ord1 ++ ord2) = Some p /\ forall q, turn j (length (filter went_out (firstn b (outcomes (ls2 j))))) (ord1 ++ ord2) = Some q -> (p < q)%nat.
Proof. exact any_order. Qed.
Print Assumptions C124_order.

(** Once a connection is lost, none of the calls made on it is sent any more,
    and all that ever has an effect are calls whose messages were taken before. *)
Theorem C124_after_loss : forall gw high low ns css es1 ord1 ls1 h h1 inn1 out1 evs1 es2 ord2 ls2 h2 inn2 out2 evs2, gateway_ok gw -> house_ok h -> plain h ->
  crowd gw high low (fun j => linit (ns j)) h (fun _ => []) (fun _ => []) es1 ord1 ls1 h1 inn1 out1 evs1 ->
  crowd gw high low ls1 h1 inn1 out1 es2 ord2 ls2 h2 inn2 out2 evs2 ->
  (forall j, behaves_any high low ns (es1 ++ es2) css j) ->
  exists cs log heard, story gw h cs log (evs1 ++ evs2) h2 /\ length cs = length (ord1 ++ ord2) /\ length log = length (ord1 ++ ord2) /\ length heard = length (ord1 ++ ord2) /\
    forall j, told_any (es1 ++ es2) j (ord1 ++ ord2) (ls2 j) (out2 j) log heard /\ (In (j, LLost) es1 ->
      mine j (ord1 ++ ord2) cs = firstn (count j (ord1 ++ ord2)) (among went_out (outcomes (ls1 j)) (css j)) /\
      forall b, (length (started (of_client j es1)) <= b)%nat -> nth_error (outcomes (ls2 j)) b <> Some OWritten).
Proof. exact any_after_loss. Qed.
Print Assumptions C124_after_loss.

Ltac one_call := repeat apply Forall_cons; try apply Forall_nil; (split; [split; [discriminate|reflexivity]|]; split; [tag_ok|]; split; [reflexivity|]; eauto).

(** After a timeout not even the loss of the connection is noticed: the lamps
    are switched on, which times out; the answer arrives late, the connection is
    lost, and the client is told that the lamps were switched off. *)
Definition stale : list (nat * levent) :=
  [(0%nat, LCall 0 PCommand on_msg 8); (0%nat, LTimeout 0); (0%nat, LRun 0); (0%nat, LPacket (lit "*#*1##")); (0%nat, LLost); (0%nat, LCall 0 PCommand off_all_msg 8)].
Definition stale_calls (j : nat) : list call := match j with 0%nat => [on_call; off_all] | _ => [] end.
Theorem C124_verdict_refuted : exists ls h inn out evs,
  crowd gw0 64 16 (fun _ => linit 1) house0 (fun _ => []) (fun _ => []) stale [0]%nat ls h inn out evs /\ (forall j, inn j = []) /\
  (forall j, behaves_any 64 16 (fun _ => 1%nat) stale stale_calls j) /\ gateway_ok gw0 /\ house_ok house0 /\ plain house0 /\
  map snd (k_done (l_c (ls 0%nat))) = [Err TimeoutError; Ok tt] /\ outcomes (ls 0%nat) = [OWritten; ODropped] /\ map p_state h = [lit "1"; lit "1"; lit "0"].
Proof.
  assert (O1 : stands_for on_call (Command LIGHTING (lit "1") (lit "0"))) by exact (F_light (h_item LIGHTING "0") (LBase turn_on) 1 eq_refl).
  assert (O2 : stands_for off_all (Command LIGHTING (lit "0") (lit "0"))) by exact (F_light (h_item LIGHTING "0") (LBase turn_off) 0 eq_refl).
  do 5 eexists. split.
  { unfold stale. cr_step. cr_step. cr_step.
    eapply (Cr_obey gw0 64 16 _ _ _ _ 0%nat); [vm_compute; reflexivity|exists (Command LIGHTING (lit "1") (lit "0")); split; [order_tac|split; [reflexivity|obey_tac]]|].
    eapply (Cr_packet gw0 64 16 _ _ _ _ _ [frame_ack] []); [vm_compute; reflexivity|vm_compute; reflexivity|]. cr_step. cr_step. apply Cr_nil. }
  split; [intros [|j]; reflexivity|]. split.
  { intros [|j].
    - split; [one_call|].
      split; [|split; [repeat constructor|repeat constructor; eexists; (split; [eassumption|]); (split; [apply W_command; reflexivity|reflexivity])]].
      intros pre i p m k post l E R.
      assert (X : pre = [] \/ pre = firstn 5 (of_client 0 stale)).
      { cbn in E. do 6 (destruct pre as [|? pre]; [first [left; reflexivity | right; reflexivity | discriminate E]|cbn [app] in E; injection E as <- E]). destruct pre; discriminate E. }
      destruct X as [-> | ->]; vm_compute in R; injection R as <-; split; repeat constructor.
    - split; [constructor|]. split; [intros [|? pre] i p m k post lx E R; discriminate E|]. split; constructor. }
  split; [apply gw0_ok|]. split; [apply house0_ok|]. split; [apply plain0|]. split; [vm_compute; reflexivity|]. split; vm_compute; reflexivity.
Qed.
Print Assumptions C124_verdict_refuted.

(** A case of everything else: a call is obeyed and answered, one is cancelled
    while the transport is paused, and one is made on the lost connection. *)
Definition mishaps : list (nat * levent) :=
  [(0%nat, LCall 0 PCommand on_msg 3); (0%nat, LPacket (lit "*#*1##")); (0%nat, LRun 0); (0%nat, LCall 0 PCommand off_all_msg 3); (0%nat, LCancel 0);
   (0%nat, LDrain 5); (0%nat, LLost); (0%nat, LCall 0 PCommand off_all_msg 3); (0%nat, LTimeout 0); (0%nat, LRun 0)].
Definition mishap_calls (j : nat) : list call := match j with 0%nat => [on_call; off_all; off_all] | _ => [] end.
Example C124_ex : exists ls h inn out evs,
  crowd gw0 4 2 (fun _ => linit 1) house0 (fun _ => []) (fun _ => []) mishaps [0]%nat ls h inn out evs /\ (forall j, inn j = []) /\
  (forall j, behaves_any 4 2 (fun _ => 1%nat) mishaps mishap_calls j) /\ In (0%nat, LLost) mishaps /\
  map snd (k_done (l_c (ls 0%nat))) = [Ok tt; Err TimeoutError] /\ in_time (map snd (k_done (l_c (ls 0%nat)))) 0 (Ok tt) /\ outcomes (ls 0%nat) = [OWritten; OCancelled; ODropped] /\
  among went_out (outcomes (ls 0%nat)) (mishap_calls 0) = [on_call] /\ map p_state h = [lit "1"; lit "1"; lit "0"].
Proof.
  assert (O1 : stands_for on_call (Command LIGHTING (lit "1") (lit "0"))) by exact (F_light (h_item LIGHTING "0") (LBase turn_on) 1 eq_refl).
  assert (O2 : stands_for off_all (Command LIGHTING (lit "0") (lit "0"))) by exact (F_light (h_item LIGHTING "0") (LBase turn_off) 0 eq_refl).
  do 5 eexists. split.
  { unfold mishaps. cr_step. cr_obey 0%nat (Command LIGHTING (lit "1") (lit "0")). cr_packet [frame_ack] (@nil (list N)). do 8 cr_step. apply Cr_nil. }
  split; [intros [|j]; reflexivity|]. split.
  { intros [|j].
    - split; [one_call|].
      split; [|split; [repeat constructor|repeat constructor; eexists; (split; [eassumption|]); (split; [apply W_command; reflexivity|reflexivity])]].
      intros pre i p m k post l E R.
      assert (X : pre = [] \/ pre = firstn 3 (of_client 0 mishaps) \/ pre = firstn 7 (of_client 0 mishaps)).
      { cbn in E. do 10 (destruct pre as [|? pre]; [first [left; reflexivity | right; left; reflexivity | right; right; reflexivity | discriminate E]|cbn [app] in E; injection E as <- E]). destruct pre; discriminate E. }
      destruct X as [-> |[-> | ->]]; vm_compute in R; injection R as <-; split; repeat constructor.
    - split; [constructor|]. split; [intros [|? pre] i p m k post lx E R; discriminate E|]. split; constructor. }
  split; [cbn; tauto|]. split; [vm_compute; reflexivity|]. split; [split; [reflexivity|split; reflexivity]|]. split; [vm_compute; reflexivity|]. split; vm_compute; reflexivity.
Qed.
