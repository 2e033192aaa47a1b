(** * Property C123: a new connection after a timeout *)
From Coq Require Import String List NArith ZArith Bool Lia.
From Verif Require Import PyStr Tags Messages SpecMsg SpecTag SpecProto MessageThms3 Protocol Queue Sender SenderThms IO Client SpecItem Items Lighting SpecLight ItemThms LightThms2
  Conc SpecConc SpecSerial SpecHouse HouseThms HouseThms2 PropHouse SpecTogether SerialThms2 TogetherThms PropTogether Line SpecLine LineThms LineThms2 LineThms3 PropLine SpecCrowd CrowdThms PropCrowd
  SpecLate LateThms SpecAgain AgainThms.
Import ListNotations.
Open Scope N_scope.
Open Scope list_scope.

(** Several connections in front of one house, on each of which calls are made
    one after the other and may time out.  There is one order of all calls obeyed,
    which keeps the order of every connection, and the house went through the story
    of these calls.  Every call that was answered on a connection on which no
    earlier call had timed out was told what that story says, and has read the
    messages that the story holds for it.  So a client that opens a new connection
    after every timeout is never told the verdict of another call. *)
Theorem C123_story : forall gw high low ns es ord ls h h' inn out evs css, gateway_ok gw -> house_ok h -> plain h ->
  crowd gw high low (fun j => linit (ns j)) h (fun _ => []) (fun _ => []) es ord ls h' inn out evs ->
  (forall j, behaves_late high low ns es css j) ->
  exists cs log heard, story gw h cs log evs h' /\ length cs = length ord /\ length log = length ord /\ length heard = length ord /\
    Forall2 (fun c x => alone c (fst x) (snd x)) cs (combine heard log) /\
    forall j, (count j ord <= length (css j))%nat /\ mine j ord cs = firstn (count j ord) (css j) /\ told_late es css j ord (ls j) (inn j) (out j) log heard /\
      forall i r, in_time (map snd (k_done (l_c (ls j)))) i r -> nth_error (map snd (mine j ord log)) i = Some r /\
        exists more, map snd (q_out (k_q (l_c (ls j)))) = concat (firstn (Datatypes.S i) (mine j ord heard)) ++ more.
Proof. exact again_story. Qed.
Print Assumptions C123_story.

(** A call answered in time comes before every call that started later, on
    whichever connection. *)
Theorem C123_order : forall gw high low ns css es1 ord1 ls1 h h1 inn1 out1 evs1 es2 ord2 ls2 h2 inn2 out2 evs2, gateway_ok gw -> house_ok h -> plain h ->
  crowd gw high low (fun j => linit (ns j)) h (fun _ => []) (fun _ => []) es1 ord1 ls1 h1 inn1 out1 evs1 ->
  crowd gw high low ls1 h1 inn1 out1 es2 ord2 ls2 h2 inn2 out2 evs2 ->
  (forall j, behaves_late high low ns (es1 ++ es2) css j) ->
  forall i j a b r, in_time (map snd (k_done (l_c (ls1 i)))) a r -> (length (started (of_client j es1)) <= b)%nat ->
  exists p, turn i a (ord1 ++ ord2) = Some p /\ forall q, turn j b (ord1 ++ ord2) = Some q -> (p < q)%nat.
Proof. exact again_order. Qed.
Print Assumptions C123_order.

(** Not so for a call that timed out: a client switches the lamps on, is told
    that this timed out, opens a new connection, switches them off and is told that
    this was done; then the gateway gets to the first call, and the lamps are on. *)
Definition off_all : call := CLight (h_item LIGHTING "0") (LBase turn_off).
Definition off_all_msg : msg := MNormal LIGHTING (lit "0") (lit "0").
Definition given_up : list (nat * levent) := [(0%nat, LCall 0 PCommand on_msg 3); (0%nat, LTimeout 0); (0%nat, LRun 0)].
Definition once_more : list (nat * levent) := [(1%nat, LCall 0 PCommand off_all_msg 3); (1%nat, LPacket (lit "*#*1##")); (1%nat, LRun 0)].
Definition again_calls (j : nat) : list call := match j with 0%nat => [on_call] | 1%nat => [off_all] | _ => [] end.

Theorem C123_order_refuted : exists ls1 h1 inn1 out1 evs1 ls2 h2 inn2 out2 evs2,
  crowd gw0 64 16 (fun _ => linit 1) house0 (fun _ => []) (fun _ => []) given_up [] ls1 h1 inn1 out1 evs1 /\
  crowd gw0 64 16 ls1 h1 inn1 out1 once_more [1; 0]%nat ls2 h2 inn2 out2 evs2 /\ (forall j, inn2 j = []) /\
  (forall j, behaves_late 64 16 (fun _ => 1%nat) (given_up ++ once_more) again_calls j) /\
  k_done (l_c (ls1 0%nat)) = [(0%nat, Err TimeoutError)] /\ in_time (map snd (k_done (l_c (ls2 1%nat)))) 0 (Ok tt) /\
  (forall j, length (k_done (l_c (ls2 j))) = length (again_calls j)) /\
  gateway_ok gw0 /\ house_ok house0 /\ plain house0 /\ map p_state h2 = [lit "1"; lit "1"; lit "0"].
Proof.
  assert (O1 : stands_for on_call (Command LIGHTING (lit "1") (lit "0"))) by exact (F_light (h_item LIGHTING "0") (LBase turn_on) 1 eq_refl).
  assert (O2 : stands_for off_all (Command LIGHTING (lit "0") (lit "0"))) by exact (F_light (h_item LIGHTING "0") (LBase turn_off) 0 eq_refl).
  do 10 eexists. split.
  { unfold given_up. cr_step. cr_step. cr_step. apply Cr_nil. }
  split.
  { unfold once_more. cr_step.
    eapply (Cr_obey gw0 64 16 _ _ _ _ 1%nat); [vm_compute; reflexivity|exists (Command LIGHTING (lit "0") (lit "0")); split; [order_tac|split; [reflexivity|obey_tac]]|].
    eapply (Cr_packet gw0 64 16 _ _ _ _ _ [frame_ack] []); [vm_compute; reflexivity|vm_compute; reflexivity|]. cr_step.
    eapply (Cr_obey gw0 64 16 _ _ _ _ 0%nat); [vm_compute; reflexivity|exists (Command LIGHTING (lit "1") (lit "0")); split; [order_tac|split; [reflexivity|obey_tac]]|].
    apply Cr_nil. }
  split; [intros [|[|j]]; reflexivity|]. split.
  { intros [|[|j]].
    - split; [repeat apply Forall_cons; [|apply Forall_nil]; (split; [split; [discriminate|reflexivity]|]; split; [tag_ok|]; split; [reflexivity|]; eauto)|].
      split; [|split; [repeat constructor|repeat constructor; eexists; (split; [eassumption|]); (split; [apply W_command; reflexivity|reflexivity])]].
      intros pre i p m k post l E R.
      assert (X : pre = []).
      { cbn in E. do 3 (destruct pre as [|? pre]; [first [reflexivity | discriminate E]|cbn [app] in E; injection E as <- E]). destruct pre; discriminate E. }
      subst pre. vm_compute in R. injection R as <-. split; repeat constructor.
    - split; [repeat apply Forall_cons; [|apply Forall_nil]; (split; [split; [discriminate|reflexivity]|]; split; [tag_ok|]; split; [reflexivity|]; eauto)|].
      split; [|split; [repeat constructor|repeat constructor; eexists; (split; [eassumption|]); (split; [apply W_command; reflexivity|reflexivity])]].
      intros pre i p m k post l E R.
      assert (X : pre = []).
      { cbn in E. do 3 (destruct pre as [|? pre]; [first [reflexivity | discriminate E]|cbn [app] in E; injection E as <- E]). destruct pre; discriminate E. }
      subst pre. vm_compute in R. injection R as <-. split; repeat constructor.
    - split; [constructor|]. split; [intros [|? pre] i p m k post lx E R; discriminate E|]. split; constructor. }
  split; [vm_compute; reflexivity|]. split; [split; [reflexivity|split; reflexivity]|]. split; [intros [|[|j]]; reflexivity|].
  split; [apply gw0_ok|]. split; [apply house0_ok|]. split; [apply plain0|]. vm_compute; reflexivity.
Qed.
Print Assumptions C123_order_refuted.
