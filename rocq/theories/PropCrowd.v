(** * Property C121: several clients in front of one house *)
From Coq Require Import String List NArith ZArith Bool Lia.
From Verif Require Import PyStr Tags Messages SpecMsg SpecTag SpecProto MessageThms3 Protocol Queue Sender SenderThms IO Client SpecItem Items Lighting SpecLight ItemThms LightThms2
  Conc SpecConc SpecSerial SpecHouse HouseThms HouseThms2 PropHouse SpecTogether SerialThms2 TogetherThms PropTogether Line SpecLine LineThms LineThms2 LineThms3 PropLine SpecCrowd CrowdThms.
Import ListNotations.
Open Scope N_scope.
Open Scope list_scope.

(** Clients with a connection each, the calls of each one after the other and
    those of different clients at any time; the gateway deals with the frames of a
    client in order and with the clients in any order.  There is one order of all
    calls obeyed, which keeps the order of every client; the house went through the
    story of these calls, and every client has got what that story says, but for at
    most its last call. *)
Theorem C121_story : forall gw high low ns es ord ls h h' inn out evs css, gateway_ok gw -> house_ok h -> plain h ->
  crowd gw high low (fun j => linit (ns j)) h (fun _ => []) (fun _ => []) es ord ls h' inn out evs ->
  (forall j, behaves high low ns es css j) ->
  exists cs log heard, story gw h cs log evs h' /\ length cs = length ord /\ length log = length ord /\ length heard = length ord /\
    Forall2 (fun c x => alone c (fst x) (snd x)) cs (combine heard log) /\
    forall j, mine j ord cs = firstn (count j ord) (css j) /\ told es css j ord (ls j) (inn j) (out j) log heard.
Proof. exact crowd_story. Qed.
Print Assumptions C121_story.

(** That order respects time: a call that had ended when another one started
    comes before it, whoever made them. *)
Theorem C121_order : forall gw high low ns css es1 ord1 ls1 h h1 inn1 out1 evs1 es2 ord2 ls2 h2 inn2 out2 evs2, gateway_ok gw -> house_ok h -> plain h ->
  crowd gw high low (fun j => linit (ns j)) h (fun _ => []) (fun _ => []) es1 ord1 ls1 h1 inn1 out1 evs1 ->
  crowd gw high low ls1 h1 inn1 out1 es2 ord2 ls2 h2 inn2 out2 evs2 ->
  (forall j, behaves high low ns (es1 ++ es2) css j) ->
  forall i j a b, (a < length (k_done (l_c (ls1 i))))%nat -> (length (started (of_client j es1)) <= b)%nat ->
  exists p, turn i a (ord1 ++ ord2) = Some p /\ forall q, turn j b (ord1 ++ ord2) = Some q -> (p < q)%nat.
Proof. exact crowd_order. Qed.
Print Assumptions C121_order.

(** What one client set is what another one reads: client [i] sets something
    about the point [p] after the moment 0 and the call has ended at the moment 1;
    client [j] asks for it after the moment 1 and the call ends.  When no other call
    that had not ended at the moment 0 sets anything about [p], the answer is what
    was set. *)
Theorem C121_seen : forall gw high low ns css es0 ord0 ls0 h h0 inn0 out0 evs0 es1 ord1 ls1 h1 inn1 out1 evs1 es2 ord2 ls2 h2 inn2 out2 evs2 i j a b c ask p o oa v,
  gateway_ok gw -> house_ok h -> plain h ->
  crowd gw high low (fun j => linit (ns j)) h (fun _ => []) (fun _ => []) es0 ord0 ls0 h0 inn0 out0 evs0 ->
  crowd gw high low ls0 h0 inn0 out0 es1 ord1 ls1 h1 inn1 out1 evs1 ->
  crowd gw high low ls1 h1 inn1 out1 es2 ord2 ls2 h2 inn2 out2 evs2 ->
  (forall j, behaves high low ns (es0 ++ es1 ++ es2) css j) ->
  nth_error (css i) a = Some c -> (length (started (of_client i es0)) <= a < length (k_done (l_c (ls1 i))))%nat ->
  nth_error (css j) b = Some ask -> (length (started (of_client j (es0 ++ es1))) <= b < length (k_done (l_c (ls2 j))))%nat ->
  In p h -> stands_for c o -> stands_for ask oa -> at_whom gw o p = true -> at_whom gw oa p = true -> tells gw c ask v ->
  (forall i' a' c', nth_error (css i') a' = Some c' -> (length (k_done (l_c (ls0 i'))) <= a')%nat -> (i', a') <> (i, a) ->
     forall o', stands_for c' o' -> at_whom gw o' p = true -> sets o' = false) ->
  exists log heard obs, told (es0 ++ es1 ++ es2) css j (ord0 ++ ord1 ++ ord2) (ls2 j) (inn2 j) (out2 j) log heard /\
    (exists ms, nth_error (mine j (ord0 ++ ord1 ++ ord2) heard) b = Some ms /\ alone ask ms (obs, Ok tt)) /\
    nth_error (mine j (ord0 ++ ord1 ++ ord2) log) b = Some (obs, Ok tt) /\ In (p_where p, v) obs /\ (NoDup (map p_where h) -> forall v', In (p_where p, v') obs -> v' = v).
Proof. exact crowd_seen. Qed.
Print Assumptions C121_seen.

(** ** A concrete case *)

(** One client switches all lamps on while another asks for them, is served
    first and asks again when the first has finished. *)
Definition meet1 : list (nat * levent) :=
  [(0%nat, LCall 0 PCommand on_msg 3); (1%nat, LCall 0 (PRequest is_normal) ask_msg 7); (0%nat, LDrain 5);
   (1%nat, LPacket (lit "*1*0*11##")); (0%nat, LPacket (lit "*#*1##")); (1%nat, LRun 0); (0%nat, LRun 0); (1%nat, LPacket (lit "*1*5*12##*#*1##")); (1%nat, LRun 0)].
Definition meet2 : list (nat * levent) :=
  [(1%nat, LCall 0 (PRequest is_normal) ask_msg 7); (1%nat, LPacket (lit "*1*1*11##*1*1*12##*#*1##")); (1%nat, LRun 0)].
Definition meet_calls (j : nat) : list call := match j with 0%nat => [on_call] | 1%nat => [ask_call; ask_call] | _ => [] end.

Ltac cr_step := eapply Cr_step; [discriminate|vm_compute; reflexivity|].
Ltac cr_packet fs rest := eapply (Cr_packet gw0 4 2 _ _ _ _ _ fs rest); [vm_compute; reflexivity|vm_compute; reflexivity|].
Ltac cr_obey i o := eapply (Cr_obey gw0 4 2 _ _ _ _ i); [vm_compute; reflexivity|exists o; split; [order_tac|split; [reflexivity|obey_tac]]|].

Example C121_ex : exists ls1 h1 inn1 out1 evs1 ls2 h2 inn2 out2 evs2,
  crowd gw0 4 2 (fun _ => linit 1) house0 (fun _ => []) (fun _ => []) meet1 [1; 0]%nat ls1 h1 inn1 out1 evs1 /\
  crowd gw0 4 2 ls1 h1 inn1 out1 meet2 [1]%nat ls2 h2 inn2 out2 evs2 /\
  (forall j, behaves 4 2 (fun _ => 1%nat) (meet1 ++ meet2) meet_calls j) /\
  k_done (l_c (ls1 0%nat)) = [(0%nat, Ok tt)] /\ k_done (l_c (ls1 1%nat)) = [(0%nat, Ok tt)] /\ k_done (l_c (ls2 1%nat)) = [(0%nat, Ok tt); (0%nat, Ok tt)] /\
  map snd (q_out (k_q (l_c (ls2 1%nat)))) =
    [MNormal LIGHTING (lit "0") (lit "11"); MNormal LIGHTING (lit "5") (lit "12"); MAck; MNormal LIGHTING (lit "1") (lit "11"); MNormal LIGHTING (lit "1") (lit "12"); MAck] /\
  map p_state h2 = [lit "1"; lit "1"; lit "0"].
Proof.
  do 10 eexists. split.
  { unfold meet1. cr_step. cr_step. cr_step. cr_obey 1%nat (Status LIGHTING (lit "0")). cr_obey 0%nat (Command LIGHTING (lit "1") (lit "0")).
    cr_packet [lit "*1*0*11##"] [lit "*1*5*12##"; frame_ack]. cr_packet [frame_ack] (@nil (list N)). cr_step. cr_step.
    cr_packet [lit "*1*5*12##"; frame_ack] (@nil (list N)). cr_step. apply Cr_nil. }
  split.
  { unfold meet2. cr_step. cr_obey 1%nat (Status LIGHTING (lit "0")). cr_packet [lit "*1*1*11##"; lit "*1*1*12##"; frame_ack] (@nil (list N)). cr_step. apply Cr_nil. }
  split.
  { intros [|[|j]].
    - split; [pose proof calls_ok as F; inversion F as [|? ? F1 F2]; subst; apply Forall_cons; [exact F1|apply Forall_nil]|]. split; [|split; [repeat constructor|]].
      + intros pre i p m k post l E R.
        assert (X : pre = []).
        { cbn in E. do 4 (destruct pre as [|? pre]; [first [reflexivity | discriminate E]|cbn [app] in E; injection E as <- E]). destruct pre; discriminate E. }
        subst pre. vm_compute in R. injection R as <-. split; repeat constructor.
      + repeat constructor. eexists. split; [apply (F_light _ _ 1); reflexivity|]. split; [apply W_command; reflexivity|reflexivity].
    - split; [pose proof calls_ok as F; inversion F as [|? ? F1 F2]; subst; inversion F2; subst; apply Forall_cons; [assumption|apply Forall_cons; [assumption|apply Forall_nil]]|]. split; [|split; [repeat constructor|]].
      + intros pre i p m k post l E R.
        assert (X : pre = [] \/ pre = firstn 5 (of_client 1 (meet1 ++ meet2))).
        { cbn in E. do 8 (destruct pre as [|? pre]; [first [left; reflexivity | right; reflexivity | discriminate E]|cbn [app] in E; injection E as <- E]). destruct pre; discriminate E. }
        destruct X as [-> | ->]; vm_compute in R; injection R as <-; split; repeat constructor.
      + assert (A : exists o, stands_for ask_call o /\ waits ask_call (PRequest is_normal) /\ msg_str ask_msg = order_frame o).
        { eexists. split; [apply F_ask_light|]. split; [|reflexivity]. apply W_status; [reflexivity|discriminate|apply is_normal_spec]. }
        repeat constructor; exact A.
    - split; [constructor|]. split; [intros [|? pre] i p m k post lx E R; discriminate E|]. split; constructor. }
  split; [vm_compute; reflexivity|]. split; [vm_compute; reflexivity|]. split; [vm_compute; reflexivity|]. split; vm_compute; reflexivity.
Qed.
