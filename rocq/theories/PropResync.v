(** * Property C127: listening and asking *)
From Coq Require Import String List NArith ZArith Bool Lia.
From Verif Require Import PyStr Tags Messages SpecMsg SpecTag SpecProto MessageThms3 Protocol Queue Sender SenderThms IO Client SpecItem Items Lighting SpecLight ItemThms LightThms2
  Conc SpecConc SpecSerial SpecHouse HouseThms HouseThms2 PropHouse SpecTogether SerialThms2 TogetherThms PropTogether Line SpecLine LineThms LineThms2 LineThms3 PropLine SpecCrowd CrowdThms PropCrowd
  SpecLate LateThms SpecAgain AgainThms PropAgain SpecLoss LossThms PropLoss Dispatch SpecDispatch SpecNotice NoticeThms PropNotice SpecMirror MirrorThms ResyncThms.
Import ListNotations.
Open Scope N_scope.
Open Scope list_scope.

(** ** C127 A client that listens, then asks, knows the house (refuted for the last word) *)

(** A client runs loop() while several connections, one of which may be its own,
    command and ask.  On connection [j] a status request was answered in time: it
    yielded [obs], from the messages [msgs] that were read there.  When all events
    have arrived, the state of each point the request was for is what a callback
    was told last about it, or, if none was ever told anything, what the request
    yielded. *)
Theorem C127_resync : forall gw high low ns es ord ls h h' inn out evs css v r acts, gateway_ok gw -> house_ok h -> plain h -> distinct h ->
  crowd gw high low (fun j => linit (ns j)) h (fun _ => []) (fun _ => []) es ord ls h' inn out evs ->
  (forall j, behaves_any high low ns es css j) -> v < 13 -> delivers acts evs ->
  let st := Dispatch.run v (enter v (Dispatch.connected r)) (acts ++ [Wake]) in
  forall j n c w a, in_time (map snd (k_done (l_c (ls j)))) n (Ok tt) ->
  nth_error (among went_out (outcomes (ls j)) (css j)) n = Some c -> stands_for c (Status w a) -> asks c = true ->
  exists log heard msgs obs, told_any es j ord (ls j) (out j) log heard /\
    nth_error (mine j ord heard) n = Some msgs /\ alone c msgs (obs, Ok tt) /\
    (exists more, map snd (q_out (k_q (l_c (ls j)))) = concat (firstn n (mine j ord heard)) ++ msgs ++ more) /\
    forall p k args f, In p h' -> aimed gw w a p = true -> announces p k args ->
    (forall g, In g (r k) -> cb_takes g (S (length args)) = true) -> In f (r k) ->
    (exists i, nth_error (st_items st) i = Some (place p) /\ last_told (cb_id f) i (st_started st) = Some args) \/
    ((forall i, nth_error (st_items st) i = Some (place p) -> never_told i (st_started st)) /\ exists ys, shows p c ys /\ incl ys obs).
Proof. exact resync. Qed.
Print Assumptions C127_resync.

(** A gateway that does not repeat the answers to requests as events. *)
Definition gw2 : gateway := {| covers := covers gw0; SpecHouse.react := SpecHouse.react gw0; echoes := false |}.
Lemma gw2_ok : gateway_ok gw2.
Proof. exact gw0_ok. Qed.

Ltac quick_packet fs rest := eapply (Cr_packet gw2 64 16 _ _ _ _ _ fs rest); [vm_compute; reflexivity|vm_compute; reflexivity|].
Ltac quick_obey i o := eapply (Cr_obey gw2 64 16 _ _ _ _ i); [vm_compute; reflexivity|exists o; split; [order_tac|split; [reflexivity|obey_tac]]|].
Ltac asks_too := eexists; split; [apply F_ask_light|]; split; [|reflexivity]; apply W_status; [reflexivity|discriminate|apply is_normal_spec].
Ltac only_first := let X := fresh in
  intros pre i p m k post l E R; assert (X : pre = []);
  [cbn in E; do 3 (destruct pre as [|? pre]; [first [reflexivity | discriminate E]|cbn [app] in E; injection E as <- E]); destruct pre; discriminate E|];
  subst pre; vm_compute in R; injection R as <-; split; repeat constructor.

(** The word that came last may be wrong: the gateway deals with a request, then
    with a command; the event of the command arrives, then the answer to the
    request, which is older.  Nothing arrives after it. *)
Definition race1 : list (nat * levent) := [(1%nat, LCall 0 (PRequest is_normal) ask_msg 8); (0%nat, LCall 0 PCommand on_msg 8)].
Definition race2 : list (nat * levent) :=
  [(0%nat, LPacket (concat [frame_ack])); (0%nat, LRun 0); (1%nat, LPacket (concat [lit "*1*0*11##"; lit "*1*5*12##"; frame_ack])); (1%nat, LRun 0)].
Definition race_calls (j : nat) : list SpecHouse.call := match j with 0%nat => [on_call] | 1%nat => [ask_call] | _ => [] end.
Definition race_acts : list act := [] ++ [Packet (concat [lit "*1*1*11##"; lit "*1*1*12##"])].
Lemma race_behaves : forall j, behaves_any 64 16 (fun _ => 1%nat) (race1 ++ race2) race_calls j.
Proof.
  assert (O1 : stands_for on_call (Command LIGHTING (lit "1") (lit "0"))) by exact (F_light (h_item LIGHTING "0") (LBase turn_on) 1 eq_refl).
  assert (O2 : stands_for ask_call (Status LIGHTING (lit "0"))) by apply F_ask_light.
  intros [|[|j]].
  - split; [one_call|]. split; [only_first|]. split; [repeat constructor|]. repeat constructor. eexists. split; [exact O1|]. split; [apply W_command; reflexivity|reflexivity].
  - split; [pose proof calls_ok as F; inversion F as [|? ? F1 F2]; subst; exact F2|]. split; [only_first|]. split; [repeat constructor|]. repeat constructor. asks_too.
  - split; [constructor|]. split; [intros [|? pre] i p m k post lx E R; discriminate E|]. split; constructor.
Qed.
Theorem C127_last_word_refuted : exists ls1 h1 inn1 out1 evs ls2 h2 inn2 out2 msgs,
  crowd gw2 64 16 (fun _ => linit 1) house0 (fun _ => []) (fun _ => []) race1 [1; 0]%nat ls1 h1 inn1 out1 evs /\
  crowd gw2 64 16 ls1 h1 inn1 out1 race2 [] ls2 h2 inn2 out2 [] /\ (forall j, behaves_any 64 16 (fun _ => 1%nat) (race1 ++ race2) race_calls j) /\
  gateway_ok gw2 /\ house_ok house0 /\ plain house0 /\ distinct house0 /\ delivers race_acts evs /\ (forall j, inn2 j = [] /\ out2 j = []) /\
  k_done (l_c (ls1 1%nat)) = [] /\ c_queue (q_conn (k_q (l_c (ls1 1%nat)))) = [] /\
  (let st := Dispatch.run 12 (enter 12 (Dispatch.connected reg0)) (race_acts ++ [Wake]) in
   nth_error (st_items st) 0 = Some (LIGHTING, lit "11") /\ last_told 1 0 (st_started st) = Some [VBool true]) /\
  in_time (map snd (k_done (l_c (ls2 1%nat)))) 0 (Ok tt) /\ map snd (q_out (k_q (l_c (ls2 1%nat)))) = msgs /\
  alone ask_call msgs ([(lit "11", SLamp false)], Ok tt) /\ map p_state h2 = [lit "1"; lit "1"; lit "0"].
Proof.
  do 10 eexists. split.
  { unfold race1. cr_step. cr_step. quick_obey 1%nat (Status LIGHTING (lit "0")). quick_obey 0%nat (Command LIGHTING (lit "1") (lit "0")). apply Cr_nil. }
  split.
  { unfold race2. quick_packet [frame_ack] (@nil (list N)). cr_step. quick_packet [lit "*1*0*11##"; lit "*1*5*12##"; frame_ack] (@nil (list N)). cr_step. apply Cr_nil. }
  split; [exact race_behaves|]. split; [apply gw2_ok|]. split; [apply house0_ok|]. split; [apply plain0|].
  split. { unfold distinct, house0. cbn. repeat constructor; cbn; intuition discriminate. }
  split. { exact (Dl_packet _ _ [lit "*1*1*11##"; lit "*1*1*12##"] Dl_start). }
  split; [intros [|[|j]]; split; reflexivity|]. split; [vm_compute; reflexivity|]. split; [vm_compute; reflexivity|]. split; [split; vm_compute; reflexivity|].
  split; [split; [reflexivity|split; reflexivity]|]. split; [reflexivity|]. split; [eexists; split; vm_compute; reflexivity|vm_compute; reflexivity].
Qed.
Print Assumptions C127_last_word_refuted.

(** And asking first is no help: the same two calls are over before the client
    listens.  Nothing arrives, and the answer is wrong for good. *)
Theorem C127_asked_first_refuted : exists ls1 h1 inn1 out1 evs1 ls2 h2 inn2 out2 msgs,
  crowd gw2 64 16 (fun _ => linit 1) house0 (fun _ => []) (fun _ => []) (race1 ++ race2) [1; 0]%nat ls1 h1 inn1 out1 evs1 /\
  (forall j, behaves_any 64 16 (fun _ => 1%nat) (race1 ++ race2) race_calls j) /\
  crowd gw2 64 16 ls1 h1 inn1 out1 [] [] ls2 h2 inn2 out2 [] /\ (forall j, inn2 j = [] /\ out2 j = []) /\ delivers [] [] /\
  st_started (Dispatch.run 12 (enter 12 (Dispatch.connected reg0)) ([] ++ [Wake])) = [] /\
  in_time (map snd (k_done (l_c (ls1 1%nat)))) 0 (Ok tt) /\ map snd (q_out (k_q (l_c (ls1 1%nat)))) = msgs /\
  alone ask_call msgs ([(lit "11", SLamp false)], Ok tt) /\ map p_state h2 = [lit "1"; lit "1"; lit "0"].
Proof.
  do 10 eexists. split.
  { unfold race1, race2. cbn [app]. cr_step. cr_step. quick_obey 1%nat (Status LIGHTING (lit "0")). quick_obey 0%nat (Command LIGHTING (lit "1") (lit "0")).
    quick_packet [frame_ack] (@nil (list N)). cr_step. quick_packet [lit "*1*0*11##"; lit "*1*5*12##"; frame_ack] (@nil (list N)). cr_step. apply Cr_nil. }
  split; [exact race_behaves|]. split; [apply Cr_nil|]. split; [intros [|[|j]]; split; reflexivity|]. split; [apply Dl_start|]. split; [reflexivity|].
  split; [split; [reflexivity|split; reflexivity]|]. split; [reflexivity|]. split; [eexists; split; vm_compute; reflexivity|vm_compute; reflexivity].
Qed.
Print Assumptions C127_asked_first_refuted.

(** A case of the theorem: one client switches a lamp on, another asks for the
    levels of all of them.  The event tells of the one, the answer of the other. *)
Definition dim_call : SpecHouse.call := CAskDimmer (h_item LIGHTING "0").
Definition calm_run : list (nat * levent) :=
  [(1%nat, LCall 0 (PRequest is_normal) ask_msg 8); (0%nat, LCall 0 PCommand (MNormal LIGHTING (lit "1") (lit "11")) 9);
   (0%nat, LPacket (concat [frame_ack])); (0%nat, LRun 0); (1%nat, LPacket (concat [lit "*1*0*11##"; lit "*1*5*12##"; frame_ack])); (1%nat, LRun 0)].
Definition calm_calls (j : nat) : list SpecHouse.call := match j with 0%nat => [CLight (h_item LIGHTING "11") (LBase turn_on)] | 1%nat => [dim_call] | _ => [] end.
Example C127_ex : exists ls h inn out evs,
  crowd gw2 64 16 (fun _ => linit 1) house0 (fun _ => []) (fun _ => []) calm_run [1; 0]%nat ls h inn out evs /\
  (forall j, behaves_any 64 16 (fun _ => 1%nat) calm_run calm_calls j) /\ distinct house0 /\ delivers ([] ++ [Packet (concat [lit "*1*1*11##"])]) evs /\
  in_time (map snd (k_done (l_c (ls 1%nat)))) 0 (Ok tt) /\ nth_error (among went_out (outcomes (ls 1%nat)) (calm_calls 1)) 0 = Some dim_call /\
  stands_for dim_call (Status LIGHTING (lit "0")) /\
  alone dim_call (map snd (q_out (k_q (l_c (ls 1%nat))))) ([(lit "11", SLevel 0); (lit "12", SLevel 50)], Ok tt) /\
  map p_state h = [lit "1"; lit "5"; lit "0"] /\
  let st := Dispatch.run 12 (enter 12 (Dispatch.connected reg0)) (([] ++ [Packet (concat [lit "*1*1*11##"])]) ++ [Wake]) in
  st_items st = [(LIGHTING, lit "11")] /\ last_told 1 0 (st_started st) = Some [VBool true].
Proof.
  assert (O1 : stands_for (CLight (h_item LIGHTING "11") (LBase turn_on)) (Command LIGHTING (lit "1") (lit "11"))) by exact (F_light (h_item LIGHTING "11") (LBase turn_on) 1 eq_refl).
  do 5 eexists. split.
  { unfold calm_run. cr_step. cr_step. quick_obey 1%nat (Status LIGHTING (lit "0")). quick_obey 0%nat (Command LIGHTING (lit "1") (lit "11")).
    quick_packet [frame_ack] (@nil (list N)). cr_step. quick_packet [lit "*1*0*11##"; lit "*1*5*12##"; frame_ack] (@nil (list N)). cr_step. apply Cr_nil. }
  split.
  { intros [|[|j]].
    - split; [one_call|]. split; [only_first|]. split; [repeat constructor|]. repeat constructor. eexists. split; [exact O1|]. split; [apply W_command; reflexivity|reflexivity].
    - split; [one_call; eexists; apply F_ask_dimmer|]. split; [only_first|]. split; [repeat constructor|]. repeat constructor.
      eexists; split; [apply F_ask_dimmer|]; split; [|reflexivity]; apply W_status; [reflexivity|discriminate|apply is_normal_spec].
    - split; [constructor|]. split; [intros [|? pre] i p m k post lx E R; discriminate E|]. split; constructor. }
  split. { unfold distinct, house0. cbn. repeat constructor; cbn; intuition discriminate. }
  split. { exact (Dl_packet _ _ [lit "*1*1*11##"] Dl_start). }
  split; [split; [reflexivity|split; reflexivity]|]. split; [vm_compute; reflexivity|]. split; [apply F_ask_dimmer|]. split; [eexists; split; vm_compute; reflexivity|].
  split; [vm_compute; reflexivity|]. split; vm_compute; reflexivity.
Qed.
