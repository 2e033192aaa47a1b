(** * Property C125: listening while others command *)
From Coq Require Import String List NArith ZArith Bool Lia.
From Verif Require Import PyStr Tags Messages SpecMsg SpecTag SpecProto MessageThms3 Protocol Queue Sender SenderThms IO Client SpecItem Items Lighting SpecLight ItemThms LightThms2
  Conc SpecConc SpecSerial SpecHouse HouseThms HouseThms2 PropHouse SpecTogether SerialThms2 TogetherThms PropTogether Line SpecLine LineThms LineThms2 LineThms3 PropLine SpecCrowd CrowdThms PropCrowd
  SpecLate LateThms SpecAgain AgainThms PropAgain SpecLoss LossThms Dispatch SpecDispatch SpecNotice NoticeThms PropNotice SpecMirror MirrorThms.
Import ListNotations.
Open Scope N_scope.
Open Scope list_scope.

(** Several clients command a house, their calls may time out, be cancelled, their
    connections be lost; another client runs loop() and got some of the events: for
    each of them, in order, exactly the callbacks registered for it were called,
    with the item of the point and the state reported. *)
Theorem C125_events : forall gw high low ns es ord ls h h' inn out evs css v r acts, gateway_ok gw -> house_ok h -> plain h ->
  crowd gw high low (fun j => linit (ns j)) h (fun _ => []) (fun _ => []) es ord ls h' inn out evs ->
  (forall j, behaves_any high low ns es css j) -> forall pre post, evs = pre ++ post -> v < 13 -> delivers acts pre ->
  exists its tss, let st := Dispatch.run v (enter v (Dispatch.connected r)) (acts ++ [Wake]) in
    st_started st = concat tss /\ st_items st = its /\ NoDup its /\ st_loop st = Dispatch.Waiting /\ st_queue st = [] /\ Forall2 (noticed its r) pre tss.
Proof. exact crowd_noticed. Qed.
Print Assumptions C125_events.

(** When all of the events have arrived, what a callback was told last about a
    point is the state of the point; if it was never told anything, the point is in
    the state it was in at first. *)
Theorem C125_mirror : forall gw high low ns es ord ls h h' inn out evs css v r acts, gateway_ok gw -> house_ok h -> plain h -> distinct h ->
  crowd gw high low (fun j => linit (ns j)) h (fun _ => []) (fun _ => []) es ord ls h' inn out evs ->
  (forall j, behaves_any high low ns es css j) -> v < 13 -> delivers acts evs ->
  let st := Dispatch.run v (enter v (Dispatch.connected r)) (acts ++ [Wake]) in
  forall p k args f, In p h' -> announces p k args -> (forall g, In g (r k) -> cb_takes g (S (length args)) = true) -> In f (r k) ->
  (exists i, nth_error (st_items st) i = Some (place p) /\ last_told (cb_id f) i (st_started st) = Some args) \/
  ((forall i, nth_error (st_items st) i = Some (place p) -> never_told i (st_started st)) /\ exists p0, In p0 h /\ place p0 = place p /\ p_state p0 = p_state p).
Proof. exact crowd_mirror. Qed.
Print Assumptions C125_mirror.

(** At any earlier moment, what it was told last is the state that the point had
    after some of the calls. *)
Theorem C125_past : forall gw high low ns es ord ls h h' inn out evs css v r acts pre post, gateway_ok gw -> house_ok h -> plain h -> distinct h ->
  crowd gw high low (fun j => linit (ns j)) h (fun _ => []) (fun _ => []) es ord ls h' inn out evs ->
  (forall j, behaves_any high low ns es css j) -> v < 13 -> evs = pre ++ post -> delivers acts pre ->
  let st := Dispatch.run v (enter v (Dispatch.connected r)) (acts ++ [Wake]) in
  forall p, In p h -> exists cs1 cs2 log1 log2 e1 e2 h1 p1, story gw h cs1 log1 e1 h1 /\ story gw h1 cs2 log2 e2 h' /\ evs = e1 ++ e2 /\
    length (cs1 ++ cs2) = length ord /\ In p1 h1 /\ place p1 = place p /\
    forall k args f, announces p1 k args -> (forall g, In g (r k) -> cb_takes g (S (length args)) = true) -> In f (r k) ->
    (exists i, nth_error (st_items st) i = Some (place p) /\ last_told (cb_id f) i (st_started st) = Some args) \/
    ((forall i, nth_error (st_items st) i = Some (place p) -> never_told i (st_started st)) /\ p_state p1 = p_state p).
Proof. exact crowd_past. Qed.
Print Assumptions C125_past.

(** A command that any of the clients was told in time to be done is heard for
    every point it is aimed at. *)
Theorem C125_heard : forall gw high low ns es ord ls h h' inn out evs css v r acts, gateway_ok gw -> house_ok h -> plain h ->
  crowd gw high low (fun j => linit (ns j)) h (fun _ => []) (fun _ => []) es ord ls h' inn out evs ->
  (forall j, behaves_any high low ns es css j) -> v < 13 -> delivers acts evs ->
  forall j n ans c p w what a k args f, in_time (map snd (k_done (l_c (ls j)))) n ans ->
  nth_error (among went_out (outcomes (ls j)) (css j)) n = Some c -> stands_for c (Command w what a) ->
  In p h -> aimed gw w a p = true -> (forall st, SpecHouse.react gw w what st = what) ->
  announces {| p_who := w; p_where := p_where p; p_state := what; p_dims := p_dims p |} k args ->
  (forall g, In g (r k) -> cb_takes g (S (length args)) = true) -> In f (r k) ->
  exists i, let st := Dispatch.run v (enter v (Dispatch.connected r)) (acts ++ [Wake]) in
    nth_error (st_items st) i = Some (w, p_where p) /\ In (cb_id f, VItem i :: args) (st_started st).
Proof. exact crowd_heard. Qed.
Print Assumptions C125_heard.

(** The case of C123_order_refuted: one client switches the lamps on, which times
    out; another one switches them off and is told so, then the gateway gets to the
    first call.  The client that listens knows that they are on, and that the
    shutter is as it was. *)
Definition acts1 : list act := ([] ++ [Packet (concat [lit "*1*0*11##"; lit "*1*0*12##"; lit "*1*1*11##"])]) ++ [Packet (concat [lit "*1*1*12##"])].
Example C125_ex : exists ls h inn out evs,
  crowd gw0 64 16 (fun _ => linit 1) house0 (fun _ => []) (fun _ => []) (given_up ++ once_more) [1; 0]%nat ls h inn out evs /\
  (forall j, behaves_any 64 16 (fun _ => 1%nat) (given_up ++ once_more) again_calls j) /\ distinct house0 /\ delivers acts1 evs /\
  in_time (map snd (k_done (l_c (ls 1%nat)))) 0 (Ok tt) /\ among went_out (outcomes (ls 1%nat)) (again_calls 1) = [off_all] /\
  map p_state h = [lit "1"; lit "1"; lit "0"] /\
  let st := Dispatch.run 12 (enter 12 (Dispatch.connected reg0)) (acts1 ++ [Wake]) in
  st_items st = [(LIGHTING, lit "11"); (LIGHTING, lit "12")] /\
  st_started st = [(1, [VItem 0; VBool false]); (2, [VItem 0; VBool false]); (1, [VItem 1; VBool false]); (2, [VItem 1; VBool false]);
                   (1, [VItem 0; VBool true]); (2, [VItem 0; VBool true]); (1, [VItem 1; VBool true]); (2, [VItem 1; VBool true])] /\
  last_told 2 1 (st_started st) = Some [VBool true].
Proof.
  assert (O1 : stands_for on_call (Command LIGHTING (lit "1") (lit "0"))) by exact (F_light (h_item LIGHTING "0") (LBase turn_on) 1 eq_refl).
  assert (O2 : stands_for off_all (Command LIGHTING (lit "0") (lit "0"))) by exact (F_light (h_item LIGHTING "0") (LBase turn_off) 0 eq_refl).
  do 5 eexists. split.
  { unfold given_up, once_more. cbn [app]. cr_step. cr_step. cr_step. cr_step.
    eapply (Cr_obey gw0 64 16 _ _ _ _ 1%nat); [vm_compute; reflexivity|exists (Command LIGHTING (lit "0") (lit "0")); split; [order_tac|split; [reflexivity|obey_tac]]|].
    eapply (Cr_packet gw0 64 16 _ _ _ _ _ [frame_ack] []); [vm_compute; reflexivity|vm_compute; reflexivity|]. cr_step.
    eapply (Cr_obey gw0 64 16 _ _ _ _ 0%nat); [vm_compute; reflexivity|exists (Command LIGHTING (lit "1") (lit "0")); split; [order_tac|split; [reflexivity|obey_tac]]|].
    apply Cr_nil. }
  split.
  { intros [|[|j]].
    - split; [repeat apply Forall_cons; [|apply Forall_nil]; (split; [split; [discriminate|reflexivity]|]; split; [tag_ok|]; split; [reflexivity|]; eauto)|].
      split; [|split; [repeat constructor|repeat constructor; eexists; (split; [eassumption|]); (split; [apply W_command; reflexivity|reflexivity])]].
      intros pre i p m k post l E R.
      assert (X : pre = []).
      { cbn in E. do 3 (destruct pre as [|? pre]; [first [reflexivity | discriminate E]|cbn [app] in E; injection E as <- E]). destruct pre; discriminate E. }
      subst pre. vm_compute in R. injection R as <-. split; repeat constructor.
    - split; [repeat apply Forall_cons; [|apply Forall_nil]; (split; [split; [discriminate|reflexivity]|]; split; [tag_ok|]; split; [reflexivity|]; eauto)|].
      split; [|split; [repeat constructor|repeat constructor; eexists; (split; [eassumption|]); (split; [apply W_command; reflexivity|reflexivity])]].
      intros pre i p m k post l E R.
      assert (X : pre = []).
      { cbn in E. do 3 (destruct pre as [|? pre]; [first [reflexivity | discriminate E]|cbn [app] in E; injection E as <- E]). destruct pre; discriminate E. }
      subst pre. vm_compute in R. injection R as <-. split; repeat constructor.
    - split; [constructor|]. split; [intros [|? pre] i p m k post lx E R; discriminate E|]. split; constructor. }
  split. { unfold distinct, house0. cbn. repeat constructor; cbn; intuition discriminate. }
  split. { exact (Dl_packet _ _ [lit "*1*1*12##"] (Dl_packet _ _ [lit "*1*0*11##"; lit "*1*0*12##"; lit "*1*1*11##"] Dl_start)). }
  split; [split; [reflexivity|split; reflexivity]|]. repeat (split; [vm_compute; reflexivity|]). vm_compute. reflexivity.
Qed.
