(** * Property C139: several clients in front of any gateway *)
From Coq Require Import String List NArith ZArith Bool Lia.
From Verif Require Import PyStr PyDate PyFloat Tags Messages SpecMsg SpecTag SpecProto MessageThms3 ProtoThms Protocol Queue Sender SenderThms IO Client SpecItem Items Lighting SpecLight ItemThms LightThms2
  SpecGateway CalendarThms GatewayThms Energy SpecEnergy FloatThms
  Conc SpecConc SpecSerial SpecHouse HouseThms HouseThms2 PropHouse SpecTogether SerialThms2 TogetherThms PropTogether Line SpecLine LineThms LineThms2 LineThms3 PropLine SpecCrowd CrowdThms
  SpecMeter MeterThms MeterThms2 PropMeter SpecServer ServerThms ServerThms2 PropServer SpecThrong ThrongThms ThrongThms2.
Import ListNotations.
Open Scope N_scope.
Open Scope list_scope.

(** Any number of clients with a connection each, in front of anything that gives
    each call a whole answer; the calls of each client one after the other, those of
    different clients at any time.  There is one order of all calls dealt with,
    which keeps the order of every client, and the gateway has gone through exactly
    these calls made one after the other; every client has got the answers to its
    own calls, but for at most its last call. *)
Theorem C139_serial : forall State (replies : State -> list N -> State -> list (list N) -> Prop) good kind high low ns es ord ls s s' inn out,
  civil State replies good kind -> good s -> (forall j, orderly kind high low ns es j) ->
  throng State replies high low (fun j => linit (ns j)) s (fun _ => []) (fun _ => []) es ord ls s' inn out ->
  exists ks log, serially State replies s ks log s' /\ good s' /\ length ks = length ord /\ length log = length ord /\
    forall j, mine j ord ks = firstn (count j ord) (started (of_client j es)) /\ informed es j ord (ls j) (inn j) (out j) (map fst log) (map snd log).
Proof. intros State replies good kind high low ns es ord ls s s' inn out. exact (throng_serial replies good kind high low ns es ord ls s s' inn out). Qed.
Print Assumptions C139_serial.

(** That order respects time: a call that had ended when another one started
    comes before it, whoever made them. *)
Theorem C139_order : forall State (replies : State -> list N -> State -> list (list N) -> Prop) good kind high low ns es1 ord1 ls1 s s1 inn1 out1 es2 ord2 ls2 s2 inn2 out2,
  civil State replies good kind -> good s -> (forall j, orderly kind high low ns (es1 ++ es2) j) ->
  throng State replies high low (fun j => linit (ns j)) s (fun _ => []) (fun _ => []) es1 ord1 ls1 s1 inn1 out1 ->
  throng State replies high low ls1 s1 inn1 out1 es2 ord2 ls2 s2 inn2 out2 ->
  forall i j a b, (a < length (k_done (l_c (ls1 i))))%nat -> (length (started (of_client j es1)) <= b)%nat ->
  exists p, turn i a (ord1 ++ ord2) = Some p /\ forall q, turn j b (ord1 ++ ord2) = Some q -> (p < q)%nat.
Proof. intros State replies good kind high low ns es1 ord1 ls1 s s1 inn1 out1 es2 ord2 ls2 s2 inn2 out2. exact (throng_order replies good kind high low ns es1 ord1 ls1 s s1 inn1 out1 es2 ord2 ls2 s2 inn2 out2). Qed.
Print Assumptions C139_order.

(** One client keeps the rules; the others make calls that overlap, time out, are
    cancelled, and lose their connections.  The client that keeps the rules gets the
    answers to its own calls all the same. *)
Theorem C139_isolated : forall State (replies : State -> list N -> State -> list (list N) -> Prop) good kind high low ns es ord ls s s' inn out j,
  civil State replies good kind -> good s ->
  (forall i, Forall (fun k => kind (fst (snd k)) (snd (snd k))) (started (of_client i es))) ->
  locked high low (ns j) (of_client j es) -> undisturbed (of_client j es) ->
  throng State replies high low (fun j => linit (ns j)) s (fun _ => []) (fun _ => []) es ord ls s' inn out ->
  exists ks log, serially State replies s ks log s' /\ good s' /\ length ks = length ord /\ length log = length ord /\
    (forall i, Forall (fun k => In k (started (of_client i es))) (mine i ord ks)) /\
    mine j ord ks = firstn (count j ord) (started (of_client j es)) /\ informed es j ord (ls j) (inn j) (out j) (map fst log) (map snd log).
Proof. intros State replies good kind high low ns es ord ls s s' inn out j. exact (throng_isolated replies good kind high low ns es ord ls s s' inn out j). Qed.
Print Assumptions C139_isolated.

(** The house of C108, with its clock and its meters: the calls of all clients
    make one story of C108. *)
Theorem C139_meters : forall gw high low ns es ord ls h h' inn out evs css, ggateway_ok gw -> ghouse_ok h -> plain h ->
  crowd gw high low (fun j => linit (ns j)) h (fun _ => []) (fun _ => []) es ord ls h' inn out evs ->
  (forall j, gbehaves high low ns es css j) ->
  exists gs log heard, gstory gw h gs log evs h' /\ length gs = length ord /\ length log = length ord /\ length heard = length ord /\
    Forall2 (fun g x => galone g (fst x) (snd x)) gs (combine heard log) /\
    forall j, mine j ord gs = firstn (count j ord) (css j) /\ informed es j ord (ls j) (inn j) (out j) heard (map verdict heard).
Proof. exact meter_crowd. Qed.
Print Assumptions C139_meters.

(** The date that one client set is what another one reads: client [i] sets it
    after the moment 0 and the call has ended at the moment 1; client [j] asks for
    it after the moment 1 and the call ends.  When no other call that had not ended
    at the moment 0 sets a date, get_date returns that date on the messages that
    client [j] has read for this call. *)
Theorem C139_date : forall gw high low ns css es0 ord0 ls0 h h0 inn0 out0 evs0 es1 ord1 ls1 h1 inn1 out1 evs1 es2 ord2 ls2 h2 inn2 out2 evs2 i j a b it d it',
  ggateway_ok gw -> ghouse_ok h -> plain h ->
  crowd gw high low (fun j => linit (ns j)) h (fun _ => []) (fun _ => []) es0 ord0 ls0 h0 inn0 out0 evs0 ->
  crowd gw high low ls0 h0 inn0 out0 es1 ord1 ls1 h1 inn1 out1 evs1 ->
  crowd gw high low ls1 h1 inn1 out1 es2 ord2 ls2 h2 inn2 out2 evs2 ->
  (forall j, gbehaves high low ns (es0 ++ es1 ++ es2) css j) ->
  nth_error (css i) a = Some (GSetDate it d) -> (length (started (of_client i es0)) <= a < length (k_done (l_c (ls1 i))))%nat ->
  nth_error (css j) b = Some (GAsk it' QDate) -> (length (started (of_client j (es0 ++ es1))) <= b < length (k_done (l_c (ls2 j))))%nat ->
  existsb (aimed gw GATEWAY (it_where it')) h = true ->
  (forall p, In p h -> aimed gw GATEWAY (it_where it') p = true -> aimed gw GATEWAY (it_where it) p = true) ->
  (forall i' a' g, nth_error (css i') a' = Some g -> (length (k_done (l_c (ls0 i'))) <= a')%nat -> (i', a') <> (i, a) -> no_set_date g) ->
  exists heard ms trace, informed (es0 ++ es1 ++ es2) j (ord0 ++ ord1 ++ ord2) (ls2 j) (inn2 j) (out2 j) heard (map verdict heard) /\
    nth_error (mine j (ord0 ++ ord1 ++ ord2) heard) b = Some ms /\ gprogram (GAsk it' QDate) (map Some ms) = (trace, [], Ok (ADate d)).
Proof. exact crowd_date. Qed.
Print Assumptions C139_date.

(** ** Concrete cases *)

Ltac th_step := eapply Th_step; [discriminate|vm_compute; reflexivity|].
Ltac th_reply i := eapply (Th_reply _ _ 4 2 _ _ _ _ i); [vm_compute; reflexivity|split; reflexivity|].
Ltac th_packet fs rest := eapply (Th_packet _ _ 4 2 _ _ _ _ _ fs rest); [vm_compute; reflexivity|vm_compute; reflexivity|].
Ltac lock_alone := intros pre i p m k post l E R; cbn in E; destruct pre as [|e0 pre]; [cbn in R; injection R as <-; split; repeat constructor|];
  exfalso; cbn [app] in E; injection E as _ E; repeat (destruct pre as [|? pre]; [discriminate E|cbn [app] in E; injection E as _ E]); destruct pre; discriminate E.

(** Two clients in front of the gateway that refuses every second command: the
    one that is served second is refused. *)
Definition queue : list (nat * levent) :=
  [(0%nat, LCall 0 PCommand on_msg 3); (1%nat, LCall 0 PCommand on_msg 30); (0%nat, LDrain 2); (0%nat, LPacket (lit "*#*0##")); (1%nat, LPacket (lit "*#*1##")); (0%nat, LRun 0); (1%nat, LRun 0)].
Example C139_ex_serial : exists ls s' inn out, throng bool moody 4 2 (fun _ => linit 1) false (fun _ => []) (fun _ => []) queue [1; 0]%nat ls s' inn out /\
  (forall j, orderly (fun p _ => p = PCommand) 4 2 (fun _ => 1%nat) queue j) /\
  k_done (l_c (ls 0%nat)) = [(0%nat, Err ResponseError)] /\ k_done (l_c (ls 1%nat)) = [(0%nat, Ok tt)].
Proof.
  do 4 eexists. split.
  { unfold queue. th_step. th_step. th_step. th_reply 1%nat. th_reply 0%nat. th_packet [frame_nack] (@nil (list N)). th_packet [frame_ack] (@nil (list N)). th_step. th_step. apply Th_nil. }
  split; [|split; vm_compute; reflexivity].
  intros [|[|j]]; (split; [repeat constructor|]; split; [|repeat constructor]).
  - lock_alone.
  - lock_alone.
  - intros [|? pre] i p m k post lx E R; discriminate E.
Qed.

(** One client lets two calls of its own overlap, one of which times out; its
    connection is lost.  The other client does not notice. *)
Definition rude : list (nat * levent) :=
  [(0%nat, LCall 0 PCommand on_msg 30); (0%nat, LCall 1 PCommand on_msg 30); (1%nat, LCall 0 PCommand on_msg 30); (0%nat, LTimeout 0); (0%nat, LPacket (lit "*#*1##")); (0%nat, LRun 1);
   (0%nat, LLost); (1%nat, LPacket (lit "*#*0##")); (1%nat, LRun 0)].
Example C139_ex_isolated : exists ls s' inn out, throng bool moody 4 2 (fun _ => linit 2) false (fun _ => []) (fun _ => []) rude [0; 1; 0]%nat ls s' inn out /\
  (forall i, Forall (fun k => fst (snd k) = PCommand) (started (of_client i rude))) /\ locked 4 2 2 (of_client 1 rude) /\ undisturbed (of_client 1 rude) /\
  ~ locked 4 2 2 (of_client 0 rude) /\ k_done (l_c (ls 1%nat)) = [(0%nat, Err ResponseError)].
Proof.
  do 4 eexists. split.
  { unfold rude. th_step. th_step. th_step. th_reply 0%nat. th_reply 1%nat. th_step. th_packet [frame_ack] (@nil (list N)). th_step. th_step. th_packet [frame_nack] (@nil (list N)). th_step. th_reply 0%nat. apply Th_nil. }
  split; [intros [|[|i]]; repeat constructor|]. split; [lock_alone|]. split; [repeat constructor|]. split; [|vm_compute; reflexivity].
  intros H. specialize (H (firstn 1 (of_client 0 rude)) 1%nat PCommand on_msg 30%nat (skipn 2 (of_client 0 rude)) _ eq_refl eq_refl). destruct H as (_ & H). vm_compute in H. inversion H; subst. discriminate.
Qed.

(** One client asks the meter for the power and then for the date, which another
    one has set in the meantime. *)
Definition day1 : list (nat * levent) :=
  [(1%nat, LCall 0 (PRequest is_dimres) (MDimReq ENERGY_MANAGEMENT (lit "51") (lit "113")) 3); (0%nat, LCall 0 PCommand (MDimWri GATEWAY [] (lit "1") [lit "01"; lit "16"; lit "11"; lit "2026"]) 30);
   (1%nat, LDrain 10); (0%nat, LPacket (lit "*#*1##")); (0%nat, LRun 0); (1%nat, LPacket (lit "*#18*51*113*2500##*#*1##")); (1%nat, LRun 0)].
Definition day2 : list (nat * levent) :=
  [(1%nat, LCall 0 (PRequest is_dimres) (MDimReq GATEWAY [] (lit "1")) 30); (1%nat, LPacket (lit "*#13**1*01*16*11*2026##*#*1##")); (1%nat, LRun 0)].
Definition day_calls (j : nat) : list gcall := match j with 0%nat => [GSetDate g_item (2026, 11, 16)%Z] | 1%nat => [GAsk m_item QPower; GAsk g_item QDate] | _ => [] end.

Ltac cx_step := eapply Cr_step; [discriminate|vm_compute; reflexivity|].
Ltac cx_packet fs rest := eapply (Cr_packet gw0 4 2 _ _ _ _ _ fs rest); [vm_compute; reflexivity|vm_compute; reflexivity|].
Ltac cx_obey i o := eapply (Cr_obey gw0 4 2 _ _ _ _ i); [vm_compute; reflexivity|exists o; split; [order_tac|split; [reflexivity|obey_tac]]|].
Example C139_ex_date : exists ls1 h1 inn1 out1 evs1 ls2 h2 inn2 out2 evs2,
  crowd gw0 4 2 (fun _ => linit 1) house1 (fun _ => []) (fun _ => []) [] [] (fun _ => linit 1) house1 (fun _ => []) (fun _ => []) [] /\
  crowd gw0 4 2 (fun _ => linit 1) house1 (fun _ => []) (fun _ => []) day1 [0; 1]%nat ls1 h1 inn1 out1 evs1 /\
  crowd gw0 4 2 ls1 h1 inn1 out1 day2 [1]%nat ls2 h2 inn2 out2 evs2 /\
  (forall j, gbehaves 4 2 (fun _ => 1%nat) ([] ++ day1 ++ day2) day_calls j) /\
  length (k_done (l_c (ls1 0%nat))) = 1%nat /\ length (k_done (l_c (ls2 1%nat))) = 2%nat /\ existsb (aimed gw0 GATEWAY (it_where g_item)) house1 = true /\
  (forall i' a' g, nth_error (day_calls i') a' = Some g -> (length (k_done (l_c (linit 1))) <= a')%nat -> (i', a') <> (0, 0)%nat -> no_set_date g).
Proof.
  do 10 eexists. split; [apply Cr_nil|]. split.
  { unfold day1. cx_step. cx_step. cx_step. cx_obey 0%nat (Writing GATEWAY [] (lit "1") [lit "01"; lit "16"; lit "11"; lit "2026"]). cx_obey 1%nat (Dimension ENERGY_MANAGEMENT (lit "51") (lit "113")).
    cx_packet [frame_ack] (@nil (list N)). cx_step. cx_packet [lit "*#18*51*113*2500##"; frame_ack] (@nil (list N)). cx_step. apply Cr_nil. }
  split.
  { unfold day2. cx_step. cx_obey 1%nat (Dimension GATEWAY [] (lit "1")). cx_packet [lit "*#13**1*01*16*11*2026##"; frame_ack] (@nil (list N)). cx_step. apply Cr_nil. }
  split.
  { assert (Kd : forall m, is_dimres m = true <-> dimres m) by (intros m; split; [destruct m; try discriminate; intros _; repeat eexists|intros (w & a & b & c & ->); reflexivity]).
    pose proof made1_ok as Ok1. unfold made1 in Ok1. cbn [app] in Ok1. inversion Ok1 as [|? ? O1 Ok2]; subst. inversion Ok2 as [|? ? O2 Ok3]; subst. inversion Ok3 as [|? ? O3 _]; subst.
    intros [|[|j]].
    - split; [constructor; [exact O2|constructor]|]. split; [lock_alone|]. split; [repeat constructor|]. apply Forall2_cons; [|apply Forall2_nil].
      exists (Writing GATEWAY [] (lit "1") [lit "01"; lit "16"; lit "11"; lit "2026"]). split; [|split; [apply GW_date|reflexivity]].
      assert (C : calendar_date (2026, 11, 16)%Z) by (split; [lia|]; exists 30%Z; split; [apply Thirty; cbn; tauto|lia]).
      apply (G_date g_item 2026 11 16 1); [exact C| | | | |].
      + apply weekday_true; [exact C|]. vm_compute. reflexivity.
      + apply fixed_ex; try reflexivity; discriminate.
      + apply fixed_ex; try reflexivity; discriminate.
      + apply fixed_ex; try reflexivity; discriminate.
      + apply TagThms.numeral_dec. vm_compute. reflexivity.
    - split; [constructor; [exact O1|constructor; [exact O3|constructor]]|]. split.
      + intros pre i p m k post l E R.
        assert (X : pre = [] \/ pre = firstn 4 (of_client 1 (day1 ++ day2))).
        { cbn in E. do 7 (destruct pre as [|? pre]; [first [left; reflexivity | right; reflexivity | discriminate E]|cbn [app] in E; injection E as <- E]). destruct pre; discriminate E. }
        destruct X as [-> | ->]; vm_compute in R; injection R as <-; split; repeat constructor.
      + split; [repeat constructor|]. apply Forall2_cons; [|apply Forall2_cons; [|apply Forall2_nil]]; (eexists; split; [apply G_ask|]; split; [apply GW_ask, Kd|reflexivity]).
    - split; [constructor|]. split; [intros [|? pre] i p m k post lx E R; discriminate E|]. split; constructor. }
  split; [vm_compute; reflexivity|]. split; [vm_compute; reflexivity|]. split; [vm_compute; reflexivity|].
  intros [|[|i']] [|[|[|a']]] g E _ N; try discriminate E; try congruence; injection E as <-; intros it d Ed; discriminate Ed.
Qed.
