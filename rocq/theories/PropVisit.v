(** * Property C107: a whole visit, from start() to close() *)
From Coq Require Import String List NArith ZArith Bool Lia.
From Verif Require Import PyStr Tags Messages MessageThms SpecMsg SpecTag MessageThms3 TagThms SpecOpen AuthHmac IO Client SpecClient HmacThms HandshakeThms HandshakeThms2 SpecItem Items Lighting SpecLight ItemThms
  SpecHouse HouseThms HouseThms2 PropHouse PropClient SpecVisit VisitThms.
Import ListNotations.
Open Scope N_scope.
Open Scope list_scope.

Local Notation start := (@Client.start Empty_set).

(** start() with a gateway that has no password, or the OPEN one: it ends, with
    success exactly if the password opens the lock; nothing is left unread,
    nothing is done to the house. *)
Theorem C107_login : forall C c l gw pw rnd s c' es s1 r h st h1 out1 evs, sane C -> lock_ok l ->
  start C c pw rnd true s = (c', (es, s1, r)) -> visit l gw Waiting h [SpecHouse.frame_ack] es st h1 out1 evs ->
  (r = Err TimeoutError -> out1 = []) ->
  c' = {| cl_session := cl_session c; cl_proto := true |} /\ h1 = h /\ out1 = [] /\ evs = [] /\
  ((r = Ok tt /\ opens l pw /\ st = Inside) \/
   (r = Err InvalidAuthentication /\ ~ opens l pw /\ st = Refused) \/
   (r = Err ValueError /\ py_int pw = Err ValueError /\ st = Challenged /\ exists q nonce, l = OpenLock q nonce)).
Proof. exact login_visit. Qed.
Print Assumptions C107_login.

(** Login and all calls of a program.  With the right password every call does
    what it stands for (C104); otherwise nothing ever happens to the house: after
    a refusal every call times out, and after a password that is no number the
    first call is refused (its frame is taken for the answer to the challenge)
    and the others time out.  No call says that there is no session. *)
Theorem C107_visit : forall C t l gw pw rnd s c es s1 r h st h1 out1 evs1 cs log evs st' h' out',
  sane C -> lock_ok l -> gateway_ok gw -> house_ok h -> t <> Event ->
  start C (new_client t) pw rnd true s = (c, (es, s1, r)) -> visit l gw Waiting h [SpecHouse.frame_ack] es st h1 out1 evs1 ->
  (r = Err TimeoutError -> out1 = []) -> Forall (call_via c) cs ->
  tour l gw st h1 out1 cs s1 log evs st' h' out' ->
  evs1 = [] /\ out' = [] /\
  ((r = Ok tt /\ opens l pw /\ story gw h cs log evs h') \/
   (r = Err InvalidAuthentication /\ ~ opens l pw /\ h' = h /\ evs = [] /\ log = map (fun _ => ([], Err TimeoutError)) cs) \/
   (r = Err ValueError /\ l <> NoLock /\ py_int pw = Err ValueError /\ h' = h /\ evs = [] /\
    log = match cs with [] => [] | _ :: cs' => ([], Err ResponseError) :: map (fun _ => ([], Err TimeoutError)) cs' end)).
Proof. exact whole_visit. Qed.
Print Assumptions C107_visit.

(** Such a visit is possible with every lock, password, house and list of calls. *)
Theorem C107_possible : forall C t l gw pw rnd h cs, sane C -> lock_ok l -> gateway_ok gw -> house_ok h -> t <> Event ->
  Forall (call_via {| cl_session := t; cl_proto := true |}) cs ->
  exists s es s1 r st log evs st' h', start C (new_client t) pw rnd true s = ({| cl_session := t; cl_proto := true |}, (es, s1, r)) /\ r <> Err TimeoutError /\
    visit l gw Waiting h [SpecHouse.frame_ack] es st h [] [] /\ tour l gw st h [] cs s1 log evs st' h' [].
Proof. exact visit_exists. Qed.
Print Assumptions C107_possible.

(** Before start(), after close() and on an event client every call raises
    InvalidSession and nothing is written or read. *)
Theorem C107_outside : forall C t k s, 
  (call_via (new_client t) k -> program k s = ([], s, Err InvalidSession)) /\
  (forall pw rnd ok s0 c es s1 r, start C (new_client t) pw rnd ok s0 = (c, (es, s1, r)) -> call_via (close c) k ->
     program k s = ([], s, Err InvalidSession)) /\
  (forall pw rnd ok s0 c es s1 r, start C (new_client Event) pw rnd ok s0 = (c, (es, s1, r)) -> call_via c k ->
     program k s = ([], s, Err InvalidSession)).
Proof.
  intros C t k s. split; [|split].
  - apply call_no_session. right. reflexivity.
  - intros pw rnd ok s0 c es s1 r _. apply call_no_session. right. reflexivity.
  - intros pw rnd ok s0 c es s1 r E. apply call_no_session. left. destruct ok; cbn in E; injection E as <- _; reflexivity.
Qed.
Print Assumptions C107_outside.

(** ** The quick-start program: password 12345, nonce 603356072 *)

Definition lock0 : lock := OpenLock 12345 (lit "603356072").
Definition door0 : script := map Some [MAck; MGeneric [lit "#603356072"]; MAck].

Example C107_ex : lock_ok lock0 /\ opens lock0 (lit "12345") /\ ~ opens lock0 (lit "12346") /\
  Forall (call_via {| cl_session := Client.Command; cl_proto := true |}) calls0 /\
  exists es log evs h',
    start toy (new_client Client.Command) (lit "12345") [1; 2] true (door0 ++ map Some heard0) =
      ({| cl_session := Client.Command; cl_proto := true |}, (es, map Some heard0, Ok tt)) /\
    visit lock0 gw0 Waiting house0 [SpecHouse.frame_ack] es Inside house0 [] [] /\
    tour lock0 gw0 Inside house0 [] calls0 (map Some heard0) log evs Inside h' [] /\
    nth_error log 1 = Some ([(lit "11", SLamp true); (lit "12", SLamp true)], Ok tt).
Proof.
  split; [split; [apply digits_all; reflexivity|discriminate]|]. split; [exists 12345%Z; split; reflexivity|].
  split; [intros (p & E & M); vm_compute in E; injection E as <-; discriminate M|].
  split.
  { apply Forall_forall. intros k I. destruct (proj1 (Forall_forall _ _) C104_ex_calls k I) as (_ & W). split; [|exact W].
    cbn in I. repeat (destruct I as [<-|I]; [reflexivity|]). contradiction. }
  destruct C104_ex as (log & evs & h' & S & E & _). eexists. exists log, evs, h'.
  split; [vm_compute; reflexivity|]. split; [|split; [apply inside_tour, S|rewrite E; reflexivity]].
  eapply Vs_got; [reflexivity|]. eapply Vs_door; [apply Dr_challenge; cbn; auto|]. cbn [app]. eapply Vs_got; [reflexivity|].
  eapply Vs_door; [apply Dr_right; exists (lit "25280520"); split; [apply numeral_dec; vm_compute; reflexivity|reflexivity]|]. cbn [app].
  eapply Vs_got; [reflexivity|]. apply Vs_nil.
Qed.

(** A refused password; the lamp is not switched on. *)
Example C107_ex_refused : exists es es2,
  start toy (new_client Client.Command) (lit "12346") [1; 2] true (map Some [MAck; MGeneric [lit "#603356072"]; MNack]) =
    ({| cl_session := Client.Command; cl_proto := true |}, (es, [], Err InvalidAuthentication)) /\
  program (CLight (h_item LIGHTING "11") (LBase turn_on)) [] = (es2, [], Err TimeoutError) /\ es2 = [Sent (lit "*1*1*11##")] /\
  visit lock0 gw0 Refused house0 [] es2 Refused house0 [] [].
Proof.
  eexists. eexists. split; [vm_compute; reflexivity|]. split; [vm_compute; reflexivity|]. split; [reflexivity|].
  eapply Vs_door; [apply Dr_deaf|]. apply Vs_nil.
Qed.
