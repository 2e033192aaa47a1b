(** * Property C122: calls that are not answered in time *)
From Coq Require Import String List NArith ZArith Bool Lia.
From Verif Require Import PyStr Tags Messages SpecMsg SpecTag SpecProto MessageThms3 Protocol Queue Sender SenderThms IO Client SpecItem Items Lighting SpecLight ItemThms LightThms2
  Conc SpecConc SpecSerial SpecHouse HouseThms HouseThms2 PropHouse SpecTogether SerialThms2 TogetherThms PropTogether Line SpecLine LineThms LineThms2 LineThms3 PropLine SpecLate LateThms.
Import ListNotations.
Open Scope N_scope.
Open Scope list_scope.

(** One call at a time, any of which may time out.  The gateway obeys the calls
    in the order in which they were made, whether their callers still wait or not:
    once it has dealt with everything, all calls were obeyed, each once.  The answers
    form one stream, from which the calls take in order: a call that times out
    leaves its answer, or the rest of it, to the calls after it. *)
Theorem C122_story : forall gw high low n es l h h' inn out evs cs, gateway_ok gw -> house_ok h -> plain h -> Forall call_ok cs ->
  locked high low n es -> calm es -> watched gw high low (linit n) h [] [] es l h' inn out evs -> made (started es) cs ->
  exists j log heard, story gw h (firstn j cs) log evs h' /\ (j <= length cs)%nat /\ length log = j /\ length heard = j /\
    Forall2 (fun c x => alone c (fst x) (snd x)) (firstn j cs) (combine heard log) /\
    dialogue (firstn j (started es)) (combine heard (map snd log)) /\
    (inn = [] -> Forall (eq SIdle) (s_tasks (l_s l)) -> j = length cs) /\
    exists k stream read later, (k <= length cs <= k + 1)%nat /\ (Forall (eq SIdle) (s_tasks (l_s l)) -> Forall (eq PIdle) (k_pc (l_c l)) -> k = length cs /\ read = []) /\
      map fst (k_done (l_c l)) = firstn k (map fst (started es)) /\
      takes (map (fun c => fst (snd c)) (firstn k (started es))) stream (map snd (k_done (l_c l))) /\
      map snd (q_out (k_q (l_c l))) = stream ++ read /\
      (forall c, nth_error (started es) k = Some c -> fst (snd c) = PCommand -> read = []) /\ (k = length cs -> read = []) /\
      concat heard = stream ++ read ++ c_queue (q_conn (k_q (l_c l))) ++ later /\ (out = [] -> later = []).
Proof. exact late_story. Qed.
Print Assumptions C122_story.

(** When the calls are commands, the verdicts are those of the house, in order,
    late by one call for every timeout before: what call [i] is told is what
    happened to the call made as many calls before it as had timed out. *)
Theorem C122_commands : forall gw high low n es l h h' inn out evs cs, gateway_ok gw -> house_ok h -> plain h -> Forall call_ok cs -> Forall (fun c => asks c = false) cs ->
  locked high low n es -> calm es -> watched gw high low (linit n) h [] [] es l h' inn out evs -> made (started es) cs ->
  exists j log, story gw h (firstn j cs) log evs h' /\ (j <= length cs)%nat /\ length log = j /\
    (inn = [] -> Forall (eq SIdle) (s_tasks (l_s l)) -> j = length cs) /\
    let rs := map snd (k_done (l_c l)) in
    map fst (k_done (l_c l)) = firstn (length rs) (map fst (started es)) /\ (length rs <= length cs <= length rs + 1)%nat /\
    (length (answered rs) + length (c_queue (q_conn (k_q (l_c l)))) <= j)%nat /\ (out = [] -> (length (answered rs) + length (c_queue (q_conn (k_q (l_c l)))) = j)%nat) /\
    answered rs = firstn (length (answered rs)) (map snd log) /\
    forall i r, nth_error rs i = Some r -> timed_out r = false ->
      (timeouts (firstn i rs) <= i)%nat /\ nth_error (map snd log) (i - timeouts (firstn i rs)) = Some r.
Proof. exact late_commands. Qed.
Print Assumptions C122_commands.

(** So a verdict cannot be relied upon after a timeout: a client switches the
    lamps on, is told that this timed out, switches on a lamp that does not exist
    and is told that this was done; it is the other way round, and the refusal is
    left for the next call. *)
Definition on13 : call := CLight (h_item LIGHTING "13") (LBase turn_on).
Definition late : list levent :=
  [LCall 0 PCommand on_msg 8; LTimeout 0; LRun 0; LCall 0 PCommand (MNormal LIGHTING (lit "1") (lit "13")) 9;
   LPacket (lit "*#*1##"); LRun 0; LPacket (lit "*#*0##")].
Theorem C122_verdict_refuted : exists gw high low n es l h h' evs cs, gateway_ok gw /\ house_ok h /\ plain h /\ Forall call_ok cs /\ Forall (fun c => asks c = false) cs /\
  locked high low n es /\ calm es /\ watched gw high low (linit n) h [] [] es l h' [] [] evs /\ made (started es) cs /\
  Forall (eq SIdle) (s_tasks (l_s l)) /\ (forall i, cstep (l_c l) (KRun i) = None) /\
  story gw h cs [([], Ok tt); ([], Err ResponseError)] evs h' /\ map snd (k_done (l_c l)) = [Err TimeoutError; Ok tt] /\
  c_queue (q_conn (k_q (l_c l))) = [MNack].
Proof.
  exists gw0, 64%nat, 16%nat, 1%nat, late. eexists. exists house0. do 2 eexists. exists [on_call; on13].
  assert (O1 : stands_for on_call (Command LIGHTING (lit "1") (lit "0"))) by exact (F_light (h_item LIGHTING "0") (LBase turn_on) 1 eq_refl).
  assert (O2 : stands_for on13 (Command LIGHTING (lit "1") (lit "13"))) by exact (F_light (h_item LIGHTING "13") (LBase turn_on) 1 eq_refl).
  split; [apply gw0_ok|]. split; [apply house0_ok|]. split; [apply plain0|]. split.
  { repeat apply Forall_cons; [| |apply Forall_nil]; (split; [split; [discriminate|reflexivity]|]; split; [tag_ok|]; split; [reflexivity|]; eauto). }
  split; [repeat constructor|]. split.
  { intros pre i p m k post l E R. unfold late in E.
    assert (X : pre = [] \/ pre = firstn 3 late).
    { do 7 (destruct pre as [|? pre]; [first [left; reflexivity | right; reflexivity | discriminate E]|cbn [app] in E; injection E as <- E]). destruct pre; discriminate E. }
    destruct X as [-> | ->]; vm_compute in R; injection R as <-; split; repeat constructor. }
  split; [repeat constructor|]. split.
  { unfold late. step_x. step_x. step_x. step_x. obey_x (Command LIGHTING (lit "1") (lit "0")).
    eapply (Wa_packet gw0 64 16 _ _ _ [frame_ack] []); [vm_compute; reflexivity|]. step_x.
    eapply Wa_obey; [exists (Command LIGHTING (lit "1") (lit "13")); split; [order_tac|split; [reflexivity|apply Ob_nobody; reflexivity]]|]; cbn [app].
    eapply (Wa_packet gw0 64 16 _ _ _ [frame_nack] []); [vm_compute; reflexivity|]. apply Wa_nil. }
  split.
  { repeat constructor; eexists; (split; [eassumption|]); (split; [apply W_command; reflexivity|reflexivity]). }
  split; [repeat constructor|]. split; [intros [|[|j]]; reflexivity|]. split; [|split; vm_compute; reflexivity].
  eapply Story_cons; [eapply Do_command; [exact O1|reflexivity|reflexivity|apply Ob_command; reflexivity]|].
  eapply Story_cons; [eapply Do_nobody; [exact O2|reflexivity]|]. apply Story_nil.
Qed.
Print Assumptions C122_verdict_refuted.
