(** * Properties C97 and C98: loop() called late, and again *)
From Coq Require Import String List NArith ZArith Bool Lia.
From Verif Require Import PyStr Tags Messages SpecMsg Protocol IO Client Items Dispatch SpecDispatch DispatchThms DispatchThms2 PropDispatch
  Loop SpecLoop LoopThms.
Import ListNotations.
Open Scope N_scope.
Open Scope list_scope.

(** ** C97 Events wait for loop(), before the first call and after a failure *)

(** In every history the callbacks called are those of the events that some loop
    got to, in order; a loop runs unless the last event it got to was stray. *)
Theorem C97_calls : forall v r xs up evs q, v < 13 -> story r xs up evs q ->
  exists its tss, st_started (lrun v (connected r) xs) = concat tss /\ st_items (lrun v (connected r) xs) = its /\
    Forall2 (handled its) evs tss /\ st_queue (lrun v (connected r) xs) = q /\
    (up = true <-> st_loop (lrun v (connected r) xs) = Waiting).
Proof.
  intros v r xs up evs q Hv O. destruct (story_run v r xs up evs q Hv O) as (_ & its & tss & l & E & M & _ & F).
  exists its, tss. rewrite E. cbn [lstate st_started st_items st_queue st_loop]. repeat (split; [auto; fail|]).
  destruct up; cbn in M; [split; auto|]. split; [discriminate|]. intros ->. intuition discriminate.
Qed.
Print Assumptions C97_calls.

(** What the loops got to, followed by what is unread, is what arrived. *)
Theorem C97_nothing_lost : forall r xs up evs q, story r xs up evs q -> arrived xs (map snd evs ++ q).
Proof. exact story_arrived. Qed.
Print Assumptions C97_nothing_lost.

(** After the call of loop(), or a turn of a running one, either nothing is
    unread or the last event was stray. *)
Theorem C97_catches_up : forall r xs up evs q x, story r xs up evs q -> turn up x ->
  exists up' evs' q', story r (xs ++ [x]) up' (evs ++ evs') q' /\
    (up' = true /\ q' = [] /\ map snd evs' = q \/
     up' = false /\ exists pre m, map snd evs' = pre ++ [m] /\ stray m /\ Forall (fun m => ~ stray m) pre /\ q = pre ++ m :: q').
Proof.
  assert (Id : forall (r : registry) l, map snd (map (fun m : msg => (r, m)) l) = l) by (intros r' l; rewrite map_map; cbn; apply map_id).
  intros r xs up evs q x O T. destruct (first_stray q) as [F|(pre & m & post & -> & F & St)].
  - do 3 eexists. split; [eapply S_all; eassumption|]. left. rewrite Id. auto.
  - do 3 eexists. split; [eapply S_stray; eassumption|]. right. split; [reflexivity|]. exists pre, m. rewrite Id. auto.
Qed.
Print Assumptions C97_catches_up.

(** Every history of the covered kind has a story. *)
Theorem C97_total : forall r xs up evs q x, story r xs up evs q -> calm x -> (x = Call -> up = false) ->
  exists up' evs' q', story r (xs ++ [x]) up' evs' q'.
Proof. exact story_next. Qed.
Print Assumptions C97_total.

(** The call itself refuses or returns at once exactly as documented. *)
Theorem C97_entry : forall v s,
  (st_session s <> Event \/ st_trans s = None -> enter v s = with_loop s (Failed InvalidSession)) /\
  (st_session s = Event -> st_trans s = Some true -> enter v s = with_loop s Returned).
Proof. exact entry. Qed.
Print Assumptions C97_entry.

(** A light event before loop() is called, with callbacks registered after it
    arrived; then a stray event and a light event; loop() fails, is called again,
    and the second light event is delivered. *)
Definition late : list lact :=
  [Do (Packet light_on); Do (Register (K_light STATUS_CHANGE) f1); Call; Do (Packet (stray_frame ++ lit "*1*0*13##")); Do Wake; Call].
Example C97_ex :
  st_started (lrun 12 (connected no_callbacks) late) = [(1, [VItem 0; VBool true]); (1, [VItem 1; VBool false])] /\
  st_loop (lrun 12 (connected no_callbacks) (firstn 5 late)) = Failed InvalidTag /\
  st_loop (lrun 12 (connected no_callbacks) late) = Waiting.
Proof. vm_compute. repeat split. Qed.
Example C97_ex_story : exists evs, story no_callbacks late true evs [] /\ length evs = 3%nat.
Proof.
  set (r1 := register no_callbacks (K_light STATUS_CHANGE) f1).
  set (on := MNormal LIGHTING (lit "1") (lit "12")). set (off := MNormal LIGHTING (lit "0") (lit "13")).
  set (bad := MDimRes ENERGY_MANAGEMENT (lit "0") (lit "113") [lit "5"]).
  assert (N1 : ~ stray on) by (intros [X _]; discriminate). assert (N2 : ~ stray off) by (intros [X _]; discriminate).
  assert (S1 : story no_callbacks (firstn 1 late) false [] [on]) by (apply (S_packet _ [] false [] [] _ [on]); [constructor|reflexivity]).
  assert (S2 : story no_callbacks (firstn 2 late) false [] [on]) by (apply (S_register _ (firstn 1 late)), S1).
  pose proof (S_all _ (firstn 2 late) false [] [on] Call S2 eq_refl ltac:(repeat constructor; exact N1)) as S3.
  pose proof (S_packet _ (firstn 3 late) true _ [] (stray_frame ++ lit "*1*0*13##") [bad; off] S3 eq_refl) as S4.
  pose proof (S_stray _ (firstn 4 late) true _ [] bad [off] (Do Wake) S4 eq_refl ltac:(constructor) stray_ex) as S5.
  pose proof (S_all _ (firstn 5 late) false _ [off] Call S5 eq_refl ltac:(repeat constructor; exact N2)) as S6.
  eexists. split; [exact S6|reflexivity].
Qed.

(** ** C98 What arrived before the connection ended is handled by a later loop() *)

(** If the connection is lost or closed while no loop runs, the unread messages
    reach no callback, whatever the application does. *)
Theorem C98_backlog_refuted : forall v r xs evs q a more, v < 13 -> story r xs false evs q -> In a [Lost; Close] ->
  st_queue (lrun v (connected r) (xs ++ [Do a])) = q /\
  st_started (lrun v (connected r) (xs ++ Do a :: more)) = st_started (lrun v (connected r) xs).
Proof. exact lost_backlog. Qed.
Print Assumptions C98_backlog_refuted.

Example C98_ex :
  st_started (lrun 12 (connected two) [Do (Packet light_on); Call]) <> [] /\
  st_started (lrun 12 (connected two) [Do (Packet light_on); Do Lost; Call]) = [] /\
  st_loop (lrun 12 (connected two) [Do (Packet light_on); Do Lost; Call]) = Returned /\
  exists m, story two [Do (Packet light_on)] false [] [m].
Proof.
  split; [vm_compute; discriminate|]. split; [vm_compute; reflexivity|]. split; [vm_compute; reflexivity|].
  exists (MNormal LIGHTING (lit "1") (lit "12")). apply (S_packet two [] false [] [] light_on [_]); [constructor|reflexivity].
Qed.
