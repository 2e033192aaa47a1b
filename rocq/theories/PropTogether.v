(** * Property C118: tasks that share one client, in front of a house *)
From Coq Require Import String List NArith ZArith Bool Lia.
From Verif Require Import PyStr Tags Messages SpecMsg SpecTag SpecProto MessageThms3 Protocol Queue IO Client SpecItem Items Lighting SpecLight ItemThms LightThms2
  Conc SpecConc SpecSerial SpecHouse HouseThms HouseThms2 PropHouse SpecTogether SerialThms2 TogetherThms.
Import ListNotations.
Open Scope N_scope.
Open Scope list_scope.

(** Any number of tasks that make one call at a time between them (a lock), in
    whatever order, the answers in whatever packets: the house goes through the
    calls in the order in which they start, and every call that ended did so as in
    that story: same result, and the messages its task read are those on which the
    call, made alone, yields what the story says.  At most one call is in
    progress; once everything has arrived and nothing is scheduled all calls have
    ended and nothing is left unread. *)
Theorem C118_story : forall gw n es s h h' out evs cs, gateway_ok gw -> house_ok h -> plain h -> Forall call_ok cs ->
  crun (cinit n) es = Some s -> serial n es -> exchange gw h [] es h' out evs -> made (all_calls es) cs ->
  exists log heard, story gw h cs log evs h' /\ length log = length cs /\ length heard = length cs /\
    Forall2 (fun c x => alone c (fst x) (snd x)) cs (combine heard log) /\
    (exists k pend read, k_done s = firstn k (combine (map fst (all_calls es)) (map snd log)) /\ (length cs <= k + 1)%nat /\
       q_out (k_q s) = concat (map tagged_with (firstn k (combine (map fst (all_calls es)) heard))) ++ map (pair pend) read) /\
    (out = [] -> (forall j, cstep s (KRun j) = None) ->
       k_done s = combine (map fst (all_calls es)) (map snd log) /\
       q_out (k_q s) = concat (map tagged_with (combine (map fst (all_calls es)) heard)) /\ c_queue (q_conn (k_q s)) = []).
Proof. exact together. Qed.
Print Assumptions C118_story.

(** What one task set is what another task reads afterwards. *)
Theorem C118_seen : forall gw n es s h h' evs before c between ask p o oa v, gateway_ok gw -> house_ok h -> plain h ->
  Forall call_ok (before ++ c :: between ++ [ask]) ->
  crun (cinit n) es = Some s -> serial n es -> exchange gw h [] es h' [] evs -> (forall j, cstep s (KRun j) = None) ->
  made (all_calls es) (before ++ c :: between ++ [ask]) -> In p h ->
  stands_for c o -> stands_for ask oa -> at_whom gw o p = true -> at_whom gw oa p = true ->
  Forall (fun c' => forall o', stands_for c' o' -> at_whom gw o' p = true -> sets o' = false) between -> tells gw c ask v ->
  exists i tasks rs before_ms ms obs, map fst (all_calls es) = tasks ++ [i] /\ k_done s = rs ++ [(i, Ok tt)] /\
    q_out (k_q s) = before_ms ++ map (pair i) ms /\ alone ask ms (obs, Ok tt) /\ In (p_where p, v) obs.
Proof.
  intros gw n es s h h' evs before c between ask p o oa v G Hh P F R Se X Hj M Ip Ho Hoa Ap Aa Fb T.
  destruct (together gw n es s h h' [] evs _ G Hh P F R Se X M) as (log & heard & St & Ll & Lh & Al & _ & Fin).
  destruct (Fin eq_refl Hj) as (Kd & Ko & _).
  destruct (read_back gw h before c between ask log evs h' p o oa v St Ip Ho Hoa Ap Aa Fb T) as (obs & La & Io & _).
  assert (Lm : length (map fst (all_calls es)) = length (before ++ c :: between ++ [ask])) by (rewrite map_length; exact (SerialThms.forall2_length _ _ _ M)).
  assert (E : before ++ c :: between ++ [ask] = (before ++ c :: between) ++ [ask]) by (rewrite <- app_assoc; reflexivity).
  rewrite E in *. rewrite app_length in Lm, Ll, Lh. cbn [length] in Lm, Ll, Lh.
  assert (S1 : forall A (l : list A) k, length l = (k + 1)%nat -> exists l0 x, l = l0 ++ [x] /\ length l0 = k).
  { intros A l k Hl. destruct (@exists_last A l) as (l0 & x & ->); [intros ->; cbn in Hl; lia|]. exists l0, x. split; [reflexivity|]. rewrite app_length in Hl. cbn in Hl. lia. }
  destruct (S1 _ _ _ Lm) as (tasks & i & Et & Lt). destruct (S1 _ _ _ Ll) as (log0 & x & El & Ll0). destruct (S1 _ _ _ Lh) as (heard0 & ms & Eh & Lh0). subst log heard.
  rewrite last_last in La. subst x. rewrite Et in *. rewrite map_app in Kd. cbn [map snd] in Kd.
  rewrite SerialThms.combine_snoc in Kd by (rewrite map_length; congruence). rewrite SerialThms.combine_snoc in Ko by congruence.
  rewrite SerialThms.combine_snoc in Al by congruence. rewrite map_app, concat_app in Ko. cbn [map concat] in Ko. rewrite app_nil_r in Ko.
  exists i, tasks, (combine tasks (map snd log0)), (concat (map tagged_with (combine tasks heard0))), ms, obs.
  split; [reflexivity|]. split; [exact Kd|]. split; [exact Ko|]. split; [|exact Io].
  apply Forall2_app_inv_l in Al as (a1 & a2 & F1 & F2 & Ea). inversion F2 as [|? y ? ? Hy F3]; subst. inversion F3; subst.
  apply app_inj_tail in Ea as (_ & <-). exact Hy.
Qed.
Print Assumptions C118_seen.

(** ** A concrete case: one task switches all lamps on, another asks them *)

Lemma plain0 : plain house0.
Proof.
  repeat apply Forall_cons; [| | |apply Forall_nil]; intros d vs E; cbn [p_dims lamp11 lamp12 blind11 no_dims] in E; try discriminate.
  destruct (str_eqb d (lit "14")); [|discriminate]. injection E as <-. constructor; [|constructor]. exact (dec_plain 300).
Qed.
Lemma is_normal_spec m : is_normal m = true <-> normal m.
Proof. split; [destruct m; try discriminate; intros _; repeat eexists|intros (w & a & b & ->); reflexivity]. Qed.

Definition on_call : call := CLight (h_item LIGHTING "0") (LBase turn_on).
Definition ask_call : call := CAskLight (h_item LIGHTING "0").
Lemma calls_ok : Forall call_ok [on_call; ask_call].
Proof.
  repeat apply Forall_cons; [| |apply Forall_nil]; (split; [split; [discriminate|reflexivity]|]; split; [tag_ok|]; split; [reflexivity|]; eexists).
  - apply (F_light _ _ 1). reflexivity.
  - apply F_ask_light.
Qed.
Definition shared : list kevent :=
  [KCall 0 PCommand (frame_cmd LIGHTING (lit "1") (lit "0")); KPacket (lit "*#*1##"); KRun 0;
   KCall 1 (PRequest is_normal) (frame_status LIGHTING (lit "0")); KPacket (lit "*1*1*11##"); KRun 1; KPacket (lit "*1*1*12##*#*1##"); KRun 1].

Ltac call_x o := eapply X_call; [exists o; split; [order_tac|split; [reflexivity|obey_tac]]|]; cbn [app].

Example C118_ex : exists s h' evs, crun (cinit 2) shared = Some s /\ serial 2 shared /\ exchange gw0 house0 [] shared h' [] evs /\
  made (all_calls shared) [on_call; ask_call] /\ (forall j, cstep s (KRun j) = None) /\
  k_done s = [(0%nat, Ok tt); (1%nat, Ok tt)] /\ map p_state h' = [lit "1"; lit "1"; lit "0"] /\
  alone ask_call [MNormal LIGHTING (lit "1") (lit "11"); MNormal LIGHTING (lit "1") (lit "12"); MAck] ([(lit "11", SLamp true); (lit "12", SLamp true)], Ok tt).
Proof.
  do 3 eexists. split; [vm_compute; reflexivity|]. split.
  { intros pre i p b post s E R. unfold shared in E.
    assert (X : pre = [] \/ pre = firstn 3 shared).
    { do 8 (destruct pre as [|? pre]; [first [left; reflexivity | right; reflexivity | discriminate E]|cbn [app] in E; injection E as <- E]). destruct pre; discriminate E. }
    destruct X as [-> | ->]; vm_compute in R; injection R as <-; repeat constructor. }
  split.
  { unfold shared. call_x (Command LIGHTING (lit "1") (lit "0")).
    apply (X_packet gw0 _ [frame_ack]). apply X_run. call_x (Status LIGHTING (lit "0")).
    apply (X_packet gw0 _ [lit "*1*1*11##"]). apply X_run. apply (X_packet gw0 _ [lit "*1*1*12##"; frame_ack] []). apply X_run. apply X_nil. }
  split.
  { repeat constructor.
    - eexists. split; [apply (F_light _ _ 1); reflexivity|]. split; [apply W_command; reflexivity|reflexivity].
    - eexists. split; [apply F_ask_light|]. split; [|reflexivity]. apply W_status; [reflexivity|discriminate|apply is_normal_spec]. }
  split; [intros [|[|[|j]]]; reflexivity|]. split; [vm_compute; reflexivity|]. split; [reflexivity|].
  eexists. split; vm_compute; reflexivity.
Qed.

(** ** Without the lock *)

(** Two calls that overlap: the house obeys the command of one task, which is
    nevertheless told that it failed, because it read a report meant for the
    other; and that one misses it. *)
Definition off_call : call := CLight (h_item LIGHTING "11") (LBase turn_off).
Definition mixed : list kevent :=
  [KCall 0 (PRequest is_normal) (frame_status LIGHTING (lit "0")); KCall 1 PCommand (frame_cmd LIGHTING (lit "0") (lit "11"));
   KPacket (lit "*1*0*11##"); KRun 0; KPacket (lit "*1*5*12##"); KRun 1; KPacket (lit "*#*1##"); KRun 0; KPacket (lit "*#*1##")].
(** What task [i] read. *)
Definition own_reads (i : nat) (s : cstate) : list msg := map snd (filter (fun x => Nat.eqb (fst x) i) (q_out (k_q s))).
Theorem C118_overlap_refuted : exists gw n es s h h' evs cs, gateway_ok gw /\ house_ok h /\ plain h /\ Forall call_ok cs /\
  crun (cinit n) es = Some s /\ exchange gw h [] es h' [] evs /\ made (all_calls es) cs /\ (forall j, cstep s (KRun j) = None) /\
  (forall log evs0 h0, story gw h cs log evs0 h0 -> map snd log = [Ok tt; Ok tt]) /\
  k_done s = [(1%nat, Err ResponseError); (0%nat, Ok tt)] /\ c_queue (q_conn (k_q s)) = [MAck] /\
  own_reads 0 s = [MNormal LIGHTING (lit "0") (lit "11"); MAck] /\ own_reads 1 s = [MNormal LIGHTING (lit "5") (lit "12")].
Proof.
  exists gw0, 2%nat, mixed. eexists. exists house0. do 2 eexists. exists [ask_call; off_call].
  assert (O1 : stands_for ask_call (Status LIGHTING (lit "0"))) by apply F_ask_light.
  assert (O2 : stands_for off_call (SpecHouse.Command LIGHTING (lit "0") (lit "11"))) by exact (F_light (h_item LIGHTING "11") (LBase turn_off) 0 eq_refl).
  split; [apply gw0_ok|]. split; [apply house0_ok|]. split; [apply plain0|]. split.
  { repeat apply Forall_cons; [| |apply Forall_nil]; (split; [split; [discriminate|reflexivity]|]; split; [tag_ok|]; split; [reflexivity|]; eauto). }
  split; [vm_compute; reflexivity|]. split.
  { unfold mixed. call_x (Status LIGHTING (lit "0")). call_x (Command LIGHTING (lit "0") (lit "11")).
    apply (X_packet gw0 _ [lit "*1*0*11##"]). apply X_run. apply (X_packet gw0 _ [lit "*1*5*12##"]). apply X_run.
    apply (X_packet gw0 _ [frame_ack]). apply X_run. apply (X_packet gw0 _ [frame_ack] []). apply X_nil. }
  split.
  { repeat constructor.
    - eexists. split; [exact O1|]. split; [|reflexivity]. apply W_status; [reflexivity|discriminate|apply is_normal_spec].
    - eexists. split; [exact O2|]. split; [apply W_command; reflexivity|reflexivity]. }
  split; [intros [|[|[|j]]]; reflexivity|]. split; [|vm_compute; auto].
  intros log evs0 h0 St. inversion St as [|? ? ? h1 obs r e1 log1 e2 ? D St1]; subst. inversion St1 as [|? ? ? h2 obs2 r2 e3 log2 e4 ? D2 St2]; subst. inversion St2; subst.
  assert (H1 : h1 = house0 /\ r = Ok tt).
  { inversion D as [o Ho X|o hx ans ex Ho Ac X O|o hx ans ex yss Ho Ac X O F]; subst; rewrite (stands_fun _ _ _ Ho O1) in *; [discriminate X|discriminate Ac|]. inversion O; subst; auto. }
  destruct H1 as (-> & ->).
  inversion D2 as [o Ho X|o hx ans ex Ho Ac X O|o hx ans ex yss Ho Ac X O F]; subst; rewrite (stands_fun _ _ _ Ho O2) in *; [discriminate X|reflexivity|discriminate Ac].
Qed.
Print Assumptions C118_overlap_refuted.
