(** * Property C134: any gateway at the end of the line; clock and meters *)
From Coq Require Import String List NArith ZArith Bool Lia.
From Verif Require Import PyStr PyDate PyFloat Tags Messages SpecMsg SpecTag SpecProto MessageThms3 ProtoThms Protocol Queue Sender SenderThms IO Client SpecItem Items Lighting SpecLight ItemThms LightThms2
  SpecGateway CalendarThms GatewayThms Energy SpecEnergy FloatThms
  Conc SpecConc SpecSerial SpecHouse HouseThms HouseThms2 PropHouse SpecTogether SerialThms2 TogetherThms PropTogether Line SpecLine LineThms LineThms2 LineThms3 PropLine
  SpecMeter MeterThms MeterThms2 PropMeter SpecServer ServerThms ServerThms2.
Import ListNotations.
Open Scope N_scope.
Open Scope list_scope.

(** The tasks' calls do not overlap (a lock), nothing is cut off.  Whatever
    stands at the other end and gives each call a whole answer: it has dealt with
    the first [j] calls exactly as if they had been made one after the other; the
    first [k] of them have ended, each with the answer to it; at most one call has
    not ended.  When nothing is left to do, all have ended and nothing is unread. *)
Theorem C134_line : forall State (replies : State -> list N -> State -> list (list N) -> Prop) good kind high low n es l s s' inn out,
  civil State replies good kind -> good s ->
  Forall (fun k => kind (fst (snd k)) (snd (snd k))) (started es) -> locked high low n es -> undisturbed es ->
  attended State replies high low (linit n) s [] [] es l s' inn out ->
  exists j log, serially State replies s (firstn j (started es)) log s' /\ good s' /\ length log = j /\
    (exists k pend read, (k <= j <= length (started es))%nat /\ (length (started es) <= k + 1)%nat /\
       k_done (l_c l) = firstn k (combine (map fst (started es)) (map snd log)) /\
       q_out (k_q (l_c l)) = concat (map heard_by (firstn k (combine (map fst (started es)) (map fst log)))) ++ map (pair pend) read /\
       (Forall (eq SIdle) (s_tasks (l_s l)) -> Forall (eq PIdle) (k_pc (l_c l)) -> k = length (started es) /\ inn = [])) /\
    (inn = [] -> out = [] -> Forall (eq SIdle) (s_tasks (l_s l)) -> (forall i, cstep (l_c l) (KRun i) = None) ->
       j = length (started es) /\ k_done (l_c l) = combine (map fst (started es)) (map snd log) /\
       q_out (k_q (l_c l)) = concat (map heard_by (combine (map fst (started es)) (map fst log))) /\ c_queue (q_conn (k_q (l_c l))) = []).
Proof. intros State replies good kind high low n es l s s' inn out. exact (any_line replies good kind high low n es l s s' inn out). Qed.
Print Assumptions C134_line.

(** The house of C108, with the calls of the gateway item and of energy items:
    the calls make the story of C108, whichever tasks make them. *)
Theorem C134_meters : forall gw high low n es l h h' inn out evs gs, ggateway_ok gw -> ghouse_ok h -> plain h -> Forall gcall_ok gs ->
  locked high low n es -> undisturbed es -> watched gw high low (linit n) h [] [] es l h' inn out evs -> gmade (started es) gs ->
  exists j log heard, gstory gw h (firstn j gs) log evs h' /\ length log = j /\ length heard = j /\
    Forall2 (fun g x => galone g (fst x) (snd x)) (firstn j gs) (combine heard log) /\
    (exists k pend read, (k <= j <= length gs)%nat /\ (length gs <= k + 1)%nat /\
       k_done (l_c l) = firstn k (combine (map fst (started es)) (map verdict heard)) /\
       q_out (k_q (l_c l)) = concat (map heard_by (firstn k (combine (map fst (started es)) heard))) ++ map (pair pend) read /\
       (Forall (eq SIdle) (s_tasks (l_s l)) -> Forall (eq PIdle) (k_pc (l_c l)) -> k = length gs /\ inn = [])) /\
    (inn = [] -> out = [] -> Forall (eq SIdle) (s_tasks (l_s l)) -> (forall i, cstep (l_c l) (KRun i) = None) ->
       j = length gs /\ k_done (l_c l) = combine (map fst (started es)) (map verdict heard) /\
       q_out (k_q (l_c l)) = concat (map heard_by (combine (map fst (started es)) heard)) /\ c_queue (q_conn (k_q (l_c l))) = []).
Proof. exact meter_line. Qed.
Print Assumptions C134_meters.

(** The date that one task sets is what any task reads afterwards: the last call
    reads the messages [ms], and on them get_date returns that date. *)
Theorem C134_date : forall gw high low n es l h h' evs before it d between it', ggateway_ok gw -> ghouse_ok h -> plain h ->
  Forall gcall_ok (before ++ GSetDate it d :: between ++ [GAsk it' QDate]) ->
  locked high low n es -> undisturbed es -> watched gw high low (linit n) h [] [] es l h' [] [] evs ->
  gmade (started es) (before ++ GSetDate it d :: between ++ [GAsk it' QDate]) ->
  Forall (eq SIdle) (s_tasks (l_s l)) -> (forall i, cstep (l_c l) (KRun i) = None) ->
  existsb (aimed gw GATEWAY (it_where it')) h = true ->
  (forall p, In p h -> aimed gw GATEWAY (it_where it') p = true -> aimed gw GATEWAY (it_where it) p = true) ->
  Forall no_set_date between ->
  exists earlier i ms trace, q_out (k_q (l_c l)) = earlier ++ map (pair i) ms /\ (exists ks p b, started es = ks ++ [(i, (p, b))]) /\
    gprogram (GAsk it' QDate) (map Some ms) = (trace, [], Ok (ADate d)).
Proof.
  intros gw high low n es l h h' evs before it d between it' G Hh P F Lk U Wt M Id Hq X C N.
  destruct (meter_line gw high low n es l h h' [] [] evs _ G Hh P F Lk U Wt M) as (j & log & heard & St & Ll & Lh & Al & _ & Fin).
  destruct (Fin eq_refl eq_refl Id Hq) as (-> & _ & Qo & _). clear Fin. rewrite firstn_all in *.
  pose proof (date_back gw h before it d between it' log evs h' St) as Db.
  assert (Hs : exists o, gstands (GSetDate it d) o) by (apply Forall_app in F as (_ & F); inversion F as [|? ? (_ & _ & _ & o & Ho) _]; subst; eauto).
  specialize (Db Hs X C N).
  assert (Lg : exists gs, before ++ GSetDate it d :: between ++ [GAsk it' QDate] = gs ++ [GAsk it' QDate]) by (exists (before ++ GSetDate it d :: between); rewrite <- app_assoc; reflexivity).
  destruct Lg as (gs & Eg). rewrite Eg in *. rewrite app_length in Ll, Lh. cbn [length] in Ll, Lh.
  destruct (exists_last (l := log)) as (log0 & x & ->); [intros ->; cbn in Ll; lia|].
  destruct (exists_last (l := heard)) as (hd0 & ms & ->); [intros ->; cbn in Lh; lia|].
  rewrite last_last in Db. subst x. rewrite app_length in Ll, Lh. cbn [length] in Ll, Lh.
  pose proof (SerialThms.forall2_length _ _ _ M) as Ls. rewrite app_length in Ls. cbn [length] in Ls.
  destruct (exists_last (l := started es)) as (ks & [i [p b]] & Es); [intros E; rewrite E in Ls; cbn in Ls; lia|].
  rewrite Es in *. rewrite app_length in Ls. cbn [length] in Ls.
  assert (Cb : forall A B (l1 : list A) (x : A) (l2 : list B) y, length l1 = length l2 -> combine (l1 ++ [x]) (l2 ++ [y]) = combine l1 l2 ++ [(x, y)]).
  { clear. intros A B l1. induction l1 as [|a l1 IH]; intros x [|c l2] y L; try discriminate; [reflexivity|]. cbn. f_equal. apply IH. cbn in L. lia. }
  rewrite Cb in Al by lia. apply Forall2_app_inv_l in Al as (c1 & c2 & _ & A2 & E). inversion A2 as [|? y ? c3 Ha A3]; subst. inversion A3; subst.
  apply app_inj_tail in E as (_ & <-). destruct Ha as (tr & Ha & _). cbn [fst snd] in Ha.
  rewrite map_app in Qo. cbn [map fst] in Qo. rewrite Cb in Qo by (rewrite map_length; lia).
  rewrite map_app, concat_app in Qo. cbn [map concat] in Qo. rewrite app_nil_r in Qo. unfold heard_by at 2 in Qo. cbn [fst snd] in Qo.
  do 3 eexists. exists tr. split; [exact Qo|]. split; [eauto|exact Ha].
Qed.
Print Assumptions C134_date.

(** ** Concrete cases *)

(** A gateway that refuses every second command. *)
Definition moody (s : bool) (b : list N) (s1 : bool) (ans : list (list N)) : Prop := s1 = negb s /\ ans = [if s then frame_nack else frame_ack].
Example C134_civil : civil bool moody (fun _ => True) (fun p _ => p = PCommand).
Proof.
  intros s p b s1 ans _ -> (-> & ->). split; [exact I|]. destruct s; [exists [MNack], (Err ResponseError)|exists [MAck], (Ok tt)];
    (split; [reflexivity|]; split; [constructor; [first [apply nack_streamable|apply ack_streamable]|constructor]|]); [apply W_other; discriminate|constructor].
Qed.
Definition twice : list levent :=
  [LCall 0 PCommand on_msg 3; LDrain 2; LDrain 3; LPacket (lit "*#*1##"); LRun 0; LCall 1 PCommand on_msg 8; LPacket (lit "*#*0##"); LRun 1].
Ltac at_step := eapply At_step; [discriminate|vm_compute; reflexivity|]; match goal with |- attended _ _ _ _ ?l _ _ _ _ _ _ _ _ => idtac end; cbn [app].
Example C134_ex_line : exists l s', attended bool moody 4 2 (linit 2) false [] [] twice l s' [] [] /\ locked 4 2 2 twice /\ undisturbed twice /\
  k_done (l_c l) = [(0%nat, Ok tt); (1%nat, Err ResponseError)].
Proof.
  do 2 eexists. split.
  { unfold twice. at_step. at_step. at_step. eapply At_reply; [split; reflexivity|]. cbn [app].
    eapply (At_packet _ _ 4 2 _ _ _ [frame_ack] []); [vm_compute; reflexivity|]. at_step. at_step. eapply At_reply; [split; reflexivity|]. cbn [app].
    eapply (At_packet _ _ 4 2 _ _ _ [frame_nack] []); [vm_compute; reflexivity|]. at_step. apply At_nil. }
  split; [|split; [repeat constructor|vm_compute; reflexivity]].
  intros pre i p m k post l E R. unfold twice in E.
  assert (X : pre = [] \/ pre = firstn 5 twice).
  { do 8 (destruct pre as [|? pre]; [first [left; reflexivity | right; reflexivity | discriminate E]|cbn [app] in E; injection E as <- E]). destruct pre; discriminate E. }
  destruct X as [-> | ->]; vm_compute in R; injection R as <-; split; repeat constructor.
Qed.

(** One task asks the meter for the power over a slow socket, another sets the
    date, the first one reads it. *)
Definition tasks1 : list levent :=
  [LCall 0 (PRequest is_dimres) (MDimReq ENERGY_MANAGEMENT (lit "51") (lit "113")) 3; LDrain 10; LPacket (lit "*#18*51*113*2500##"); LRun 0; LPacket (lit "*#*1##"); LRun 0;
   LCall 1 PCommand (MDimWri GATEWAY [] (lit "1") [lit "01"; lit "16"; lit "11"; lit "2026"]) 30; LPacket (lit "*#*1##"); LRun 1;
   LCall 0 (PRequest is_dimres) (MDimReq GATEWAY [] (lit "1")) 30; LPacket (lit "*#13**1*01*16*11*2026##*#*1##"); LRun 0].
Definition made1 : list gcall := [GAsk m_item QPower] ++ GSetDate g_item (2026, 11, 16)%Z :: [] ++ [GAsk g_item QDate].
Lemma plain1 : plain house1.
Proof.
  repeat apply Forall_cons; [| | |apply Forall_nil]; intros d vs E; cbn [p_dims lamp11 own meter51 no_dims] in E; try discriminate.
  - destruct (str_eqb d (lit "1")); [|destruct (str_eqb d (lit "10")); [|discriminate]]; injection E as <-;
      repeat (apply Forall_cons; [apply digits_plain, MessageThms.digits_all; reflexivity|]); apply Forall_nil.
  - destruct (str_eqb d (lit "113")); [|discriminate]. injection E as <-. repeat (apply Forall_cons; [apply digits_plain, MessageThms.digits_all; reflexivity|]); apply Forall_nil.
Qed.
Lemma made1_ok : Forall gcall_ok made1.
Proof.
  pose proof calls1_ok as F. rewrite Forall_forall in F. unfold made1. cbn [app]. repeat apply Forall_cons; [| | |apply Forall_nil]; apply F; cbn; tauto.
Qed.
Example C134_ex : exists l h' evs, locked 4 2 2 tasks1 /\ undisturbed tasks1 /\ watched gw0 4 2 (linit 2) house1 [] [] tasks1 l h' [] [] evs /\
  gmade (started tasks1) made1 /\ Forall (eq SIdle) (s_tasks (l_s l)) /\ (forall i, cstep (l_c l) (KRun i) = None) /\
  k_done (l_c l) = [(0%nat, Ok tt); (1%nat, Ok tt); (0%nat, Ok tt)].
Proof.
  do 3 eexists. split.
  { intros pre i p m k post l E R. unfold tasks1 in E.
    assert (X : pre = [] \/ pre = firstn 6 tasks1 \/ pre = firstn 9 tasks1).
    { do 12 (destruct pre as [|? pre]; [first [left; reflexivity | right; left; reflexivity | right; right; reflexivity | discriminate E]|cbn [app] in E; injection E as <- E]). destruct pre; discriminate E. }
    destruct X as [-> |[-> | ->]]; vm_compute in R; injection R as <-; split; repeat constructor. }
  split; [repeat constructor|]. split.
  { unfold tasks1. step_x. step_x. obey_x (Dimension ENERGY_MANAGEMENT (lit "51") (lit "113")).
    eapply (Wa_packet gw0 4 2 _ _ _ [lit "*#18*51*113*2500##"]); [vm_compute; reflexivity|]. step_x.
    eapply (Wa_packet gw0 4 2 _ _ _ [frame_ack] []); [vm_compute; reflexivity|]. step_x. step_x.
    obey_x (Writing GATEWAY [] (lit "1") [lit "01"; lit "16"; lit "11"; lit "2026"]).
    eapply (Wa_packet gw0 4 2 _ _ _ [frame_ack] []); [vm_compute; reflexivity|]. step_x. step_x. obey_x (Dimension GATEWAY [] (lit "1")).
    eapply (Wa_packet gw0 4 2 _ _ _ [lit "*#13**1*01*16*11*2026##"; frame_ack] []); [vm_compute; reflexivity|]. step_x. apply Wa_nil. }
  split.
  { assert (Kd : forall m, is_dimres m = true <-> dimres m) by (intros m; split; [destruct m; try discriminate; intros _; repeat eexists|intros (w & a & b & c & ->); reflexivity]).
    repeat apply Forall2_cons; [| | |apply Forall2_nil].
    - eexists. split; [apply G_ask|]. split; [apply GW_ask, Kd|reflexivity].
    - exists (Writing GATEWAY [] (lit "1") [lit "01"; lit "16"; lit "11"; lit "2026"]). split; [|split; [apply GW_date|reflexivity]].
      assert (C : calendar_date (2026, 11, 16)%Z) by (split; [lia|]; exists 30%Z; split; [apply Thirty; cbn; tauto|lia]).
      apply (G_date g_item 2026 11 16 1); [exact C| | | | |].
      + apply weekday_true; [exact C|]. vm_compute. reflexivity.
      + apply fixed_ex; try reflexivity; discriminate.
      + apply fixed_ex; try reflexivity; discriminate.
      + apply fixed_ex; try reflexivity; discriminate.
      + apply TagThms.numeral_dec. vm_compute. reflexivity.
    - eexists. split; [apply G_ask|]. split; [apply GW_ask, Kd|reflexivity]. }
  split; [repeat constructor|]. split; [intros [|[|[|j]]]; reflexivity|]. vm_compute; reflexivity.
Qed.
