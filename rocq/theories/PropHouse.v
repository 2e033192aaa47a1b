(** * Property C104: sessions with a house *)
From Coq Require Import String List NArith ZArith Bool Lia.
From Verif Require Import PyStr Tags Messages SpecMsg SpecTag MessageThms3 IO Client SpecItem Items Lighting SpecLight ItemThms LightThms2 SpecHouse HouseThms HouseThms2.
Import ListNotations.
Open Scope N_scope.
Open Scope list_scope.

(** Every sequence of calls on a command client, with a gateway that does what
    the documentation says: each call does to the house what it stands for,
    yields what the points aimed at report, in order, and succeeds unless nobody
    is there; nothing is left unread. *)
Theorem C104_story : forall gw h cs s log evs h' out',
  gateway_ok gw -> house_ok h -> Forall call_ok cs -> session_with gw h [] cs s log evs h' out' ->
  story gw h cs log evs h' /\ out' = [] /\ house_ok h'.
Proof. intros gw h cs s log evs h' out' G H F S. exact (session_story gw h [] cs s log evs h' out' S G H F eq_refl). Qed.
Print Assumptions C104_story.

(** Every such sequence can be carried out. *)
Theorem C104_possible : forall gw, gateway_ok gw -> forall cs h, house_ok h -> Forall call_ok cs ->
  exists ms log evs h', session_with gw h [] cs (map Some ms) log evs h' [].
Proof. exact session_exists. Qed.
Print Assumptions C104_possible.

(** What becomes of each point is decided by the calls that are aimed at it. *)
Theorem C104_points : forall gw h cs s log evs h' out',
  gateway_ok gw -> house_ok h -> Forall call_ok cs -> session_with gw h [] cs s log evs h' out' ->
  exists os, Forall2 stands_for cs os /\ h' = map (life gw os) h.
Proof. intros. eapply story_lives, C104_story; eassumption. Qed.
Print Assumptions C104_points.

(** What was set is what is read: on and off, the level of a dimmer, a shutter,
    the timer, brightness and speed, HSV. *)
Theorem C104_read_back : forall gw h before c between ask s log evs h' out' p o oa v,
  gateway_ok gw -> house_ok h -> Forall call_ok (before ++ c :: between ++ [ask]) ->
  session_with gw h [] (before ++ c :: between ++ [ask]) s log evs h' out' -> In p h ->
  stands_for c o -> stands_for ask oa -> at_whom gw o p = true -> at_whom gw oa p = true ->
  Forall (fun c' => forall o', stands_for c' o' -> at_whom gw o' p = true -> sets o' = false) between ->
  tells gw c ask v ->
  exists obs, last log ([], Ok tt) = (obs, Ok tt) /\ In (p_where p, v) obs /\
    (NoDup (map p_where h) -> forall v', In (p_where p, v') obs -> v' = v).
Proof.
  intros gw h before c between ask s log evs h' out' p o oa v G H F S. intros.
  eapply (read_back gw h before c between ask); [eapply C104_story; eassumption|eassumption..].
Qed.
Print Assumptions C104_read_back.

(** ** A house: two lamps, one of them with dimensions, and a shutter *)

Definition h_client : client := {| cl_session := Client.Command; cl_proto := true |}.
Definition h_item w (a : string) : item := {| it_client := h_client; it_who := w; it_where := lit a |}.
Definition gw0 : gateway :=
  {| covers := fun a b => str_eqb a (lit "0") || str_eqb a b; react := fun _ what _ => what; echoes := true |}.
Definition no_dims : str -> option (list str) := fun _ => None.
Definition lamp11 : point := {| p_who := LIGHTING; p_where := lit "11"; p_state := lit "0"; p_dims := no_dims |}.
Definition lamp12 : point := {| p_who := LIGHTING; p_where := lit "12"; p_state := lit "5";
  p_dims := fun d => if str_eqb d (lit "14") then Some [lit "300"] else None |}.
Definition blind11 : point := {| p_who := AUTOMATION; p_where := lit "11"; p_state := lit "0"; p_dims := no_dims |}.
Definition house0 : house := [lamp11; lamp12; blind11].

Lemma gw0_ok : gateway_ok gw0.
Proof.
  split.
  - intros n st k D _ _. cbn [react gw0]. split; [apply dec_wire|]. exists n, (dec n), []. split; [symmetry; apply app_nil_r|]. split; [constructor|].
    destruct (dec_valnum n) as (d & [<-|E] & N); [destruct n as [|q]; [lia|]; do 5 (destruct q as [q|q|]; try (exfalso; apply D; reflexivity); try lia)|exact N|].
    exfalso. pose proof (dec_digits n) as A. rewrite E in A. discriminate A.
  - intros c c'. exists c. reflexivity.
Qed.
Lemma house0_ok : house_ok house0.
Proof.
  assert (N : forall d, d = lit "11" \/ d = lit "12" -> ~ SpecProto.ends_hash d).
  { intros d E (u & X). apply (f_equal (fun l => last l 0)) in X. cbv beta in X. rewrite last_last in X.
    destruct E as [->| ->]; discriminate X. }
  repeat apply Forall_cons; [| | |apply Forall_nil].
  - split; [apply (wiretagb_spec (lit "11")); reflexivity|]. split; [apply N; auto|]. split; [apply (wiretagb_spec (lit "0")); reflexivity|].
    split; [intros _|discriminate]. split; [|discriminate].
    exists 0, (lit "0"), []. split; [reflexivity|]. split; [constructor|]. split; [apply (digits_all (lit "0")); reflexivity|]. split; [discriminate|]. split; [reflexivity|]. vm_compute. discriminate.
  - split; [apply (wiretagb_spec (lit "12")); reflexivity|]. split; [apply N; auto|]. split; [apply (wiretagb_spec (lit "5")); reflexivity|].
    split; [intros _|discriminate]. split.
    + exists 5, (lit "5"), []. split; [reflexivity|]. split; [constructor|]. split; [apply (digits_all (lit "5")); reflexivity|]. split; [discriminate|]. split; [reflexivity|]. vm_compute. discriminate.
    + intros d vs E. unfold lamp12 in E. cbn [p_dims] in E. destruct (str_eqb d (lit "14")) eqn:Ed; [|discriminate]. apply str_eqb_spec in Ed. subst d. injection E as <-.
      split; [apply Forall_cons; [apply (wiretagb_spec (lit "300")); reflexivity|apply Forall_nil]|].
      exists [lit "300"], [], [300]. split; [reflexivity|]. split; [|reflexivity]. constructor; [|constructor]. exact (dec_valnum 300 ltac:(lia)).
  - split; [apply (wiretagb_spec (lit "11")); reflexivity|]. split; [apply N; auto|]. split; [apply (wiretagb_spec (lit "0")); reflexivity|].
    split; [discriminate|]. intros _. exists stop. reflexivity.
Qed.

(** All lamps on, all asked; the colour of one lamp set and read; an address where
    nobody is; the shutter moved and asked. *)
Definition calls0 : list call :=
  [CLight (h_item LIGHTING "0") (LBase turn_on); CAskLight (h_item LIGHTING "0"); CHsv (h_item LIGHTING "12") 200 50 70;
   CAskNumbers (h_item LIGHTING "0") RHsv; CLight (h_item LIGHTING "77") (LBase turn_off); CAuto (h_item AUTOMATION "11") up; CAskAuto (h_item AUTOMATION "11")].
Definition heard0 : list msg :=
  [MAck; MNormal LIGHTING (lit "1") (lit "11"); MNormal LIGHTING (lit "1") (lit "12"); MAck; MAck;
   MDimRes LIGHTING (lit "12") (lit "12") [lit "200"; lit "50"; lit "70"]; MAck; MNack; MAck; MNormal AUTOMATION (lit "1") (lit "11"); MAck].

Ltac tag_ok := apply wiretagb_spec; reflexivity.
Ltac order_tac := first
  [ solve [cbn; split; tag_ok] | solve [cbn; tag_ok]
  | solve [cbn; split; [tag_ok|split; [apply (proj2 (digits_all _)); reflexivity|split; [repeat (apply Forall_cons; [tag_ok|]); apply Forall_nil|discriminate]]]]
  | solve [cbn; split; [tag_ok|apply (proj2 (digits_all _)); reflexivity]] ].
Ltac obey_tac := first [apply Ob_command; reflexivity | apply Ob_writing; reflexivity | apply Ob_status; reflexivity | apply Ob_dimension; reflexivity | apply Ob_nobody; reflexivity].
Ltac serve o := eapply Sv_sent; [exists o; split; [order_tac|split; [reflexivity|obey_tac]]|].
Ltac hear := cbn [app map concat filter frame_dim aimed]; eapply Sv_got; [reflexivity|].

Example C104_ex_calls : Forall call_ok calls0.
Proof.
  assert (R : forall w a, wiretagb (lit a) = true -> ready (h_item w a) /\ wiretag (it_where (h_item w a)) /\ it_who (h_item w a) = w).
  { intros w a E. split; [split; [discriminate|reflexivity]|]. split; [apply wiretagb_spec, E|reflexivity]. }
  repeat apply Forall_cons; [| | | | | | |apply Forall_nil];
    (split; [apply R; reflexivity|]; split; [apply R; reflexivity|]; split; [reflexivity|]; eexists).
  - apply (F_light _ _ 1). reflexivity.
  - apply F_ask_light.
  - apply F_hsv; lia.
  - apply F_ask_numbers.
  - apply (F_light _ _ 0). reflexivity.
  - apply F_auto.
  - apply F_ask_auto.
Qed.

Example C104_ex : exists log evs h', session_with gw0 house0 [] calls0 (map Some heard0) log evs h' [] /\
  log = [([], Ok tt);
   ([(lit "11", SLamp true); (lit "12", SLamp true)], Ok tt);
   ([], Ok tt);
   ([(lit "12", SNumbers [200; 50; 70]%Z)], Ok tt);
   ([], Err ResponseError);
   ([], Ok tt);
   ([(lit "11", SMove (lit "1"))], Ok tt)] /\
  evs = [lit "*1*1*11##"; lit "*1*1*12##"; lit "*1*1*11##"; lit "*1*1*12##"; lit "*2*1*11##"; lit "*2*1*11##"].
Proof.
  do 3 eexists. split.
  - unfold calls0.
    eapply Ss_call; [vm_compute; reflexivity| |discriminate|].
    { serve (Command LIGHTING (lit "1") (lit "0")). hear. apply Sv_nil. }
    eapply Ss_call; [vm_compute; reflexivity| |discriminate|].
    { serve (Status LIGHTING (lit "0")). hear. apply Sv_yield. hear. apply Sv_yield. hear. apply Sv_nil. }
    eapply Ss_call; [vm_compute; reflexivity| |discriminate|].
    { serve (Writing LIGHTING (lit "12") (lit "12") [lit "200"; lit "50"; lit "70"]). hear. apply Sv_nil. }
    eapply Ss_call; [vm_compute; reflexivity| |discriminate|].
    { serve (Dimension LIGHTING (lit "0") (lit "12")). hear. apply Sv_yield. hear. apply Sv_nil. }
    eapply Ss_call; [vm_compute; reflexivity| |discriminate|].
    { serve (Command LIGHTING (lit "0") (lit "77")). hear. apply Sv_nil. }
    eapply Ss_call; [vm_compute; reflexivity| |discriminate|].
    { serve (Command AUTOMATION (lit "1") (lit "11")). hear. apply Sv_nil. }
    eapply Ss_call; [vm_compute; reflexivity| |discriminate|].
    { serve (Status AUTOMATION (lit "11")). hear. apply Sv_yield. hear. apply Sv_nil. }
    apply Ss_nil.
  - split; reflexivity.
Qed.

(** Each way of setting something is covered. *)
Example C104_ex_tells : tells gw0 (CLight (h_item LIGHTING "0") (LBase turn_on)) (CAskLight (h_item LIGHTING "12")) (SLamp true) /\
  tells gw0 (CLight (h_item LIGHTING "12") (LLevel set_70_percent)) (CAskDimmer (h_item LIGHTING "0")) (SLevel 70) /\
  tells gw0 (CAuto (h_item AUTOMATION "11") up) (CAskAuto (h_item AUTOMATION "11")) (SMove (lit "1")).
Proof.
  split; [apply T_on; reflexivity|]. split; [|apply (T_auto gw0 _ _ up); reflexivity].
  apply (T_level gw0 _ _ _ 7 70); reflexivity.
Qed.

(** The white temperature is written to one dimension and read from another: what
    is read back is not what was set. *)
Theorem C104_white_refuted : exists gw h it k t log evs h', gateway_ok gw /\ house_ok h /\ Forall call_ok [CWhite it t; CAskNumbers it RWhite] /\ k <> t /\
  session_with gw h [] [CWhite it t; CAskNumbers it RWhite] (map Some [MAck; MDimRes LIGHTING (lit "12") (lit "14") [lit "300"]; MAck]) log evs h' [] /\
  log = [([], Ok tt); ([(it_where it, SNumbers [k])], Ok tt)].
Proof.
  exists gw0, house0, (h_item LIGHTING "12"), 300%Z, 200%Z. do 3 eexists.
  split; [apply gw0_ok|]. split; [apply house0_ok|]. split; [|split; [discriminate|split]].
  - repeat apply Forall_cons; [| |apply Forall_nil];
      (split; [split; [discriminate|reflexivity]|]; split; [tag_ok|]; split; [reflexivity|]; eexists).
    + apply F_white. lia.
    + apply F_ask_numbers.
  - eapply Ss_call; [vm_compute; reflexivity| |discriminate|].
    { serve (Writing LIGHTING (lit "12") (lit "13") [lit "200"]). hear. apply Sv_nil. }
    eapply Ss_call; [vm_compute; reflexivity| |discriminate|].
    { serve (Dimension LIGHTING (lit "12") (lit "14")). hear. apply Sv_yield. hear. apply Sv_nil. }
    apply Ss_nil.
  - reflexivity.
Qed.
Print Assumptions C104_white_refuted.
