(** * The exceptions of each method: the table *)
From Coq Require Import String List NArith ZArith Bool Lia.
From Verif Require Import PyStr Tags Messages SpecMsg SpecTag MessageFacts MessageThms MessageThms2 TagThms IO HandshakeThms SpecItem Client Items ItemThms LightThms Lighting PyDate
  SpecGateway CalendarThms Gateway GatewayThms PyFloat Energy SpecEnergy EnergyThms EnergyThms2 SpecRaise RaiseThms RaiseThms2 RaiseThms3.
Import ListNotations.
Open Scope N_scope.
Open Scope list_scope.

Local Opaque huge send_normal_message send_status_request send_dimension_request send_dimension_writing send_command_without_where ask_gateway ask_energy.
Definition day0 : date := (2024, 5, 6)%Z.
Lemma day0_ok : calendar_date day0.
Proof. apply date_fields_spec. reflexivity. Qed.

Lemma tagtext_by t : mk t = Ok t -> tagtext t.
Proof. apply mk_ok. Qed.
Ltac tag := solve [apply tagtext_by; reflexivity | apply tagtext_by; vm_compute; reflexivity].
Ltac tagl := solve [repeat (apply Forall_cons; [tag|]); apply Forall_nil].

Definition can it k e : Prop := exists Y A (x : io Y A), runs it k Y A x /\ ends x e.
Definition canon it k : Prop := exists Y A (x : io Y A), runs it k Y A x /\ (ready it -> plain x) /\ (~ ready it -> shut x).
Lemma use it k Y A (x : io Y A) : runs it k Y A x -> (ready it -> plain x) -> (~ ready it -> shut x) -> canon it k.
Proof. intros R P S. exists Y, A, x. auto. Qed.
Lemma raised it k e Y A (x : io Y A) : runs it k Y A x -> ends x e -> can it k e.
Proof. intros R E. exists Y, A, x. auto. Qed.

Ltac cn0 := first [apply plain_normal; [assumption|assumption|tag] | apply shut_normal; [assumption|tag]
  | apply plain_camera; [assumption|tag] | apply shut_camera; assumption
  | apply plain_writing; [assumption|assumption|tag|tagl] | apply shut_writing; [assumption|tag]
  | apply plain_status; assumption | apply shut_status; assumption | apply plain_dim; [assumption|assumption|tag] | apply shut_dim; [assumption|tag]
  | apply plain_gateway; assumption | apply shut_gateway; assumption
  | eapply plain_energy; [assumption|assumption|vm_compute; reflexivity|tag] | eapply shut_energy; [assumption|vm_compute; reflexivity|tag]].
Ltac cn := intros ?Hr; cn0.
Ltac steps := intros ?Hr; repeat first [eapply plain_lift; [vm_compute; reflexivity|] | eapply shut_lift; [vm_compute; reflexivity|]]; cn0.

Lemma canonical it k : placed it -> canon it k.
Proof.
  intros Hp. destruct k.
  - apply (use _ _ _ _ _ (R_normal it (lit "1"))); cn.
  - apply (use _ _ _ _ _ (R_status it)); cn.
  - apply (use _ _ _ _ _ (R_dim_request it (lit "1"))); cn.
  - apply (use _ _ _ _ _ (R_dim_writing it (lit "1") [lit "1"] ltac:(tagl))); cn.
  - apply (use _ _ _ _ _ (R_light it c)); destruct c; cn.
  - apply (use _ _ _ _ _ (R_blink it c)); destruct c; cn.
  - apply (use _ _ _ _ _ (R_level it c)); destruct c; cn.
  - apply (use _ _ _ _ _ (R_on it None)); cn.
  - apply (use _ _ _ _ _ (R_off it None)); cn.
  - apply (use _ _ _ _ _ (R_up it None None)); steps.
  - apply (use _ _ _ _ _ (R_down it None None)); steps.
  - apply (use _ _ _ _ _ (R_temporization it 1 2 3)); steps.
  - apply (use _ _ _ _ _ (R_brightness it (AInt 1) (AInt 2))); steps.
  - apply (use _ _ _ _ _ (R_hsv it 1 2 3)); steps.
  - apply (use _ _ _ _ _ (R_white it 1)); steps.
  - apply (use _ _ _ _ _ (R_light_status it)); cn.
  - apply (use _ _ _ _ _ (R_dimmer_status it)); cn.
  - apply (use _ _ _ _ _ (R_temporization_request it)); cn.
  - apply (use _ _ _ _ _ (R_working_time it)); cn.
  - apply (use _ _ _ _ _ (R_brightness_request it)); cn.
  - apply (use _ _ _ _ _ (R_hsv_request it)); cn.
  - apply (use _ _ _ _ _ (R_white_request it)); cn.
  - apply (use _ _ _ _ _ (R_shutter it c)); destruct c; cn.
  - apply (use _ _ _ _ _ (R_shutter_status it)); cn.
  - apply (use _ _ _ _ _ (R_video it)); cn.
  - apply (use _ _ _ _ _ (R_camera it c)); destruct c; cn.
  - apply (use _ _ _ _ _ (R_dial it 1 1)); steps.
  - apply (use _ _ _ _ _ (R_get_time it)); cn.
  - apply (use _ _ _ _ _ (R_get_date it)); cn.
  - apply (use _ _ _ _ _ (R_get_ip it)); cn.
  - apply (use _ _ _ _ _ (R_get_netmask it)); cn.
  - apply (use _ _ _ _ _ (R_get_mac it)); cn.
  - apply (use _ _ _ _ _ (R_get_netinfo it)); intros Hr; [apply plain_then, plain_gateway; assumption|apply shut_then, shut_gateway; assumption].
  - apply (use _ _ _ _ _ (R_get_model it)); cn.
  - apply (use _ _ _ _ _ (R_get_firmware it)); cn.
  - apply (use _ _ _ _ _ (R_get_uptime it)); cn.
  - apply (use _ _ _ _ _ (R_get_datetime it)); cn.
  - apply (use _ _ _ _ _ (R_get_kernel it)); cn.
  - apply (use _ _ _ _ _ (R_get_distribution it)); cn.
  - apply (use _ _ _ _ _ (R_set_time it 1 2 3 (Offset 0) ltac:(lia) ltac:(lia) ltac:(lia))); steps.
  - apply (use _ _ _ _ _ (R_set_date it day0 day0_ok)); unfold day0; cbn [set_date]; steps.
  - apply (use _ _ _ _ _ (R_set_datetime it day0 1 2 3 (Offset 0) day0_ok ltac:(lia) ltac:(lia) ltac:(lia))); unfold day0; cbn [set_datetime]; steps.
  - apply (use _ _ _ _ _ (R_daily it None None day0 day0 day0_ok day0_ok)); steps.
  - apply (use _ _ _ _ _ (R_average it None day0 day0_ok)); steps.
  - apply (use _ _ _ _ _ (R_this_year it None day0 day0_ok)); steps.
  - apply (use _ _ _ _ _ (R_last_year it None day0 day0_ok)); steps.
  - apply (use _ _ _ _ _ (R_enable it)); steps.
  - apply (use _ _ _ _ _ (R_force_on it None)); steps.
  - apply (use _ _ _ _ _ (R_force_off it)); steps.
  - apply (use _ _ _ _ _ (R_reset it 1)); steps.
  - apply (use _ _ _ _ _ (R_auto_reset_on it)); steps.
  - apply (use _ _ _ _ _ (R_auto_reset_off it)); steps.
  - apply (use _ _ _ _ _ (R_active_power it)); cn.
  - apply (use _ _ _ _ _ (R_unit_totalizer it)); cn.
  - apply (use _ _ _ _ _ (R_per_month it None None day0 day0 day0_ok day0_ok)); cn.
  - apply (use _ _ _ _ _ (R_partial_month it)); cn.
  - apply (use _ _ _ _ _ (R_partial_day it)); cn.
  - apply (use _ _ _ _ _ (R_actuators it)); cn.
  - apply (use _ _ _ _ _ (R_totalizers it 1)); cn.
  - apply (use _ _ _ _ _ (R_differential it)); cn.
  - apply (use _ _ _ _ _ (R_start_power it 1 1)); steps.
  - apply (use _ _ _ _ _ (R_stop_power it 1)); steps.
  - apply (use _ _ _ _ _ (R_stop_go it d)); intros Hr;
      [apply plain_collect, plain_dim; [assumption|assumption|apply de_tagtext]|apply shut_collect, shut_dim; [assumption|apply de_tagtext]].
Qed.

Local Transparent send_normal_message send_status_request send_dimension_request send_dimension_writing send_command_without_where ask_gateway ask_energy.
Ltac vm := vm_compute; reflexivity.
Ltac st t := eapply ends_status with (text := t); [assumption|assumption|vm|vm].
Ltac di t := eapply ends_dim with (text := t); [assumption|assumption|tag|vm|vm].
Ltac gw t := eapply ends_gateway with (text := t); [assumption|assumption|vm|vm].
Ltac en t := eapply ends_energy with (text := t); [assumption|assumption|vm|tag|vm|vm].
Ltac wrong := apply ends_lift; vm.

Lemma ends_go {Y} it d text w a b vs e : placed it -> ready it -> parse_message (lit text) = Ok (MDimRes w a b vs) -> status_step (MDimRes w a b vs) = Err e ->
  ends (request_status (Y:=Y) it d) e.
Proof.
  intros Hp Hr P B. destruct (ends_dim it Hp (de_str d) status_step text w a b vs e Hr (de_tagtext d) P B) as (s & F & E).
  exists s. split; [exact F|]. unfold request_status. apply res_collect, E.
Qed.
Ltac go t := eapply ends_go with (text := t); [assumption|assumption|vm|vm].

Lemma each_raised it k e : placed it -> ready it -> In e (raises k) -> e <> InvalidSession -> can it k e.
Proof.
  intros Hp Hr H N. unfold raises in H. apply in_app_or in H as [H|H].
  { destruct (canonical it k Hp) as (Y & A & x & R & P & _). destruct (P Hr) as [P1 P2].
    destruct H as [<-|[<-|[<-|[]]]]; [congruence|exact (raised _ _ _ _ _ _ R P1)|exact (raised _ _ _ _ _ _ R P2)]. }
  destruct k; cbn [In] in H; repeat match type of H with _ \/ _ => destruct H as [<-|H] end; try contradiction; clear N.
  - apply (raised _ _ _ _ _ _ (R_normal it (lit "x"))). wrong.
  - apply (raised _ _ _ _ _ _ (R_dim_request it (lit "x"))). wrong.
  - apply (raised _ _ _ _ _ _ (R_dim_writing it (lit "x") [] (Forall_nil _))). wrong.
  - apply (raised _ _ _ _ _ _ (R_on it (Some (-1)%Z))). apply ends_raise.
  - apply (raised _ _ _ _ _ _ (R_off it (Some (-1)%Z))). apply ends_raise.
  - apply (raised _ _ _ _ _ _ (R_up it (Some (-1)%Z) None)). apply ends_raise.
  - apply (raised _ _ _ _ _ _ (R_down it (Some (-1)%Z) None)). apply ends_raise.
  - apply (raised _ _ _ _ _ _ (R_temporization it 24 0 0)). apply ends_raise.
  - apply (raised _ _ _ _ _ _ (R_temporization it (-1) 0 0)). wrong.
  - apply (raised _ _ _ _ _ _ (R_brightness it (AInt huge) (AInt 0))). apply ends_lift, huge_make.
  - apply (raised _ _ _ _ _ _ (R_brightness it (AInt (-1)) (AInt 0))). wrong.
  - apply (raised _ _ _ _ _ _ (R_hsv it 360 0 0)). apply ends_raise.
  - apply (raised _ _ _ _ _ _ (R_white it 0)). apply ends_raise.
  - apply (raised _ _ _ _ _ _ (R_dimmer_status it)). st "*1**12##"%string.
  - apply (raised _ _ _ _ _ _ (R_temporization_request it)). di "*#1*12*2#1##"%string.
  - apply (raised _ _ _ _ _ _ (R_temporization_request it)). di "*#1*12*2****##"%string.
  - apply (raised _ _ _ _ _ _ (R_working_time it)). di "*#1*12*3#1##"%string.
  - apply (raised _ _ _ _ _ _ (R_working_time it)). di "*#1*12*8*##"%string.
  - apply (raised _ _ _ _ _ _ (R_brightness_request it)). di "*#1*12*1*150##"%string.
  - apply (raised _ _ _ _ _ _ (R_brightness_request it)). di "*#1*12*1*150*##"%string.
  - apply (raised _ _ _ _ _ _ (R_hsv_request it)). di "*#1*12*12*150*1##"%string.
  - apply (raised _ _ _ _ _ _ (R_hsv_request it)). di "*#1*12*12*150**1##"%string.
  - apply (raised _ _ _ _ _ _ (R_white_request it)). di "*#1*12*14#1##"%string.
  - apply (raised _ _ _ _ _ _ (R_white_request it)). di "*#1*12*14*##"%string.
  - apply (raised _ _ _ _ _ _ (R_shutter_status it)). st "*2*1000#1*12##"%string.
  - apply (raised _ _ _ _ _ _ (R_dial it 0 0)). apply ends_raise.
  - apply (raised _ _ _ _ _ _ (R_get_time it)). gw "*#13**0*24*0*0*001##"%string.
  - apply (raised _ _ _ _ _ _ (R_get_time it)). gw "*#13**0*2147483648*0*0*001##"%string.
  - apply (raised _ _ _ _ _ _ (R_get_date it)). gw "*#13**1*1*31*2*2024##"%string.
  - apply (raised _ _ _ _ _ _ (R_get_date it)). gw "*#13**1*1*31*2*2147483648##"%string.
  - apply (raised _ _ _ _ _ _ (R_get_ip it)). gw "*#13**10*192*168*1*256##"%string.
  - apply (raised _ _ _ _ _ _ (R_get_netmask it)). gw "*#13**11*255*255*255##"%string.
  - apply (raised _ _ _ _ _ _ (R_get_mac it)). gw "*#13**12*0*3*80*0*1##"%string.
  - apply (raised _ _ _ _ _ _ (R_get_netinfo it)). assert (E : ends (get_ip (Y:=Empty_set) it) ValueError) by gw "*#13**10*192*168*1*256##"%string.
    destruct E as (s & F & E). exists s. split; [exact F|]. apply res_fail, E.
  - apply (raised _ _ _ _ _ _ (R_get_model it)). gw "*#13**15#1##"%string.
  - apply (raised _ _ _ _ _ _ (R_get_firmware it)). gw "*#13**16*1*2##"%string.
  - apply (raised _ _ _ _ _ _ (R_get_uptime it)). gw "*#13**19*1*2*3##"%string.
  - apply (raised _ _ _ _ _ _ (R_get_uptime it)). gw "*#13**19*1*2*3*##"%string.
  - apply (raised _ _ _ _ _ _ (R_get_uptime it)). gw "*#13**19*1000000000*2*3*4##"%string.
  - apply (raised _ _ _ _ _ _ (R_get_datetime it)). gw "*#13**22*1*2*3*001*1*5*6##"%string.
  - apply (raised _ _ _ _ _ _ (R_get_datetime it)). gw "*#13**22*1*2*3*001*1*31*6*2024##"%string.
  - apply (raised _ _ _ _ _ _ (R_get_datetime it)). gw "*#13**22*1*2*3*001*1*5*6*2147483648##"%string.
  - apply (raised _ _ _ _ _ _ (R_get_kernel it)). gw "*#13**23*1*2##"%string.
  - apply (raised _ _ _ _ _ _ (R_get_distribution it)). gw "*#13**24*1*2##"%string.
  - apply (raised _ _ _ _ _ _ (R_set_time it 1 2 3 NoTz ltac:(lia) ltac:(lia) ltac:(lia))). wrong.
  - apply (raised _ _ _ _ _ _ (R_set_datetime it day0 1 2 3 NoTz day0_ok ltac:(lia) ltac:(lia) ltac:(lia))). wrong.
  - apply (raised _ _ _ _ _ _ (R_daily it (Some huge) None day0 day0 day0_ok day0_ok)). apply ends_lift. cbn [energy_what or_now]. unfold param. rewrite huge_param. reflexivity.
  - apply (raised _ _ _ _ _ _ (R_daily it (Some (-1)%Z) None day0 day0 day0_ok day0_ok)). wrong.
  - apply (raised _ _ _ _ _ _ (R_average it (Some huge) day0 day0_ok)). apply ends_lift, huge_param.
  - apply (raised _ _ _ _ _ _ (R_average it (Some (-1)%Z) day0 day0_ok)). wrong.
  - apply (raised _ _ _ _ _ _ (R_this_year it (Some huge) day0 day0_ok)). apply ends_lift, huge_param.
  - apply (raised _ _ _ _ _ _ (R_this_year it (Some (-1)%Z) day0 day0_ok)). wrong.
  - apply (raised _ _ _ _ _ _ (R_last_year it (Some huge) day0 day0_ok)). apply ends_lift, huge_param.
  - apply (raised _ _ _ _ _ _ (R_last_year it (Some (-1)%Z) day0 day0_ok)). wrong.
  - apply (raised _ _ _ _ _ _ (R_force_on it (Some huge))). apply ends_lift, huge_param.
  - apply (raised _ _ _ _ _ _ (R_force_on it (Some (-1)%Z))). wrong.
  - apply (raised _ _ _ _ _ _ (R_reset it huge)). apply ends_lift, huge_param.
  - apply (raised _ _ _ _ _ _ (R_reset it (-1))). wrong.
  - apply (raised _ _ _ _ _ _ (R_active_power it)). en "*#18*51*113#1##"%string.
  - apply (raised _ _ _ _ _ _ (R_active_power it)). en "*#18*51*113*##"%string.
  - apply (raised _ _ _ _ _ _ (R_unit_totalizer it)). en "*#18*51*51#1##"%string.
  - apply (raised _ _ _ _ _ _ (R_unit_totalizer it)). en "*#18*51*51*##"%string.
  - apply (raised _ _ _ _ _ _ (R_per_month it (Some (-1)%Z) None day0 day0 day0_ok day0_ok)). wrong.
  - apply (raised _ _ _ _ _ _ (R_per_month it None None day0 day0 day0_ok day0_ok)). en "*#18*51*52#24#5##"%string.
  - apply (raised _ _ _ _ _ _ (R_per_month it None None day0 day0 day0_ok day0_ok)). en "*#18*51*52#24#5*##"%string.
  - apply (raised _ _ _ _ _ _ (R_partial_month it)). en "*#18*51*53#1##"%string.
  - apply (raised _ _ _ _ _ _ (R_partial_month it)). en "*#18*51*53*##"%string.
  - apply (raised _ _ _ _ _ _ (R_partial_day it)). en "*#18*51*54#1##"%string.
  - apply (raised _ _ _ _ _ _ (R_partial_day it)). en "*#18*51*54*##"%string.
  - apply (raised _ _ _ _ _ _ (R_actuators it)). en "*#18*71#0*71*1*0*1*0*1*2##"%string.
  - apply (raised _ _ _ _ _ _ (R_actuators it)). en "*#18*71#0*71*#0101##"%string.
  - apply (raised _ _ _ _ _ _ (R_totalizers it (-1))). wrong.
  - apply (raised _ _ _ _ _ _ (R_totalizers it 1)). en "*#18*51*72#1*5##"%string.
  - apply (raised _ _ _ _ _ _ (R_totalizers it 1)). en "*#18*51*72#1*5*31*6*2024*1*2##"%string.
  - apply (raised _ _ _ _ _ _ (R_totalizers it 1)). en "*#18*51*72#1*5*1*6*2147483648*1*2##"%string.
  - apply (raised _ _ _ _ _ _ (R_differential it)). en "*#18*51*73#1##"%string.
  - apply (raised _ _ _ _ _ _ (R_differential it)). en "*#18*51*73*##"%string.
  - apply (raised _ _ _ _ _ _ (R_start_power it 1 huge)). apply ends_lift, huge_param.
  - apply (raised _ _ _ _ _ _ (R_start_power it 1 (-1))). wrong.
  - apply (raised _ _ _ _ _ _ (R_stop_power it huge)). apply ends_lift, huge_param.
  - apply (raised _ _ _ _ _ _ (R_stop_power it (-1))). wrong.
  - apply (raised _ _ _ _ _ _ (R_stop_go it d)). go "*#18*12*250#1##"%string.
  - apply (raised _ _ _ _ _ _ (R_stop_go it d)). go "*#18*12*250*##"%string.
  - apply (raised _ _ _ _ _ _ (R_stop_go it d)). go "*#18*12*113*1##"%string.
Qed.

Lemma session_raised it k : placed it -> ~ ready it -> exists Y A (x : io Y A), runs it k Y A x /\ forall s, res_of (x s) = Err InvalidSession.
Proof. intros Hp Hr. destruct (canonical it k Hp) as (Y & A & x & R & _ & S). exists Y, A, x. split; [exact R|exact (S Hr)]. Qed.
