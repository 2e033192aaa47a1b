(** * Methods on a client that may not send: refused before anything is done *)
From Coq Require Import String List NArith ZArith Bool Lia.
From Verif Require Import PyStr Tags Messages SpecMsg SpecTag MessageFacts MessageThms MessageThms2 IO Client Items ItemThms Lighting PyDate SpecGateway Gateway GatewayThms
  PyFloat Energy SpecEnergy EnergyThms HandshakeThms SpecRaise RaiseThms RaiseThms2.
Import ListNotations.
Open Scope N_scope.
Open Scope list_scope.

(** The call [f it] is refused if the client of [it] may not send, or it is
    refused for its arguments, by every item. *)
Definition gate {Y A} (f : item -> io Y A) : Prop :=
  (forall it s, ~ ready it -> f it s = ([], s, Err InvalidSession)) \/
  (exists e, In e [ValueError; InvalidTag] /\ forall it s, f it s = ([], s, Err e)).

Definition args : list exn := [ValueError; InvalidTag].
Lemma V : In ValueError args. Proof. cbn; auto. Qed.
Lemma T : In InvalidTag args. Proof. cbn; auto. Qed.

Lemma then_err {Y A B} (x : io Y A) (f : A -> io Y B) s e : x s = ([], s, Err e) -> andthen x f s = ([], s, Err e).
Proof. intros E. unfold andthen. rewrite E. reflexivity. Qed.

Lemma gate_raise {Y A} e : In e args -> gate (Y:=Y) (A:=A) (fun _ => raise e).
Proof. intros H. right. exists e. split; [exact H|]. reflexivity. Qed.
Lemma gate_bind {Y A B} (r : res A) (f : item -> A -> io Y B) : bad args r -> (forall a, r = Ok a -> gate (fun it => f it a)) ->
  gate (fun it => andthen (lift r) (f it)).
Proof.
  intros H K. destruct r as [a|e].
  - destruct (K a eq_refl) as [G|(e & He & G)].
    + left. intros it s Hr. rewrite andthen_lift. apply G, Hr.
    + right. exists e. split; [exact He|]. intros it s. rewrite andthen_lift. apply G.
  - right. exists e. split; [apply H; reflexivity|]. reflexivity.
Qed.
Lemma gate_send {Y A} (m : item -> msg) (f : item -> unit -> io Y A) : gate (fun it => andthen (item_send it (m it)) (f it)).
Proof. left. intros it s Hr. apply then_err. apply item_send_refused, Hr. Qed.
Lemma gate_then {Y A B} (x : item -> io Y A) (f : item -> A -> io Y B) : gate x -> gate (fun it => andthen (x it) (f it)).
Proof.
  intros [G|(e & He & G)]; [left; intros it s Hr; apply then_err, G, Hr|right; exists e; split; [exact He|]; intros it s; apply then_err, G].
Qed.
Lemma gate_collect {Y Z} (x : item -> io Y unit) : gate x -> gate (Y:=Z) (fun it => collect (x it)).
Proof.
  intros [G|(e & He & G)]; [left; intros it s Hr; unfold collect; rewrite (G it s Hr); reflexivity|].
  right; exists e; split; [exact He|]; intros it s; unfold collect; rewrite (G it s); reflexivity.
Qed.

Lemma gate_normal {Y} what : gate (Y:=Y) (fun it => send_normal_message it what).
Proof.
  unfold send_normal_message, create_normal_message. destruct (mk what) as [w|e] eqn:E; cbn [bind].
  - left. intros it s Hr. rewrite andthen_lift. apply then_err, item_send_refused, Hr.
  - right. exists e. split; [apply (bad_mk args what T e E)|]. reflexivity.
Qed.
Lemma gate_status {Y} (body : msg -> res (list Y)) : gate (fun it => send_status_request it body).
Proof. unfold send_status_request. apply (gate_send create_status_message). Qed.
Lemma gate_dim {Y} d (body : msg -> res (list Y)) : gate (fun it => send_dimension_request it d body).
Proof.
  unfold send_dimension_request. apply (gate_bind (mk d)); [apply bad_mk, T|]. intros t _.
  apply (gate_send (fun it => create_dimension_request_message it t)).
Qed.
Lemma gate_writing {Y} d vs : gate (Y:=Y) (fun it => send_dimension_writing it d vs).
Proof.
  unfold send_dimension_writing. apply (gate_bind (mk d)); [apply bad_mk, T|]. intros t _.
  apply (gate_send (fun it => create_dimension_writing_message it t vs)).
Qed.
Lemma gate_camera {Y} w : gate (Y:=Y) (fun it => send_command_without_where it w).
Proof. unfold send_command_without_where. apply (gate_send (fun it => MGeneric [who_str (it_who it); w])). Qed.
Lemma gate_single {Y} d : gate (Y:=Y) (fun it => single_dim_req it d).
Proof. unfold single_dim_req. apply (gate_then (fun it => collect (send_dimension_request it d as_is))). apply gate_collect, gate_dim. Qed.
Lemma gate_gateway {Y A} w (decode : list str -> res A) : gate (Y:=Y) (fun it => ask_gateway it w decode).
Proof. unfold ask_gateway. apply (gate_then (fun it => single_dim_req it (wg_str w))), gate_single. Qed.
Lemma gate_energy {Y A} dim (decode : list str -> res A) : bad args dim -> gate (Y:=Y) (fun it => ask_energy it dim decode).
Proof. intros H. unfold ask_energy. apply (gate_bind dim); [exact H|]. intros d _. apply (gate_then (fun it => single_dim_req it d)), gate_single. Qed.

Lemma gate_speed {Y} w v : gate (Y:=Y) (fun it => dimmer_speed it w v).
Proof.
  unfold dimmer_speed. destruct v as [v|]; [|apply gate_normal]. destruct (_ || _); [apply gate_raise, V|].
  eapply (gate_bind (enum_with_parameter _ _ _)); [apply bad_enum_param, V|]. intros t _. apply gate_normal.
Qed.
Lemma gate_step {Y} w v sp : gate (Y:=Y) (fun it => dimmer_step it w v sp).
Proof.
  unfold dimmer_step. destruct (match v with Some _ => _ | None => _ end); [apply gate_raise, V|].
  eapply (gate_bind (match v with Some _ => _ | None => _ end)); [destruct v; [apply bad_enum_param, V|apply bad_ok]|]. intros t _.
  eapply (gate_bind (match sp with Some _ => _ | None => _ end)); [destruct sp; [apply bad_enum_param, V|apply bad_ok]|]. intros t' _. apply gate_normal.
Qed.
Ltac make := eapply (gate_bind (tag_make _)); [apply bad_make; [apply V|apply T]|intros ? _].
Lemma gate_temporization {Y} h m s : gate (Y:=Y) (fun it => temporization_command it h m s).
Proof. unfold temporization_command, value_int. destruct (_ || _); [apply gate_raise, V|]. make. make. make. apply gate_writing. Qed.
Lemma gate_brightness {Y} b v : gate (Y:=Y) (fun it => set_brightness_with_speed it b v).
Proof. unfold set_brightness_with_speed. make. make. apply gate_writing. Qed.
Lemma gate_hsv {Y} h s v : gate (Y:=Y) (fun it => set_hsv it h s v).
Proof. unfold set_hsv, value_int. do 3 (destruct (_ || _); [apply gate_raise, V|]). make. make. make. apply gate_writing. Qed.
Lemma gate_white {Y} t : gate (Y:=Y) (fun it => set_white_temperature it t).
Proof. unfold set_white_temperature, value_int. destruct (_ || _); [apply gate_raise, V|]. make. apply gate_writing. Qed.
Lemma gate_dial {Y} x y : gate (Y:=Y) (fun it => display_dial it x y).
Proof.
  unfold display_dial. destruct (_ || _) eqn:E; [apply gate_raise, V|]. apply orb_false_iff in E as [E1 E2].
  apply negb_false_iff, andb_true_iff in E1, E2. destruct (dial_total x y) as (w & W & _); [lia|lia|]. rewrite W.
  eapply (gate_bind (Ok w)); [apply bad_ok|]. intros ? _. apply gate_camera.
Qed.
Ltac made := eapply (gate_bind (Ok _)); [apply bad_ok|intros ? _].
Lemma gate_set_time {Y} h m s tz : gate (Y:=Y) (fun it => set_time it h m s tz).
Proof. unfold set_time. rewrite !mk_fmt. eapply (gate_bind (tz_to_own_tz tz)); [apply bad_tz, V|intros ? _]. do 3 made. apply gate_writing. Qed.
Lemma gate_set_date {Y} dt : gate (Y:=Y) (fun it => set_date it dt).
Proof.
  unfold set_date. destruct dt as [[y m] d]. rewrite !mk_fmt. do 3 made.
  eapply gate_bind; [destruct (_ =? _)%Z; apply bad_ok|intros ? _]. apply gate_writing.
Qed.
Lemma gate_set_datetime {Y} dt h m s tz : gate (Y:=Y) (fun it => set_datetime it dt h m s tz).
Proof.
  unfold set_datetime. destruct dt as [[y mo] d]. rewrite !mk_fmt. eapply (gate_bind (tz_to_own_tz tz)); [apply bad_tz, V|intros ? _].
  do 6 made. apply gate_writing.
Qed.
Lemma gate_run_energy {Y} c : gate (Y:=Y) (fun it => run_energy it c).
Proof. unfold run_energy. apply (gate_bind (energy_what c)); [apply bad_energy_what; [apply V|apply T]|]. intros w _. apply gate_normal. Qed.
Lemma gate_start_power {Y} t p : gate (Y:=Y) (fun it => start_sending_instant_power it t p).
Proof.
  unfold start_sending_instant_power. eapply (gate_bind (param _ _)); [apply bad_param; [apply V|apply T]|intros d _]. make. apply gate_writing.
Qed.
Lemma gate_stop_power {Y} p : gate (Y:=Y) (fun it => stop_sending_instant_power it p).
Proof.
  unfold stop_sending_instant_power. eapply (gate_bind (param _ _)); [apply bad_param; [apply V|apply T]|intros d _]. make. apply gate_writing.
Qed.
Lemma gate_netinfo {Y} : gate (Y:=Y) (fun it => get_netinfo it).
Proof. unfold get_netinfo. apply (gate_then get_ip). unfold get_ip. apply gate_gateway. Qed.
Lemma gate_request_status {Y} d : gate (Y:=Y) (fun it => request_status it d).
Proof. unfold request_status. eapply gate_then. apply gate_collect, gate_dim. Qed.

Local Opaque send_normal_message send_status_request send_dimension_request send_dimension_writing send_command_without_where ask_gateway ask_energy.

Theorem gated it k Y A (x : io Y A) : runs it k Y A x ->
  exists f : item -> io Y A, x = f it /\ (forall it', runs it' k Y A (f it')) /\ gate f.
Proof.
  intros R. destruct R;
    match goal with |- exists f : item -> io ?Y ?A, ?x = f ?i /\ _ => let g := eval pattern i in x in match g with ?h i => exists h end end;
    (split; [reflexivity|]); (split; [intros it'; constructor; assumption|]);
    first [ apply gate_normal | apply gate_status | apply gate_dim | apply gate_writing | apply gate_camera
          | apply gate_speed | apply gate_step | apply gate_temporization | apply gate_brightness | apply gate_hsv | apply gate_white | apply gate_dial
          | apply gate_gateway | apply gate_netinfo | apply gate_set_time | apply gate_set_date | apply gate_set_datetime
          | apply gate_run_energy | apply gate_start_power | apply gate_stop_power | apply gate_request_status
          | apply gate_energy; first [apply bad_ok | unfold param; repeat first [apply bad_param; [apply V|apply T] | apply bad_bind; [|intros ? _]]]
          | idtac ].
Qed.

Local Transparent send_normal_message send_status_request send_dimension_request send_dimension_writing send_command_without_where ask_gateway ask_energy.
