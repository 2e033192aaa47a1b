(** * Frames written by the methods of items *)
From Coq Require Import String List NArith ZArith Bool Lia.
From Verif Require Import PyStr Tags Messages MessageFacts SpecMsg MessageThms MessageThms2 SpecTag TagThms MessageThms3
  IO Client SpecClient HandshakeThms Items SpecItem ItemThms Lighting LightThms PyDate Gateway GatewayThms PyFloat Energy
  SpecEnergy EnergyThms2 SpecFrames.
Import ListNotations.
Open Scope N_scope.
Open Scope list_scope.

(** Everything [x] writes is the text of a message of [P]. *)
Definition writes {Y A} (P : msg -> Prop) (x : io Y A) : Prop :=
  forall s b, In b (sents (evs_of (x s))) -> exists m, P m /\ msg_bytes m = Ok b.

Section closure.
Variable P : msg -> Prop.

Lemma writes_lift {Y A} (r : res A) : writes P (lift (Y:=Y) r).
Proof. intros s b []. Qed.
Lemma writes_raise {Y A} e : writes P (raise (Y:=Y) (A:=A) e).
Proof. intros s b []. Qed.
Lemma writes_ret {Y A} (a : A) : writes P (ret (Y:=Y) a).
Proof. intros s b []. Qed.

Lemma writes_andthen {Y A B} (x : io Y A) (f : A -> io Y B) :
  writes P x -> (forall a, writes P (f a)) -> writes P (andthen x f).
Proof.
  intros Hx Hf s b. unfold andthen. specialize (Hx s). destruct (x s) as [[es s'] [a|e]].
  - specialize (Hf a s'). destruct (f a s') as [[es' s''] r]. cbn in *. rewrite sents_app. intros H.
    apply in_app_or in H as [H|H]; auto.
  - cbn in *. apply Hx.
Qed.

Lemma writes_lift_then {Y A B} (r : res A) (f : A -> io Y B) :
  (forall a, r = Ok a -> writes P (f a)) -> writes P (andthen (lift r) f).
Proof.
  intros Hf s b. unfold andthen, lift. destruct r as [a|e]; [|intros []].
  specialize (Hf a eq_refl s). destruct (f a s) as [[es' s''] r]. cbn in *. apply Hf.
Qed.

Lemma writes_send {Y} it m : P m -> writes P (item_send (Y:=Y) it m).
Proof.
  intros H s b. unfold item_send, client_send. destruct (_ && _); [intros []|]. destruct (negb _); [intros []|].
  unfold andthen, lift, put. destruct (msg_bytes m) as [c|e] eqn:E; [|intros []]. cbn. intros [<-|[]]. eauto.
Qed.

Lemma writes_read {Y} it : writes P (item_read (Y:=Y) it).
Proof.
  intros s b. unfold item_read, client_read. destruct (negb _); [intros []|]. unfold take.
  destruct s as [|[m|] s]; intros [].
Qed.

Lemma writes_ack {Y} m : writes P (check_ack (Y:=Y) m).
Proof. unfold check_ack. destruct (negb _); [apply writes_raise|apply writes_ret]. Qed.

Lemma sents_yielded {Y} (ys : list Y) : sents (map Yielded ys) = [].
Proof. induction ys; cbn; auto. Qed.

Lemma writes_loop {Y} it keep (body : msg -> res (list Y)) : writes P (reply_loop it keep body).
Proof.
  intros s b. unfold reply_loop. destruct (negb _); [intros []|].
  assert (H : sents (evs_of (replies keep body s)) = []).
  { induction s as [|[m|] s IH]; try reflexivity. cbn [replies].
    destruct (mtype_eqb _ _); [reflexivity|]. destruct (mtype_eqb _ _); [reflexivity|].
    destruct (negb (keep m)); [reflexivity|]. destruct (body m) as [ys|e]; [|reflexivity].
    destruct (replies keep body s) as [[es s''] r]. cbn in *. rewrite sents_app, sents_yielded. exact IH. }
  rewrite H. intros [].
Qed.

Lemma sents_drop {Y Z} (l : list (ev Y)) : sents (drop_yields (Z:=Z) l) = sents l.
Proof. induction l as [|[] l IH]; cbn; congruence. Qed.

Lemma writes_collect {Y Z} (g : io Y unit) : writes P g -> writes P (collect (Z:=Z) g).
Proof.
  intros H s b. unfold collect. specialize (H s b). destruct (g s) as [[es s'] r]. cbn in *. rewrite sents_drop. exact H.
Qed.

Lemma writes_normal {Y} it what :
  (forall w, mk what = Ok w -> P (MNormal (it_who it) w (it_where it))) -> writes P (send_normal_message (Y:=Y) it what).
Proof.
  intros H. unfold send_normal_message. apply writes_lift_then. unfold create_normal_message. intros m Hm.
  destruct (mk what) as [w|e] eqn:E; [|discriminate]. cbn [bind] in Hm. injection Hm as <-.
  apply writes_andthen; [apply writes_send, H; reflexivity|]. intros _.
  apply writes_andthen; [apply writes_read|intros; apply writes_ack].
Qed.

Lemma writes_status {Y} it (body : msg -> res (list Y)) :
  P (MStatus (it_who it) (it_where it)) -> writes P (send_status_request it body).
Proof.
  intros H. apply writes_andthen; [apply writes_send, H|intros _; apply writes_loop].
Qed.

Lemma writes_request {Y} it dim (body : msg -> res (list Y)) :
  (forall d, mk dim = Ok d -> P (MDimReq (it_who it) (it_where it) d)) -> writes P (send_dimension_request it dim body).
Proof.
  intros H. apply writes_lift_then. intros d Hd. apply writes_andthen; [apply writes_send, H, Hd|intros _; apply writes_loop].
Qed.

Lemma writes_writing {Y} it dim args :
  (forall d, mk dim = Ok d -> P (MDimWri (it_who it) (it_where it) d args)) ->
  writes P (send_dimension_writing (Y:=Y) it dim args).
Proof.
  intros H. apply writes_lift_then. intros d Hd. apply writes_andthen; [apply writes_send, H, Hd|]. intros _.
  apply writes_andthen; [apply writes_read|intros; apply writes_ack].
Qed.

Lemma writes_single {Y} it dim :
  (forall d, mk dim = Ok d -> P (MDimReq (it_who it) (it_where it) d)) -> writes P (single_dim_req (Y:=Y) it dim).
Proof.
  intros H. apply writes_andthen; [apply writes_collect, writes_request, H|].
  intros [|m l]; [apply writes_raise|]. destruct (is_dimres m); [apply writes_ret|apply writes_raise].
Qed.

Lemma writes_camera {Y} it what :
  P (MGeneric [who_str (it_who it); what]) -> writes P (send_command_without_where (Y:=Y) it what).
Proof.
  intros H. apply writes_andthen; [apply writes_send, H|]. intros _.
  apply writes_andthen; [apply writes_read|intros; apply writes_ack].
Qed.

Lemma writes_if {Y A} (c : bool) (x y : io Y A) : (c = true -> writes P x) -> (c = false -> writes P y) -> writes P (if c then x else y).
Proof. destruct c; auto. Qed.
End closure.

(** ** Tags that can travel *)

Lemma digits_wire t : digits t -> wiretag t.
Proof.
  intros D. split; [apply digits_tag, D|]. intros (u & v & ->). apply Forall_app in D as [_ D].
  inversion D as [|? ? H _]; subst. unfold digitchar in H. lia.
Qed.

(** The last character is a digit. *)
Definition closed (t : str) : Prop := exists u c, t = u ++ [c] /\ digitchar c.

Lemma digits_closed t : digits t -> t <> [] -> closed t.
Proof.
  intros D N. destruct (exists_last N) as (u & c & ->). exists u, c. split; [reflexivity|].
  apply Forall_app in D as [_ D]. inversion D; assumption.
Qed.

Lemma closed_not35 u : ~ closed (u ++ [35]).
Proof. intros (u' & c & E & D). apply app_inj_tail in E as [_ <-]. unfold digitchar in D. lia. Qed.

Lemma wire_param a b : wiretag a -> closed a -> digits b -> b <> [] -> wiretag (a ++ 35 :: b) /\ closed (a ++ 35 :: b).
Proof.
  intros [Ta Ha] Ca Db Nb. split; [split|].
  - apply hash_tag; [exact Ta|apply digits_tag, Db].
  - intros (u & v & E). cbn [app] in E.
    assert (N35 : ~ In 35 b) by (exact (digits_nohash' _ Db)).
    apply app_eq_app in E as (l & [[-> E]|[-> E]]).
    + destruct l as [|x [|y l]]; cbn [app] in E.
      * injection E as E. apply N35. rewrite <- E. left. reflexivity.
      * injection E as <- _. exact (closed_not35 _ Ca).
      * injection E as <- <- _. apply Ha. exists u, l. reflexivity.
    + destruct l as [|x l]; cbn [app] in E.
      * injection E as E. apply N35. rewrite E. left. reflexivity.
      * injection E as _ E. apply N35. rewrite E. apply in_or_app. right. left. reflexivity.
  - destruct (digits_closed b Db Nb) as (u & c & -> & D). exists (a ++ 35 :: u), c. split; [|exact D].
    rewrite <- app_assoc. reflexivity.
Qed.

Lemma str_int_digits z t : py_str_int z = Ok t -> tagtext t -> digits t /\ t <> [].
Proof.
  unfold py_str_int. destruct (_ <? _); [discriminate|]. destruct (z <? 0)%Z.
  - intros [= <-] H. exfalso. inversion H as [|? ? [H1|H1] _]; subst.
    + unfold digitchar, c_minus in H1. lia.
    + discriminate H1.
  - intros [= <-] _. split; [apply LightThms2.digits_all, dec_digits|].
    destruct (proj2 (numeral_dec (Z.abs_N z) _) eq_refl) as (_ & N & _). exact N.
Qed.

Lemma with_wire s z r : wiretag s -> closed s -> with_parameter s (AInt z) = Ok r -> wiretag r /\ closed r.
Proof.
  intros W C. unfold with_parameter. cbn [py_str]. destruct (py_str_int z) as [t|e] eqn:E; [|discriminate].
  cbn [bind]. intros H. destruct (mk_cases (s ++ [c_hash] ++ t)) as [[M T]|[M _]]; unfold mk in M; rewrite M in H; [|discriminate].
  injection H as <-. cbn [app] in *. change c_hash with 35 in *.
  apply Forall_app in T as [_ T]. inversion T as [|? ? _ T1]; subst.
  destruct (str_int_digits _ _ E T1) as [D N]. apply wire_param; assumption.
Qed.

Lemma param_hash s z r : with_parameter s (AInt z) = Ok r -> exists t, r = s ++ 35 :: t.
Proof.
  unfold with_parameter. cbn [py_str]. destruct (py_str_int z) as [t|e] eqn:E; [|discriminate]. cbn [bind].
  intros H. destruct (mk_cases (s ++ [c_hash] ++ t)) as [[M T]|[M _]]; unfold mk in M; rewrite M in H; [|discriminate].
  injection H as <-. exists t. reflexivity.
Qed.

Lemma mk_inv t r : mk t = Ok r -> r = t /\ tagtext t.
Proof. intros H. destruct (mk_cases t) as [[M T]|[M _]]; rewrite M in H; [|discriminate]. injection H as <-. auto. Qed.

Lemma arg_wire a r : plain_arg a -> tag_make a = Ok r -> wiretag r.
Proof.
  intros H E. destruct a as [s|z|b].
  - apply mk_inv in E as [-> _]. exact H.
  - apply tag_int in E as (_ & (D & _) & _). apply digits_wire, D.
  - rewrite tag_bool in E. discriminate.
Qed.

Lemma int_wire z r : tag_make (AInt z) = Ok r -> wiretag r.
Proof. intros H. exact (arg_wire (AInt z) r I H). Qed.

Lemma de_digits d : digits (de_str d) /\ de_str d <> [].
Proof. split; [apply LightThms2.digits_all; destruct d; reflexivity|destruct d; discriminate]. Qed.
Lemma we_digits w : digits (we_str w) /\ we_str w <> [].
Proof. split; [apply LightThms2.digits_all; destruct w; reflexivity|destruct w; discriminate]. Qed.
Lemma wg_digits w : digits (wg_str w).
Proof. apply LightThms2.digits_all; destruct w; reflexivity. Qed.

Lemma what_wire c w : energy_what c = Ok w -> wiretag w.
Proof.
  assert (B : forall k, wiretag (we_str k) /\ closed (we_str k)).
  { intros k. destruct (we_digits k) as [D N]. split; [apply digits_wire, D|apply digits_closed; assumption]. }
  assert (P : forall k z r, param (we_str k) z = Ok r -> wiretag r /\ closed r).
  { intros k z r. apply with_wire; apply B. }
  destruct c as [day month n1 n2|month n|month n|month n| |[t|]| |n| |]; cbn [energy_what];
    try (intros [= <-]; apply B); try (intros H; exact (proj1 (P _ _ _ H))).
  intros H. destruct (param _ _) as [x|e] eqn:E; [|discriminate]. cbn [bind] in H.
  apply P in E as [W C]. exact (proj1 (with_wire _ _ _ W C H)).
Qed.

(** ** All methods *)

(** What a method that means messages of kind [k] may write. *)
Definition good (it : item) (k : mtype) (m : msg) : Prop := addressed it m /\ msg_type m = k /\ wellformed m.

Section methods.
Variable it : item.
Hypothesis Hw : wiretag (it_where it).

Lemma good_normal a : wiretag a -> good it T_NORMAL (MNormal (it_who it) a (it_where it)).
Proof. intros H. split; [constructor|]. split; [reflexivity|]. split; [|exact I]. cbn. auto. Qed.
Lemma good_status : good it T_STATUS (MStatus (it_who it) (it_where it)).
Proof. split; [constructor|]. split; [reflexivity|]. split; [|exact I]. cbn. auto. Qed.
Lemma good_request d : digits d -> good it T_DIMREQ (MDimReq (it_who it) (it_where it) d).
Proof. intros H. split; [constructor|]. split; [reflexivity|]. split; [|exact H]. cbn. auto using digits_wire. Qed.
Lemma good_write d vs : digits d -> Forall wiretag vs -> vs <> [] -> good it T_DIMWRI (MDimWri (it_who it) (it_where it) d vs).
Proof. intros H V N. split; [constructor|]. split; [reflexivity|]. split; [|exact (conj H N)]. cbn. auto using digits_wire. Qed.
Lemma who_digits w : digits (who_str w).
Proof. apply LightThms2.digits_all. destruct w; reflexivity. Qed.
Lemma good_camera a : digits a -> good it T_GENERIC (MGeneric [who_str (it_who it); a]).
Proof.
  intros H. pose proof (who_digits (it_who it)) as D. split; [constructor|]. split; [reflexivity|]. split.
  - cbn. auto using digits_wire.
  - split; [discriminate|]. apply K_generic2.
    + intros (x & E & _). rewrite E in D. inversion D as [|? ? H1 _]; subst. unfold digitchar in H1. lia.
    + intros [E _]. rewrite E in D. inversion D as [|? ? H1 _]; subst. unfold digitchar in H1. lia.
Qed.

Lemma w_normal {Y} what : wiretag what -> writes (good it T_NORMAL) (send_normal_message (Y:=Y) it what).
Proof. intros H. apply writes_normal. intros w E. apply mk_inv in E as [-> _]. apply good_normal, H. Qed.
Lemma w_status {Y} (body : msg -> res (list Y)) : writes (good it T_STATUS) (send_status_request it body).
Proof. apply writes_status, good_status. Qed.
Lemma w_request {Y} dim (body : msg -> res (list Y)) : digits dim -> writes (good it T_DIMREQ) (send_dimension_request it dim body).
Proof. intros H. apply writes_request. intros w E. apply mk_inv in E as [-> _]. apply good_request, H. Qed.
Lemma w_write {Y} dim args : digits dim -> Forall wiretag args -> args <> [] ->
  writes (good it T_DIMWRI) (send_dimension_writing (Y:=Y) it dim args).
Proof. intros H A N. apply writes_writing. intros w E. apply mk_inv in E as [-> _]. apply good_write; assumption. Qed.
Lemma w_camera {Y} what : digits what -> writes (good it T_GENERIC) (send_command_without_where (Y:=Y) it what).
Proof. intros H. apply writes_camera, good_camera, H. Qed.
Lemma w_single {Y} dim : digits dim -> writes (good it T_DIMREQ) (single_dim_req (Y:=Y) it dim).
Proof. intros H. apply writes_single. intros w E. apply mk_inv in E as [-> _]. apply good_request, H. Qed.
Lemma w_gateway {Y A} w (decode : list str -> res A) : writes (good it T_DIMREQ) (ask_gateway (Y:=Y) it w decode).
Proof. apply writes_andthen; [apply w_single, wg_digits|intros; apply writes_lift]. Qed.
Lemma w_energy {Y A} d (decode : list str -> res A) : writes (good it T_DIMREQ) (ask_energy (Y:=Y) it (Ok (de_str d)) decode).
Proof.
  apply writes_lift_then. intros x [= <-]. apply writes_andthen; [apply w_single, de_digits|intros; apply writes_lift].
Qed.
Lemma w_enum {Y} w p (f : str -> io Y unit) k :
  writes (good it k) (andthen (lift (enum_with_parameter what_light_values w p)) f).
Proof. apply writes_lift_then. intros a H. rewrite enum_param_fails in H. discriminate. Qed.

Lemma lit_digits s : all_digits (lit s) = true -> digits (lit s).
Proof. apply LightThms2.digits_all. Qed.

Ltac dig := apply LightThms2.digits_all; reflexivity.
Ltac ifs := repeat (apply writes_if; intros ?; [try apply writes_raise|try apply writes_raise]).

Lemma w_speed {Y} what v : digits what -> writes (good it T_NORMAL) (dimmer_speed (Y:=Y) it what v).
Proof.
  intros D. destruct v as [v|]; cbn [dimmer_speed]; [|apply w_normal, digits_wire, D].
  ifs. apply w_enum.
Qed.
Lemma w_step {Y} what v w : digits what -> writes (good it T_NORMAL) (dimmer_step (Y:=Y) it what v w).
Proof.
  intros D. unfold dimmer_step. apply writes_if; intros _; [apply writes_raise|].
  destruct v as [v|]; [apply w_enum|]. apply writes_lift_then. intros a [= <-].
  destruct w as [w|]; [apply w_enum|]. apply writes_lift_then. intros a [= <-]. apply w_normal, digits_wire, D.
Qed.

Lemma fmt_wire k z : wiretag (fmt k z).
Proof. apply digits_wire, fmt_digits. Qed.
Lemma mk_fmt_wire k z r : mk (fmt k z) = Ok r -> wiretag r.
Proof. intros H. apply mk_inv in H as [-> _]. apply fmt_wire. Qed.
Lemma tz_wire t r : tz_to_own_tz t = Ok r -> wiretag r.
Proof.
  destruct t as [| |us]; try discriminate. cbn [tz_to_own_tz]. intros H. apply mk_inv in H as [-> _]. apply digits_wire.
  apply Forall_app. split; [destruct (_ <=? _)%Z; dig|apply fmt_digits].
Qed.

Lemma dial_digits x y r : dial_get x y = Ok r -> digits r.
Proof.
  unfold dial_get. destruct (find _ dial_map) as [p|] eqn:E; [|discriminate]. intros [= <-].
  apply find_some in E as [E _].
  assert (H : Forall (fun q => digits (snd q)) dial_map).
  { repeat (apply Forall_cons; [dig|]). apply Forall_nil. }
  rewrite Forall_forall in H. exact (H _ E).
Qed.

Ltac values := repeat (apply Forall_cons; [first [eapply mk_fmt_wire; eassumption | eapply int_wire; eassumption
   | eapply tz_wire; eassumption | eapply arg_wire; eassumption | assumption]|]); apply Forall_nil.
Ltac lifts := repeat (match goal with |- writes _ (andthen (lift _) _) => apply writes_lift_then; intros ? ? end).

Theorem method_writes Y A (x : io Y A) k : method it Y A x k -> writes (good it k) x.
Proof.
  intros M. destruct M.
  - apply w_normal. assumption.
  - apply w_status.
  - apply w_request. assumption.
  - apply w_write; assumption.
  - apply w_normal, digits_wire. destruct c; dig.
  - apply w_normal, digits_wire. destruct c; dig.
  - apply w_normal, digits_wire. destruct c; dig.
  - apply w_speed. dig.
  - apply w_speed. dig.
  - apply w_step. dig.
  - apply w_step. dig.
  - unfold temporization_command. ifs. lifts. apply w_write; [dig|values|discriminate].
  - unfold set_brightness_with_speed. lifts. apply w_write; [dig| |discriminate].
    apply Forall_cons; [eapply (arg_wire b); eassumption|]. apply Forall_cons; [eapply (arg_wire v); eassumption|]. apply Forall_nil.
  - unfold set_hsv. ifs. lifts. apply w_write; [dig|values|discriminate].
  - unfold set_white_temperature. ifs. lifts. apply w_write; [dig|values|discriminate].
  - apply w_status.
  - apply w_status.
  - apply w_request. dig.
  - apply w_request. dig.
  - apply w_request. dig.
  - apply w_request. dig.
  - apply w_request. dig.
  - apply w_normal, digits_wire. destruct c; dig.
  - apply w_status.
  - apply w_normal, digits_wire. dig.
  - apply w_camera. destruct c; dig.
  - unfold display_dial. ifs. lifts. apply w_camera. eapply dial_digits. eassumption.
  - apply w_gateway.
  - apply w_gateway.
  - apply w_gateway.
  - apply w_gateway.
  - apply w_gateway.
  - unfold get_netinfo. apply writes_andthen; [apply w_gateway|]. intros ip.
    apply writes_andthen; [apply w_gateway|intros; apply writes_lift].
  - apply w_gateway.
  - apply w_gateway.
  - apply w_gateway.
  - apply w_gateway.
  - apply w_gateway.
  - apply w_gateway.
  - unfold set_time. lifts. apply w_write; [apply wg_digits|values|discriminate].
  - destruct dt as [[y mo] d]. unfold set_date. lifts.
    match goal with H : (if ?c then _ else _) = Ok ?a |- _ => assert (wiretag a) end.
    { match goal with H : (if ?c then _ else _) = Ok ?a |- _ => destruct c end; [|eapply mk_fmt_wire; eassumption].
      match goal with H : mk (lit _) = Ok _ |- _ => apply mk_inv in H as [-> _] end. apply digits_wire. dig. }
    apply w_write; [apply wg_digits|values|discriminate].
  - destruct dt as [[y mo] d]. unfold set_datetime. lifts. apply w_write; [apply wg_digits|values|discriminate].
  - unfold run_energy. lifts. apply w_normal. eapply what_wire. eassumption.
  - apply w_energy.
  - apply w_energy.
  - apply w_energy.
  - apply w_energy.
  - apply w_energy.
  - apply w_energy.
  - unfold request_status. apply writes_andthen; [|intros; apply writes_lift].
    apply writes_collect, w_request, de_digits.
Qed.

(** ** The methods with parameterised dimensions *)

Definition holed (k : mtype) (m : msg) : Prop :=
  addressed it m /\ msg_type m = k /\ built m /\
  exists d p, (m = MDimReq (it_who it) (it_where it) (d ++ 35 :: p) \/
               exists vs, m = MDimWri (it_who it) (it_where it) (d ++ 35 :: p) vs).

Lemma holed_request d p : tagtext (d ++ 35 :: p) -> holed T_DIMREQ (MDimReq (it_who it) (it_where it) (d ++ 35 :: p)).
Proof.
  intros H. split; [constructor|]. split; [reflexivity|]. split; [|eauto].
  split; [|discriminate]. cbn. apply Forall_cons; [apply Hw|]. apply Forall_cons; [exact H|apply Forall_nil].
Qed.
Lemma holed_write d p v : tagtext (d ++ 35 :: p) -> tagtext v -> holed T_DIMWRI (MDimWri (it_who it) (it_where it) (d ++ 35 :: p) [v]).
Proof.
  intros H V. split; [constructor|]. split; [reflexivity|]. split; [|eauto].
  split; [|discriminate]. cbn. apply Forall_cons; [apply Hw|]. apply Forall_cons; [exact H|]. auto.
Qed.

Theorem parameterised_writes Y A (x : io Y A) k : parameterised it Y A x k -> writes (holed k) x.
Proof.
  intros M.
  assert (T : forall z v, tag_make (AInt z) = Ok v -> tagtext v) by (intros z v H; apply int_wire in H as [H _]; exact H).
  destruct M.
  - unfold start_sending_instant_power. lifts. apply param_hash in H as (q & ->).
    apply writes_writing. intros d E. apply mk_inv in E as [-> E]. apply holed_write; [exact E|eauto].
  - unfold stop_sending_instant_power. lifts. apply param_hash in H as (q & ->).
    apply writes_writing. intros d E. apply mk_inv in E as [-> E]. apply holed_write; [exact E|eauto].
  - unfold get_energy_unit_per_month, ask_energy. apply writes_lift_then. intros d H.
    destruct (param _ _) as [w|e]; [|discriminate]. cbn [bind] in H. apply param_hash in H as (q & ->).
    apply writes_andthen; [|intros; apply writes_lift].
    apply writes_single. intros d E. apply mk_inv in E as [-> E]. apply holed_request, E.
  - unfold get_totalizers, ask_energy. apply writes_lift_then. intros d H. apply param_hash in H as (q & ->).
    apply writes_andthen; [|intros; apply writes_lift].
    apply writes_single. intros d E. apply mk_inv in E as [-> E]. apply holed_request, E.
Qed.

Lemma wf_built m : wellformed m -> built m.
Proof.
  intros [F H]. split.
  - eapply Forall_impl; [|exact F]. intros t [T _]. exact T.
  - intros l ->. apply H.
Qed.

Theorem method_frames Y A (x : io Y A) k s b :
  method it Y A x k -> In b (sents (evs_of (x s))) ->
  exists m, addressed it m /\ msg_type m = k /\ b = msg_str m /\ parse_message b = Ok m.
Proof.
  intros M H. destruct (method_writes _ _ _ _ M s b H) as (m & (Ha & Ht & Hf) & E).
  exists m. split; [exact Ha|]. split; [exact Ht|].
  destruct (bytes_ok m (wf_built m Hf)) as [Hb _]. assert (b = msg_str m) as -> by congruence.
  split; [reflexivity|]. apply print_parse, Hf.
Qed.

Theorem parameterised_frames Y A (x : io Y A) k s b :
  parameterised it Y A x k -> In b (sents (evs_of (x s))) ->
  exists m, addressed it m /\ msg_type m = k /\ b = msg_str m /\ parse_message b <> Ok m.
Proof.
  intros M H. destruct (parameterised_writes _ _ _ _ M s b H) as (m & (Ha & Ht & Hb & d & p & Hm) & E).
  exists m. split; [exact Ha|]. split; [exact Ht|].
  destruct (bytes_ok m Hb) as [Hs _]. assert (b = msg_str m) as -> by congruence. split; [reflexivity|].
  intros P. apply (print_parse_iff m Hb) in P as [_ P].
  destruct Hm as [->|[vs ->]]; [|destruct P as [P _]]; exact (not_digits_hash _ _ P).
Qed.

(** Text with "##" as brightness or speed. *)
Theorem brightness_frames Y (t u : str) (s : script) b :
  has_hh t \/ has_hh u -> In b (sents (evs_of ((set_brightness_with_speed it (AStr t) (AStr u) : io Y unit) s))) ->
  exists m, addressed it m /\ b = msg_str m /\ parse_message b <> Ok m.
Proof.
  intros Hh H.
  set (m := MDimWri (it_who it) (it_where it) (lit "1") [t; u]).
  assert (W : writes (fun m' => m' = m /\ tagtext t /\ tagtext u) (set_brightness_with_speed (Y:=Y) it (AStr t) (AStr u))).
  { unfold set_brightness_with_speed. lifts. apply mk_inv in H0 as [-> Tt]. apply mk_inv in H1 as [-> Tu].
    apply writes_writing. intros d E. apply mk_inv in E as [-> _]. auto. }
  destruct (W s b H) as (m' & (-> & Tt & Tu) & E).
  assert (B : built m).
  { split; [|discriminate]. cbn. apply Forall_cons; [apply Hw|]. apply Forall_cons; [apply digits_tag; dig|]. auto. }
  exists m. split; [constructor|]. destruct (bytes_ok m B) as [Hs _]. assert (b = msg_str m) as -> by congruence.
  split; [reflexivity|]. intros P. apply (print_parse_iff m B) in P as [F _]. cbn in F.
  inversion F as [|? ? _ F1]; subst. inversion F1 as [|? ? _ F2]; subst. inversion F2 as [|? ? W1 F3]; subst.
  inversion F3 as [|? ? W2 _]; subst. destruct Hh as [Hh|Hh]; [apply W1|apply W2]; exact Hh.
Qed.
End methods.
