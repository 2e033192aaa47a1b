(** * The exceptions of each method: each of them *)
From Coq Require Import String List NArith ZArith Bool Lia.
From Verif Require Import PyStr Tags Messages SpecMsg SpecTag MessageFacts MessageThms MessageThms2 TagThms IO HandshakeThms SpecItem Client Items ItemThms LightThms Lighting PyDate
  SpecGateway Gateway GatewayThms PyFloat Energy SpecEnergy EnergyThms EnergyThms2 SpecRaise RaiseThms RaiseThms2.
Import ListNotations.
Open Scope N_scope.
Open Scope list_scope.

Lemma heard_ack : heard MAck.
Proof. exists (lit "*#*1##"). reflexivity. Qed.
Lemma heard_nack : heard MNack.
Proof. exists (lit "*#*0##"). reflexivity. Qed.

Definition ends {Y A} (x : io Y A) (e : exn) : Prop := exists s, Forall arrives s /\ res_of (x s) = Err e.
Definition shut {Y A} (x : io Y A) : Prop := forall s, res_of (x s) = Err InvalidSession.

Lemma res_lift {Y A B} (a : A) (f : A -> io Y B) s : res_of (andthen (lift (Ok a)) f s) = res_of (f a s).
Proof. rewrite andthen_lift. destruct (f a s) as [[? ?] ?]. reflexivity. Qed.
Lemma res_sent {Y A B} (x : io Y A) (f : A -> io Y B) s es s' a : x s = (es, s', Ok a) -> res_of (andthen x f s) = res_of (f a s').
Proof. intros E. rewrite (andthen_ok _ _ _ _ _ _ E). destruct (f a s') as [[? ?] ?]. reflexivity. Qed.
Lemma res_fail {Y A B} (x : io Y A) (f : A -> io Y B) s e : res_of (x s) = Err e -> res_of (andthen x f s) = Err e.
Proof. unfold andthen. destruct (x s) as [[? ?] [?|?]]; cbn [res_of snd]; [discriminate|]. intros [= ->]. reflexivity. Qed.

Definition plain {Y A} (x : io Y A) : Prop := ends x TimeoutError /\ ends x ResponseError.

Lemma plain_lift {Y A B} (a : A) (f : A -> io Y B) r : r = Ok a -> plain (f a) -> plain (andthen (lift r) f).
Proof.
  intros -> [(s1 & F1 & E1) (s2 & F2 & E2)]. split; [exists s1|exists s2]; (split; [assumption|]); rewrite res_lift; assumption.
Qed.
Lemma shut_lift {Y A B} (a : A) (f : A -> io Y B) r : r = Ok a -> shut (f a) -> shut (andthen (lift r) f).
Proof. intros -> H s. rewrite res_lift. apply H. Qed.
Lemma ends_lift {Y A B} (f : A -> io Y B) r e : r = Err e -> ends (andthen (lift r) f) e.
Proof. intros ->. exists []. split; [constructor|reflexivity]. Qed.
Lemma ends_lift2 {Y A B} (a : A) (f : A -> io Y B) r e : r = Ok a -> ends (f a) e -> ends (andthen (lift r) f) e.
Proof. intros -> (s & F & E). exists s. split; [exact F|]. rewrite res_lift. exact E. Qed.
Lemma ends_raise {Y A} e : ends (Y:=Y) (A:=A) (raise e) e.
Proof. exists []. split; [constructor|reflexivity]. Qed.
Lemma plain_then {Y A B} (x : io Y A) (f : A -> io Y B) : plain x -> plain (andthen x f).
Proof. intros [(s1 & F1 & E1) (s2 & F2 & E2)]. split; [exists s1|exists s2]; (split; [assumption|]); apply res_fail; assumption. Qed.
Lemma shut_then {Y A B} (x : io Y A) (f : A -> io Y B) : shut x -> shut (andthen x f).
Proof. intros H s. apply res_fail, H. Qed.
Lemma plain_by {Y A} (x : io Y A) : res_of (x []) = Err TimeoutError -> res_of (x [Some MNack]) = Err ResponseError -> plain x.
Proof. intros E1 E2. split; [exists []; split; [constructor|exact E1]|exists [Some MNack]; split; [constructor; [exact heard_nack|constructor]|exact E2]]. Qed.

Section All.
Context {Y : Type} (it : item) (Hp : placed it).

Lemma shut_send {A} m (f : unit -> io Y A) : ~ ready it -> shut (andthen (item_send it m) f).
Proof. intros Hr s. apply res_fail. rewrite item_send_refused by exact Hr. reflexivity. Qed.
Lemma shut_normal w : ~ ready it -> tagtext w -> shut (send_normal_message (Y:=Y) it w).
Proof.
  intros Hr T. unfold send_normal_message. eapply shut_lift; [unfold create_normal_message; rewrite (proj2 (mk_ok w) T); reflexivity|]. apply shut_send, Hr.
Qed.
Lemma shut_status (body : msg -> res (list Y)) : ~ ready it -> shut (send_status_request it body).
Proof. intros Hr. apply shut_send, Hr. Qed.
Lemma shut_dim d (body : msg -> res (list Y)) : ~ ready it -> tagtext d -> shut (send_dimension_request it d body).
Proof. intros Hr T. eapply shut_lift; [rewrite (proj2 (mk_ok d) T); reflexivity|]. apply shut_send, Hr. Qed.
Lemma shut_writing d vs : ~ ready it -> tagtext d -> shut (send_dimension_writing (Y:=Y) it d vs).
Proof. intros Hr T. eapply shut_lift; [rewrite (proj2 (mk_ok d) T); reflexivity|]. apply shut_send, Hr. Qed.
Lemma shut_camera w : ~ ready it -> shut (send_command_without_where (Y:=Y) it w).
Proof. intros Hr. apply shut_send, Hr. Qed.

Lemma plain_ask m b : ready it -> msg_bytes m = Ok b -> plain (let* _ := item_send it m in let* r := item_read it in check_ack r : io Y unit).
Proof.
  intros Hr Hb. apply plain_by; erewrite res_sent by (apply item_send_ok; eassumption); cbn beta;
    unfold item_read, client_read; rewrite (proj2 Hr); reflexivity.
Qed.
Lemma plain_normal w : ready it -> tagtext w -> plain (send_normal_message (Y:=Y) it w).
Proof.
  intros Hr T. unfold send_normal_message. eapply plain_lift; [unfold create_normal_message; rewrite (proj2 (mk_ok w) T); reflexivity|].
  eapply plain_ask; [exact Hr|]. apply cmd_bytes; assumption.
Qed.
Lemma plain_writing d v vs : ready it -> tagtext d -> Forall tagtext (v :: vs) -> plain (send_dimension_writing (Y:=Y) it d (v :: vs)).
Proof.
  intros Hr T F. unfold send_dimension_writing. eapply plain_lift; [rewrite (proj2 (mk_ok d) T); reflexivity|].
  eapply plain_ask; [exact Hr|]. apply dimwri_bytes; assumption.
Qed.
Lemma plain_camera w : ready it -> tagtext w -> plain (send_command_without_where (Y:=Y) it w).
Proof.
  intros Hr T. destruct (bytes_ok (MGeneric [who_str (it_who it); w])) as [E _].
  - split; [|intros l [= <-]; discriminate]. apply Forall_cons; [|apply Forall_cons; [exact T|apply Forall_nil]].
    apply (proj1 (mk_ok _)). destruct (it_who it); reflexivity.
  - eapply plain_ask; [exact Hr|exact E].
Qed.
Lemma res_status (body : msg -> res (list Y)) s : ready it -> res_of (send_status_request it body s) = res_of (replies is_normal body s).
Proof.
  intros Hr. unfold send_status_request. erewrite res_sent by (apply item_send_ok; [exact Hr|apply status_bytes, Hp]).
  unfold reply_loop. rewrite (proj2 Hr). reflexivity.
Qed.
Lemma res_dim d (body : msg -> res (list Y)) s : ready it -> tagtext d -> res_of (send_dimension_request it d body s) = res_of (replies is_dimres body s).
Proof.
  intros Hr T. unfold send_dimension_request. rewrite (proj2 (mk_ok d) T), res_lift.
  erewrite res_sent by (apply item_send_ok; [exact Hr|apply dimreq_bytes; [exact Hp|exact T]]).
  unfold reply_loop. rewrite (proj2 Hr). reflexivity.
Qed.
Lemma plain_status (body : msg -> res (list Y)) : ready it -> plain (send_status_request it body).
Proof. intros Hr. apply plain_by; rewrite res_status by exact Hr; reflexivity. Qed.
Lemma plain_dim d (body : msg -> res (list Y)) : ready it -> tagtext d -> plain (send_dimension_request it d body).
Proof. intros Hr T. apply plain_by; rewrite res_dim by assumption; reflexivity. Qed.
Lemma ends_status (body : msg -> res (list Y)) text w a b e : ready it -> parse_message (lit text) = Ok (MNormal w a b) -> body (MNormal w a b) = Err e ->
  ends (send_status_request it body) e.
Proof.
  intros Hr P B. exists [Some (MNormal w a b)]. split; [constructor; [exists (lit text); exact P|constructor]|].
  rewrite res_status by exact Hr. cbn. rewrite B. reflexivity.
Qed.
Lemma ends_dim d (body : msg -> res (list Y)) text w a b vs e : ready it -> tagtext d -> parse_message (lit text) = Ok (MDimRes w a b vs) ->
  body (MDimRes w a b vs) = Err e -> ends (send_dimension_request it d body) e.
Proof.
  intros Hr T P B. exists [Some (MDimRes w a b vs)]. split; [constructor; [exists (lit text); exact P|constructor]|].
  rewrite res_dim by assumption. cbn. rewrite B. reflexivity.
Qed.
End All.

Lemma res_collect {Y Z B} (g : io Y unit) (f : list Y -> io Z B) e s : res_of (g s) = Err e -> res_of (andthen (collect g) f s) = Err e.
Proof. intros E. apply res_fail. unfold collect. destruct (g s) as [[? ?] r]. cbn [res_of snd] in *. rewrite E. reflexivity. Qed.
Lemma plain_collect {Y Z B} (g : io Y unit) (f : list Y -> io Z B) : plain g -> plain (andthen (collect g) f).
Proof. intros [(s1 & F1 & E1) (s2 & F2 & E2)]. split; [exists s1|exists s2]; (split; [assumption|]); apply res_collect; assumption. Qed.
Lemma shut_collect {Y Z B} (g : io Y unit) (f : list Y -> io Z B) : shut g -> shut (andthen (collect g) f).
Proof. intros H s. apply res_collect, H. Qed.

Lemma plain_gateway {Y A} it w (decode : list str -> res A) : placed it -> ready it -> plain (ask_gateway (Y:=Y) it w decode).
Proof. intros Hp Hr. unfold ask_gateway. apply plain_then. apply plain_collect, plain_dim; [exact Hp|exact Hr|apply wg_tag]. Qed.
Lemma shut_gateway {Y A} it w (decode : list str -> res A) : ~ ready it -> shut (ask_gateway (Y:=Y) it w decode).
Proof. intros Hr. unfold ask_gateway. apply shut_then. apply shut_collect, shut_dim; [exact Hr|apply wg_tag]. Qed.
Lemma plain_energy {Y A} it dim d (decode : list str -> res A) : placed it -> ready it -> dim = Ok d -> tagtext d -> plain (ask_energy (Y:=Y) it dim decode).
Proof. intros Hp Hr -> T. unfold ask_energy. eapply plain_lift; [reflexivity|]. apply plain_then. apply plain_collect, plain_dim; assumption. Qed.
Lemma shut_energy {Y A} it dim d (decode : list str -> res A) : ~ ready it -> dim = Ok d -> tagtext d -> shut (ask_energy (Y:=Y) it dim decode).
Proof. intros Hr -> T. unfold ask_energy. eapply shut_lift; [reflexivity|]. apply shut_then. apply shut_collect, shut_dim; assumption. Qed.

Lemma ends_gateway {Y A} it w (decode : list str -> res A) text wh b d vs e : placed it -> ready it -> parse_message (lit text) = Ok (MDimRes wh b d vs) ->
  decode vs = Err e -> ends (ask_gateway (Y:=Y) it w decode) e.
Proof.
  intros Hp Hr P D. exists [Some (MDimRes wh b d vs); Some MAck].
  split; [constructor; [exists (lit text); exact P|constructor; [exact heard_ack|constructor]]|].
  destruct (ask_ok (Y:=Y) it w decode wh b d vs [] [] Hr Hp (Forall_nil _)) as (es & E & _). cbn [map app] in E. rewrite E. exact D.
Qed.
Lemma ends_energy {Y A} it dim d' (decode : list str -> res A) text wh b d vs e : placed it -> ready it -> dim = Ok d' -> tagtext d' ->
  parse_message (lit text) = Ok (MDimRes wh b d vs) -> decode vs = Err e -> ends (ask_energy (Y:=Y) it dim decode) e.
Proof.
  intros Hp Hr -> T P D. exists [Some (MDimRes wh b d vs); Some MAck].
  split; [constructor; [exists (lit text); exact P|constructor; [exact heard_ack|constructor]]|].
  destruct (single_ok (Y:=Y) it d' (MDimRes wh b d vs) [] [] Hr Hp T ltac:(unfold dimres; eauto 6) (Forall_nil _)) as (es & E & _).
  cbn [map app] in E. unfold ask_energy. rewrite res_lift. erewrite res_sent by exact E. cbn [get_values bind]. exact D.
Qed.

(** A number of 4301 digits. *)
Definition huge : Z := (10 ^ 4300)%Z.
Lemma huge_str : py_str_int huge = Err ValueError.
Proof. vm_compute. reflexivity. Qed.
Lemma huge_make : tag_make (AInt huge) = Err ValueError.
Proof. unfold tag_make, py_str. rewrite huge_str. reflexivity. Qed.
Lemma huge_param s : with_parameter s (AInt huge) = Err ValueError.
Proof. unfold with_parameter, py_str. rewrite huge_str. reflexivity. Qed.
