(** * Commands and requests, against every reply stream *)
From Coq Require Import String List NArith ZArith Bool Lia.
From Verif Require Import PyStr Tags Messages MessageFacts SpecMsg SpecTag MessageThms MessageThms2 IO Client SpecItem Items HandshakeThms.
Import ListNotations.
Open Scope N_scope.
Open Scope list_scope.

(** The item's client can send: a command session that is connected. *)
Definition ready (it : item) : Prop := cl_session (it_client it) <> Event /\ cl_proto (it_client it) = true.
(** The WHERE was made by the tag constructor. *)
Definition placed (it : item) : Prop := tagtext (it_where it).

(** The loop of the source. *)
Lemma replies_unfold {Y} keep (body : msg -> res (list Y)) (s : script) :
  replies keep body s =
  (let* resp := take in
   let* _ := check_nack resp in
   if mtype_eqb (msg_type resp) T_ACK then ret tt
   else if negb (keep resp) then raise ResponseError
   else let* ys := lift (body resp) in
        let* _ := (fun s' => (map Yielded ys, s', Ok tt)) in
        replies keep body) s.
Proof.
  destruct s as [|[m|] s]; [reflexivity| |reflexivity].
  unfold andthen, take, check_nack, ret, raise, lift. cbn [replies].
  destruct (mtype_eqb (msg_type m) T_NACK); [reflexivity|].
  destruct (mtype_eqb (msg_type m) T_ACK); [reflexivity|].
  destruct (negb (keep m)); [reflexivity|].
  destruct (body m) as [ys|e]; [|reflexivity].
  destruct (replies keep body s) as [[es s'] r]. reflexivity.
Qed.

Lemma mk_ok t : mk t = Ok t <-> tagtext t.
Proof.
  unfold mk, tag_make. cbn [py_str bind]. destruct (is_valid_tag t) eqn:E.
  - split; [intros _|reflexivity]. apply tagtext_valid. assumption.
  - split; [discriminate|]. intros H. apply tagtext_valid in H. congruence.
Qed.

Lemma mk_cases t : (mk t = Ok t /\ tagtext t) \/ (mk t = Err InvalidTag /\ ~ tagtext t).
Proof.
  destruct (is_valid_tag t) eqn:E.
  - left. split; [|apply tagtext_valid; assumption]. unfold mk, tag_make. cbn [py_str bind]. rewrite E. reflexivity.
  - right. split; [unfold mk, tag_make; cbn [py_str bind]; rewrite E; reflexivity|].
    intros H. apply tagtext_valid in H. congruence.
Qed.

Section Send.
Context {Y : Type}.
Notation out := (list (ev Y) * script * res unit)%type.

Lemma item_send_ok it m b (s : script) :
  ready it -> msg_bytes m = Ok b -> item_send (Y:=Y) it m s = ([Sent b], s, Ok tt).
Proof.
  intros [H1 H2] Hb. unfold item_send, client_send, is_cmd_session. rewrite H2, Hb.
  destruct (cl_session (it_client it)); [reflexivity|reflexivity|congruence].
Qed.

Lemma item_send_refused it m (s : script) :
  ~ ready it -> item_send (Y:=Y) it m s = ([], s, Err InvalidSession).
Proof.
  intros H. unfold item_send, client_send, is_cmd_session.
  destruct (cl_session (it_client it)) eqn:E1, (cl_proto (it_client it)) eqn:E2; try reflexivity;
    exfalso; apply H; split; congruence.
Qed.

Lemma ready_dec it : ready it \/ ~ ready it.
Proof.
  unfold ready. destruct (cl_session (it_client it)), (cl_proto (it_client it));
    try (left; split; congruence); right; intros [? ?]; congruence.
Qed.

Lemma ask it m b (s : script) :
  ready it -> msg_bytes m = Ok b ->
  answered b s ((let* _ := item_send it m in let* r := item_read it in check_ack r) s : out).
Proof.
  intros Hr Hb. rewrite (andthen_ok _ _ _ _ _ _ (item_send_ok it m b s Hr Hb)).
  unfold item_read, client_read. rewrite (proj2 Hr). cbn [negb].
  destruct s as [|[r|] s]; cbn [andthen take pre app].
  - constructor.
  - unfold check_ack. destruct (ack_dec r) as [->|Hn].
    + cbn. constructor.
    + rewrite (type_not_ack _ Hn). cbn. constructor. assumption.
  - constructor.
Qed.

Lemma cmd_bytes w a b : tagtext a -> tagtext b -> msg_bytes (MNormal w a b) = Ok (frame_cmd w a b).
Proof.
  intros Ha Hb. destruct (bytes_ok (MNormal w a b)) as [-> _].
  - split; [|discriminate]. apply Forall_cons; [assumption|apply Forall_cons; [assumption|apply Forall_nil]].
  - rewrite msg_str_wire. reflexivity.
Qed.

Lemma status_bytes w a : tagtext a -> msg_bytes (MStatus w a) = Ok (frame_status w a).
Proof.
  intros Ha. destruct (bytes_ok (MStatus w a)) as [-> _].
  - split; [|discriminate]. apply Forall_cons; [assumption|apply Forall_nil].
  - rewrite msg_str_wire. reflexivity.
Qed.

Lemma dimreq_bytes w a d : tagtext a -> tagtext d -> msg_bytes (MDimReq w a d) = Ok (frame_dimreq w a d).
Proof.
  intros Ha Hb. destruct (bytes_ok (MDimReq w a d)) as [-> _].
  - split; [|discriminate]. apply Forall_cons; [assumption|apply Forall_cons; [assumption|apply Forall_nil]].
  - rewrite msg_str_wire. reflexivity.
Qed.

Lemma dimwri_bytes w a d v vs :
  tagtext a -> tagtext d -> Forall tagtext (v :: vs) ->
  msg_bytes (MDimWri w a d (v :: vs)) = Ok (frame_dimwri w a d (v :: vs)).
Proof.
  intros Ha Hd Hv. destruct (bytes_ok (MDimWri w a d (v :: vs))) as [-> _].
  - split; [|discriminate]. apply Forall_cons; [assumption|apply Forall_cons; assumption].
  - rewrite msg_str_wire. reflexivity.
Qed.

(** ** Commands *)

Theorem command_answered it what (s : script) :
  ready it -> placed it -> tagtext what ->
  answered (frame_cmd (it_who it) what (it_where it)) s (send_normal_message it what s : out).
Proof.
  intros Hr Hp Hw. unfold send_normal_message, create_normal_message.
  rewrite (proj2 (mk_ok what) Hw). cbn [bind]. rewrite andthen_lift.
  apply ask; [assumption|]. apply cmd_bytes; assumption.
Qed.

Theorem writing_answered it dim v vs (s : script) :
  ready it -> placed it -> tagtext dim -> Forall tagtext (v :: vs) ->
  answered (frame_dimwri (it_who it) (it_where it) dim (v :: vs)) s
    (send_dimension_writing it dim (v :: vs) s : out).
Proof.
  intros Hr Hp Hd Hv. unfold send_dimension_writing.
  rewrite (proj2 (mk_ok dim) Hd). rewrite andthen_lift.
  apply ask; [assumption|]. apply dimwri_bytes; assumption.
Qed.

Theorem command_refused it what (s : script) :
  ~ tagtext what -> (send_normal_message it what s : out) = ([], s, Err InvalidTag).
Proof.
  intros H. unfold send_normal_message, create_normal_message.
  destruct (mk_cases what) as [[_ Hw]|[-> _]]; [contradiction|]. reflexivity.
Qed.

Theorem writing_refused it dim vs (s : script) :
  ~ tagtext dim -> (send_dimension_writing it dim vs s : out) = ([], s, Err InvalidTag).
Proof.
  intros H. unfold send_dimension_writing.
  destruct (mk_cases dim) as [[_ Hw]|[-> _]]; [contradiction|]. reflexivity.
Qed.

Theorem command_no_session it what (s : script) :
  ~ ready it -> tagtext what -> (send_normal_message it what s : out) = ([], s, Err InvalidSession).
Proof.
  intros Hr Hw. unfold send_normal_message, create_normal_message.
  rewrite (proj2 (mk_ok what) Hw). cbn [bind]. rewrite andthen_lift.
  apply andthen_err, item_send_refused, Hr.
Qed.

Theorem writing_no_session it dim vs (s : script) :
  ~ ready it -> tagtext dim -> (send_dimension_writing it dim vs s : out) = ([], s, Err InvalidSession).
Proof.
  intros Hr Hw. unfold send_dimension_writing.
  rewrite (proj2 (mk_ok dim) Hw). rewrite andthen_lift.
  apply andthen_err, item_send_refused, Hr.
Qed.

(** ** Reply streams *)

Lemma is_normal_spec m : is_normal m = true <-> normal m.
Proof.
  unfold normal. destruct m; cbn; split; try discriminate; try (intros (? & ? & ? & ?); discriminate); eauto.
Qed.

Lemma is_dimres_spec m : is_dimres m = true <-> dimres m.
Proof.
  unfold dimres. destruct m; cbn; split; try discriminate; try (intros (? & ? & ? & ? & ?); discriminate); eauto 6.
Qed.

(** Every script, with a consumer that may fail. *)
Inductive streamed (want : msg -> Prop) (body : msg -> res (list Y)) : script -> out -> Prop :=
| S_ack s : streamed want body (Some MAck :: s) ([Got MAck], s, Ok tt)
| S_bad m s : m <> MAck -> ~ want m -> streamed want body (Some m :: s) ([Got m], s, Err ResponseError)
| S_silent s : streamed want body (None :: s) ([], s, Err TimeoutError)
| S_dry : streamed want body [] ([], [], Err TimeoutError)
| S_fail m s e : want m -> body m = Err e -> streamed want body (Some m :: s) ([Got m], s, Err e)
| S_reply m ys s es s' r : want m -> body m = Ok ys -> streamed want body s (es, s', r) ->
    streamed want body (Some m :: s) (Got m :: map Yielded ys ++ es, s', r).

Lemma replies_streamed keep want body (s : script) :
  (forall m, keep m = true <-> want m) -> ~ want MAck -> ~ want MNack ->
  streamed want body s (replies keep body s).
Proof.
  intros Hk Ha Hn. induction s as [|[m|] s IH]; cbn [replies]; [constructor| |constructor].
  destruct (nack_dec m) as [->|Hm1].
  { cbn. constructor; [discriminate|assumption]. }
  rewrite (type_not_nack _ Hm1).
  destruct (ack_dec m) as [->|Hm2].
  { cbn. constructor. }
  rewrite (type_not_ack _ Hm2).
  destruct (keep m) eqn:E.
  - apply Hk in E. cbn [negb]. destruct (body m) as [ys|e] eqn:Eb.
    + destruct (replies keep body s) as [[es s'] r]. constructor; assumption.
    + constructor; assumption.
  - cbn [negb]. constructor; [assumption|]. intros H. apply Hk in H. congruence.
Qed.

Lemma loop_streamed it keep want body (s : script) :
  ready it -> (forall m, keep m = true <-> want m) -> ~ want MAck -> ~ want MNack ->
  streamed want body s (reply_loop it keep body s).
Proof.
  intros Hr Hk Ha Hn. unfold reply_loop. rewrite (proj2 Hr). apply replies_streamed; assumption.
Qed.

Lemma not_normal_ack : ~ normal MAck /\ ~ normal MNack.
Proof. split; intros (? & ? & ? & ?); discriminate. Qed.
Lemma not_dimres_ack : ~ dimres MAck /\ ~ dimres MNack.
Proof. split; intros (? & ? & ? & ? & ?); discriminate. Qed.

Theorem status_streamed it body (s : script) :
  ready it -> placed it ->
  exists x, streamed normal body s x /\
    send_status_request it body s = pre [Sent (frame_status (it_who it) (it_where it))] x.
Proof.
  intros Hr Hp. eexists. split; [|apply (andthen_ok _ _ _ _ _ _ (item_send_ok it _ _ s Hr (status_bytes _ _ Hp)))].
  apply (loop_streamed it is_normal normal body s Hr is_normal_spec); apply not_normal_ack.
Qed.

Theorem dimension_streamed it dim body (s : script) :
  ready it -> placed it -> tagtext dim ->
  exists x, streamed dimres body s x /\
    send_dimension_request it dim body s = pre [Sent (frame_dimreq (it_who it) (it_where it) dim)] x.
Proof.
  intros Hr Hp Hd. unfold send_dimension_request. rewrite (proj2 (mk_ok dim) Hd), andthen_lift.
  eexists. split; [|apply (andthen_ok _ _ _ _ _ _ (item_send_ok it _ _ s Hr (dimreq_bytes _ _ _ Hp Hd)))].
  apply (loop_streamed it is_dimres dimres body s Hr is_dimres_spec); apply not_dimres_ack.
Qed.

End Send.

Lemma yields_map {Y} (ys : list Y) : yields (map Yielded ys) = ys /\ gots (map Yielded ys) = [] /\ sents (map Yielded ys) = [].
Proof. induction ys as [|y ys (IH1 & IH2 & IH3)]; cbn; [auto|]. rewrite IH1, IH2, IH3. auto. Qed.

Lemma streamed_as_is want (s : script) x :
  streamed want as_is s x ->
  exists rs, Forall want rs /\ sents (evs_of x) = [] /\ yields (evs_of x) = rs /\
    stream_end want rs s (gots (evs_of x)) (rest_of x) (res_of x).
Proof.
  induction 1 as [s|m s Hm Hw|s| |m s e Hw Hb|m ys s es s' r Hw Hb Hs (rs & H1 & H2 & H3 & H4)].
  - exists []. repeat split; [constructor|]. exact (E_ack want [] s).
  - exists []. repeat split; [constructor|]. exact (E_bad want [] m s Hm Hw).
  - exists []. repeat split; [constructor|]. exact (E_silent want [] s).
  - exists []. repeat split; [constructor|]. exact (E_dry want []).
  - discriminate.
  - injection Hb as <-. exists (m :: rs). unfold evs_of, rest_of, res_of in *. cbn [fst snd] in *.
    split; [constructor; assumption|]. cbn [map app sents yields gots].
    split; [assumption|]. split; [rewrite H3; reflexivity|].
    inversion H4 as [rest E1 E2 E3 E4|m' rest Hm' Hw' E1 E2 E3 E4|rest E1 E2 E3 E4|E1 E2 E3 E4]; subst s s' r.
    + exact (E_ack want (m :: rs) rest).
    + exact (E_bad want (m :: rs) m' rest Hm' Hw').
    + rewrite <- E2. exact (E_silent want (m :: rs) rest).
    + rewrite <- E2. exact (E_dry want (m :: rs)).
Qed.

Lemma pre_parts {Y A} (a : list (ev Y)) (x : list (ev Y) * script * res A) :
  evs_of (pre a x) = a ++ evs_of x /\ rest_of (pre a x) = rest_of x /\ res_of (pre a x) = res_of x.
Proof. destruct x as [[es s] r]. auto. Qed.

Theorem status_requested it (s : script) :
  ready it -> placed it ->
  requested (frame_status (it_who it) (it_where it)) normal s (send_status_request it as_is s).
Proof.
  intros Hr Hp. destruct (status_streamed it as_is s Hr Hp) as (x & Hx & ->).
  apply streamed_as_is in Hx as (rs & H1 & H2 & H3 & H4). exists rs.
  destruct (pre_parts [Sent (frame_status (it_who it) (it_where it))] x) as (-> & -> & ->).
  rewrite sents_app, yields_app, gots_app, H2. cbn. auto.
Qed.

Theorem dimension_requested it dim (s : script) :
  ready it -> placed it -> tagtext dim ->
  requested (frame_dimreq (it_who it) (it_where it) dim) dimres s (send_dimension_request it dim as_is s).
Proof.
  intros Hr Hp Hd. destruct (dimension_streamed it dim as_is s Hr Hp Hd) as (x & Hx & ->).
  apply streamed_as_is in Hx as (rs & H1 & H2 & H3 & H4). exists rs.
  destruct (pre_parts [Sent (frame_dimreq (it_who it) (it_where it) dim)] x) as (-> & -> & ->).
  rewrite sents_app, yields_app, gots_app, H2. cbn. auto.
Qed.
