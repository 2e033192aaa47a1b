(** * The exceptions of each method: no others *)
From Coq Require Import String List NArith ZArith Bool Lia.
From Verif Require Import PyStr Tags Messages SpecMsg SpecTag MessageFacts MessageThms MessageThms2 IO Client Items ItemThms Lighting PyDate SpecGateway Gateway GatewayThms PyFloat Energy SpecEnergy
  EnergyThms SpecRaise.
Import ListNotations.
Open Scope N_scope.
Open Scope list_scope.

(** ** Values *)

Definition bad {A} (es : list exn) (r : res A) : Prop := forall e, r = Err e -> In e es.

Lemma bad_ok {A} es (a : A) : bad es (Ok a).
Proof. intros e [=]. Qed.
Lemma bad_err {A} es e : In e es -> bad (A:=A) es (Err e).
Proof. intros H e' [= <-]. exact H. Qed.
Lemma bad_bind {A B} es (r : res A) (f : A -> res B) : bad es r -> (forall a, r = Ok a -> bad es (f a)) -> bad es (bind r f).
Proof. intros H K e E. destruct r as [a|e']; cbn [bind] in E; [apply (K a eq_refl e E)|apply H; congruence]. Qed.
Lemma bad_if {A} es (b : bool) (x y : res A) : bad es x -> bad es y -> bad es (if b then x else y).
Proof. destruct b; auto. Qed.

Lemma bad_index {A} es (l : list A) i : In IndexError es -> bad es (index l i).
Proof. intros H. unfold index. destruct (nth_error l i); [apply bad_ok|apply bad_err, H]. Qed.
Lemma bad_int es s : In ValueError es -> bad es (py_int s).
Proof.
  intros H. unfold py_int. destruct (match map fold_digit (int_strip s) with [] => _ | _ :: _ => _ end) as [neg body].
  destruct (digits_us false body); [|apply bad_err, H]. destruct (_ <? _); [apply bad_err, H|apply bad_ok].
Qed.
Lemma bad_float es s : In ValueError es -> bad es (py_float s).
Proof. intros H. unfold py_float. destruct (str_eqb _ _); [apply bad_err, H|]. destruct (all_digits _); [apply bad_ok|apply bad_err, H]. Qed.
Lemma bad_str_int es z : In ValueError es -> bad es (py_str_int z).
Proof. intros H. unfold py_str_int. destruct (_ <? _); [apply bad_err, H|apply bad_ok]. Qed.
Lemma bad_py_str es a : In ValueError es -> bad es (py_str a).
Proof. intros H. destruct a as [s|z|[]]; cbn [py_str]; try apply bad_ok. apply bad_str_int, H. Qed.
Lemma bad_mk es t : In InvalidTag es -> bad es (mk t).
Proof. intros H. unfold mk, tag_make. cbn [py_str bind]. destruct (is_valid_tag t); [apply bad_ok|apply bad_err, H]. Qed.
Lemma bad_make es a : In ValueError es -> In InvalidTag es -> bad es (tag_make a).
Proof. intros H K. unfold tag_make. apply bad_bind; [apply bad_py_str, H|]. intros s _. destruct (is_valid_tag s); [apply bad_ok|apply bad_err, K]. Qed.
Lemma bad_param es s p : In ValueError es -> In InvalidTag es -> bad es (with_parameter s p).
Proof. intros H K. unfold with_parameter. apply bad_bind; [apply bad_py_str, H|]. intros t _. apply bad_make; assumption. Qed.
Lemma bad_enum es vs s : In ValueError es -> bad es (enum_of vs s).
Proof. intros H. unfold enum_of. destruct (str_in s vs); [apply bad_ok|apply bad_err, H]. Qed.
Lemma bad_c_ints es l : In OverflowError es -> bad es (c_ints l).
Proof. intros H. unfold c_ints. destruct (forallb _ _); [apply bad_ok|apply bad_err, H]. Qed.
Lemma bad_octet es s : In ValueError es -> bad es (parse_octet s).
Proof. intros H. unfold parse_octet. repeat (apply bad_if; [apply bad_err, H|]). apply bad_ok. Qed.
Lemma bad_mapM {A B} es (f : A -> res B) l : (forall x, bad es (f x)) -> bad es (mapM f l).
Proof.
  intros H. induction l as [|x l IH]; cbn [mapM]; [apply bad_ok|]. apply bad_bind; [apply H|]. intros y _. apply bad_bind; [exact IH|]. intros ys _. apply bad_ok.
Qed.

Ltac errs := solve [cbn [In app common raises]; tauto].
Ltac badly := repeat first
  [ apply bad_ok | apply bad_err; errs | apply bad_index; errs | apply bad_int; errs | apply bad_float; errs | apply bad_str_int; errs
  | apply bad_mk; errs | apply bad_make; errs | apply bad_param; errs | apply bad_enum; errs | apply bad_c_ints; errs | apply bad_octet; errs
  | apply bad_bind; [|intros ? _] | apply bad_if | match goal with |- bad _ (match ?l with [] => _ | _ => _ end) => destruct l end ].

Lemma bad_ip es s : In ValueError es -> bad es (ip_from_string s).
Proof.
  intros H. unfold ip_from_string. destruct (split c_dot s) as [|a [|b [|c [|d [|]]]]]; try (apply bad_err, H).
  repeat (apply bad_bind; [apply bad_octet, H|intros ? _]). apply bad_ok.
Qed.
Lemma bad_prefix es s : In ValueError es -> bad es (prefix_from_ip_string s).
Proof.
  intros H. assert (P : forall n, bad es (prefix_from_int n)) by (intros n; unfold prefix_from_int; apply bad_if; [apply bad_ok|apply bad_err, H]).
  unfold prefix_from_ip_string. apply bad_bind; [apply bad_ip, H|]. intros n _. destruct (prefix_from_int n); [apply bad_ok|apply P].
Qed.
Lemma bad_zone es t : In ValueError es -> bad es (parse_own_timezone t).
Proof.
  intros H. unfold parse_own_timezone, mk_timezone. destruct t; [apply bad_ok|]. apply bad_bind; [apply bad_int, H|]. intros h _. apply bad_if; [apply bad_ok|apply bad_err, H].
Qed.

(** ** Coroutines *)

Definition may {Y A} (es : list exn) (Q : A -> Prop) (x : io Y A) : Prop :=
  forall s, match res_of (x s) with Ok a => Q a | Err e => In e es end.

Lemma may_bind {Y A B} es (P : A -> Prop) (Q : B -> Prop) (x : io Y A) f :
  may es P x -> (forall a, P a -> may es Q (f a)) -> may es Q (andthen x f).
Proof.
  intros H K s. specialize (H s). unfold andthen. destruct (x s) as [[l s'] [a|e]]; cbn [res_of snd] in *; [|exact H].
  specialize (K a H s'). destruct (f a s') as [[l' s''] r]. exact K.
Qed.
Lemma may_lift {Y A} es (r : res A) : bad es r -> may (Y:=Y) es (fun a => r = Ok a) (lift r).
Proof. intros H s. cbn. destruct r as [a|e]; [reflexivity|apply H; reflexivity]. Qed.
Lemma may_weak {Y A} es (P Q : A -> Prop) (x : io Y A) : (forall a, P a -> Q a) -> may es P x -> may es Q x.
Proof. intros W H s. specialize (H s). destruct (res_of (x s)); auto. Qed.
Lemma may_any {Y A} es (P : A -> Prop) (x : io Y A) : may es P x -> may es (fun _ => True) x.
Proof. apply may_weak. trivial. Qed.
Lemma may_raise {Y A} es e (Q : A -> Prop) : In e es -> may (Y:=Y) es Q (raise e).
Proof. intros H s. exact H. Qed.
Lemma may_ret {Y A} es (a : A) (Q : A -> Prop) : Q a -> may (Y:=Y) es Q (ret a).
Proof. intros H s. exact H. Qed.

Section Talk.
Context {Y : Type} (it : item) (Hp : placed it) (es : list exn) (C : incl common es).

Lemma in_session : In InvalidSession es. Proof. apply C. left. reflexivity. Qed.
Lemma in_timeout : In TimeoutError es. Proof. apply C. right. left. reflexivity. Qed.
Lemma in_response : In ResponseError es. Proof. apply C. right. right. left. reflexivity. Qed.

Lemma may_send m : built m -> may (Y:=Y) es (fun _ => True) (item_send it m).
Proof.
  intros B s. destruct (bytes_ok m B) as [E _]. unfold item_send, client_send. rewrite E.
  destruct (negb (is_cmd_session (it_client it)) && negb false); [exact in_session|].
  destruct (negb (cl_proto (it_client it))); [exact in_session|]. exact I.
Qed.
Lemma may_read : may (Y:=Y) es (fun _ => True) (item_read it).
Proof.
  intros s. unfold item_read, client_read. destruct (negb (cl_proto (it_client it))); [exact in_session|].
  destruct s as [|[m|] s]; cbn; [exact in_timeout|exact I|exact in_timeout].
Qed.
Lemma may_ack m : may (Y:=Y) es (fun _ => True) (check_ack m).
Proof. unfold check_ack. destruct (negb _); [apply may_raise, in_response|apply may_ret, I]. Qed.

Lemma may_ask m : built m -> may (Y:=Y) es (fun _ => True) (let* _ := item_send it m in let* resp := item_read it in check_ack resp).
Proof.
  intros B. eapply may_bind; [apply may_send, B|]. intros _ _. eapply may_bind; [apply may_read|]. intros r _. apply may_ack.
Qed.

Lemma may_normal what : (In InvalidTag es \/ tagtext what) -> may (Y:=Y) es (fun _ => True) (send_normal_message it what).
Proof.
  intros H. unfold send_normal_message, create_normal_message.
  eapply may_bind; [apply may_lift, bad_bind; [|intros; apply bad_ok]|].
  - destruct H as [H|H]; [apply bad_mk, H|rewrite (proj2 (mk_ok what) H); apply bad_ok].
  - intros m E. cbn beta in E. apply may_ask. unfold mk, tag_make in E. cbn [py_str bind] in E. destruct (is_valid_tag what) eqn:V; [|discriminate].
    cbn [bind] in E. injection E as <-. split; [|discriminate]. constructor; [apply tagtext_valid, V|constructor; [exact Hp|constructor]].
Qed.

Lemma may_writing d vs : (In InvalidTag es \/ tagtext d) -> Forall tagtext vs -> may (Y:=Y) es (fun _ => True) (send_dimension_writing it d vs).
Proof.
  intros H F. unfold send_dimension_writing. eapply may_bind; [apply may_lift|].
  - destruct H as [H|H]; [apply bad_mk, H|rewrite (proj2 (mk_ok d) H); apply bad_ok].
  - intros d' E. cbn beta in E. apply may_ask. unfold mk, tag_make in E. cbn [py_str bind] in E. destruct (is_valid_tag d) eqn:V; [|discriminate]. injection E as <-.
    split; [|discriminate]. constructor; [exact Hp|]. constructor; [apply tagtext_valid, V|exact F].
Qed.

Lemma may_replies keep (body : msg -> res (list Y)) s : (forall m, keep m = true -> bad es (body m)) ->
  match res_of (replies keep body s) with Ok _ => True | Err e => In e es end.
Proof.
  intros B. induction s as [|[m|] s IH]; cbn [replies]; [exact in_timeout| |exact in_timeout].
  destruct (mtype_eqb (msg_type m) T_NACK); [exact in_response|]. destruct (mtype_eqb (msg_type m) T_ACK); [exact I|].
  destruct (keep m) eqn:K; [|exact in_response]. cbn [negb]. specialize (B m K). destruct (body m) as [ys|e]; [|apply B; reflexivity].
  destruct (replies keep body s) as [[l s'] r]. exact IH.
Qed.

Lemma may_loop keep (body : msg -> res (list Y)) : (forall m, keep m = true -> bad es (body m)) -> may (Y:=Y) es (fun _ => True) (reply_loop it keep body).
Proof.
  intros B s. unfold reply_loop. destruct (negb (cl_proto (it_client it))); [exact in_session|]. apply may_replies, B.
Qed.

Lemma may_status (body : msg -> res (list Y)) : (forall m, is_normal m = true -> bad es (body m)) -> may (Y:=Y) es (fun _ => True) (send_status_request it body).
Proof.
  intros B. unfold send_status_request. eapply may_bind; [apply may_send|intros _ _; apply may_loop, B].
  split; [|discriminate]. constructor; [exact Hp|constructor].
Qed.

Lemma may_dim d (body : msg -> res (list Y)) : (In InvalidTag es \/ tagtext d) -> (forall m, is_dimres m = true -> bad es (body m)) ->
  may (Y:=Y) es (fun _ => True) (send_dimension_request it d body).
Proof.
  intros H B. unfold send_dimension_request. eapply may_bind; [apply may_lift|].
  - destruct H as [H|H]; [apply bad_mk, H|rewrite (proj2 (mk_ok d) H); apply bad_ok].
  - intros d' E. cbn beta in E. unfold mk, tag_make in E. cbn [py_str bind] in E. destruct (is_valid_tag d) eqn:V; [|discriminate]. injection E as <-.
    eapply may_bind; [apply may_send|intros _ _; apply may_loop, B].
    split; [|discriminate]. constructor; [exact Hp|]. constructor; [apply tagtext_valid, V|constructor].
Qed.
End Talk.

(** What a generator of messages yields. *)
Lemma replies_kept keep s : Forall (fun m => keep m = true) (yields (evs_of (replies keep as_is s))).
Proof.
  induction s as [|[m|] s IH]; cbn [replies]; [constructor| |constructor].
  destruct (mtype_eqb (msg_type m) T_NACK); [constructor|]. destruct (mtype_eqb (msg_type m) T_ACK); [constructor|].
  destruct (keep m) eqn:K; [|constructor]. cbn [negb as_is]. destruct (replies keep as_is s) as [[l s'] r]. cbn. constructor; [exact K|exact IH].
Qed.

Lemma may_single {Y} it d es : placed it -> incl common es -> (In InvalidTag es \/ tagtext d) ->
  may (Y:=Y) es (fun m => is_dimres m = true) (single_dim_req it d).
Proof.
  intros Hp C H. unfold single_dim_req. eapply (may_bind _ (Forall (fun m => is_dimres m = true))).
  - intros s. pose proof (may_dim (Y:=msg) it Hp es C d as_is H (fun _ _ => bad_ok _ _) s) as M.
    unfold collect.
    assert (K : Forall (fun m => is_dimres m = true) (yields (evs_of (send_dimension_request it d as_is s)))).
    { unfold send_dimension_request, andthen, lift. destruct (mk d) as [d'|e]; [|constructor]. unfold item_send, client_send.
      destruct (negb (is_cmd_session _) && _); [constructor|]. destruct (negb (cl_proto _)) eqn:P; [constructor|]. unfold andthen, lift, put.
      destruct (msg_bytes _); [|constructor]. unfold reply_loop. rewrite P. pose proof (replies_kept is_dimres s) as R. destruct (replies is_dimres as_is s) as [[l s'] r]. exact R. }
    destruct (send_dimension_request it d as_is s) as [[l s'] [[]|e]]; cbn [res_of evs_of fst snd] in *; assumption.
  - intros ms F. destruct ms as [|m ms]; [apply may_raise, (in_response es C)|]. inversion F as [|? ? E _]; subst. rewrite E. apply may_ret, E.
Qed.

Lemma dimres_values m : is_dimres m = true -> exists w a d vs, m = MDimRes w a d vs.
Proof. destruct m; try discriminate. intros _. repeat eexists. Qed.

Lemma may_gateway {Y A} it w (decode : list str -> res A) es : placed it -> incl common es -> (forall vs, bad es (decode vs)) ->
  may (Y:=Y) es (fun _ => True) (ask_gateway it w decode).
Proof.
  intros Hp C B. unfold ask_gateway. eapply may_bind; [apply may_single; try assumption; right; apply (proj1 (mk_ok _)); destruct w; reflexivity|].
  intros m E. cbn beta in E. destruct (dimres_values m E) as (x & a & d & vs & ->). eapply may_any, may_lift. cbn [get_values bind]. apply B.
Qed.

Lemma may_energy {Y A} it dim (decode : list str -> res A) es : placed it -> incl common es -> bad es dim ->
  (In InvalidTag es \/ forall d, dim = Ok d -> tagtext d) -> (forall vs, bad es (decode vs)) ->
  may (Y:=Y) es (fun _ => True) (ask_energy it dim decode).
Proof.
  intros Hp C D T B. unfold ask_energy. eapply may_bind; [apply may_lift, D|]. intros d E. cbn beta in E.
  eapply may_bind; [apply may_single; try assumption; destruct T as [T|T]; [left; exact T|right; apply T, E]|].
  intros m K. cbn beta in K. destruct (dimres_values m K) as (x & a & d' & vs & ->). eapply may_any, may_lift. cbn [get_values bind]. apply B.
Qed.
