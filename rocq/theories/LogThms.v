(** * The log: proofs *)
From Coq Require Import String List NArith ZArith Bool Lia.
From Verif Require Import PyStr Regex Tags Messages MessageFacts SpecMsg MessageThms MessageThms2 MessageThms3 AuthOpen AuthHmac SpecOpen OpenThms HmacThms IO
  Protocol SpecProto ProtoThms Client Items Energy Dispatch DispatchThms2 Errors SpecErrors ErrorThms Log SpecLog.
Import ListNotations.
Open Scope N_scope.
Open Scope list_scope.

(** ** Reading the text of a record back *)

(** The first occurrence of a character. *)
Lemma cut_first (c : N) (a b x y : str) : ~ In c a -> ~ In c b -> a ++ c :: x = b ++ c :: y -> a = b /\ x = y.
Proof.
  revert b. induction a as [|d a IH]; intros b Ha Hb E; destruct b as [|e b]; cbn [app] in E.
  - injection E as ->. auto.
  - injection E as -> _. exfalso. apply Hb. left. reflexivity.
  - injection E as -> _. exfalso. apply Ha. left. reflexivity.
  - injection E as -> E2. apply IH in E2 as [-> ->]; [auto|intros H; apply Ha; right; exact H|intros H; apply Hb; right; exact H].
Qed.

Lemma join2_inj : forall l1 l2 : list str,
  Forall (fun x => exists a, x = a ++ [62] /\ ~ In 62 a) l1 -> Forall (fun x => exists a, x = a ++ [62] /\ ~ In 62 a) l2 ->
  join2 l1 = join2 l2 -> l1 = l2.
Proof.
  assert (NN : forall x l, Forall (fun x => exists a, x = a ++ [62] /\ ~ In 62 a) (x :: l) -> [] <> join2 (x :: l)).
  { intros x l H E. inversion H as [|? ? (a & -> & _) _]; subst. destruct l; cbn [join2] in E; destruct a; discriminate. }
  induction l1 as [|x1 l1 IH]; intros l2 H1 H2 E; destruct l2 as [|x2 l2].
  - reflexivity.
  - destruct (NN _ _ H2 E).
  - destruct (NN _ _ H1 (eq_sym E)).
  - inversion H1 as [|? ? (a1 & -> & N1) R1]; inversion H2 as [|? ? (a2 & -> & N2) R2]; subst.
    destruct l1 as [|y1 l1], l2 as [|y2 l2]; cbn [join2] in E.
    + congruence.
    + rewrite <- app_assoc in E. apply cut_first in E as [_ E]; [discriminate|exact N1|exact N2].
    + rewrite <- app_assoc in E. apply cut_first in E as [_ E]; [discriminate|exact N1|exact N2].
    + rewrite <- !app_assoc in E. change ([62] ++ lit ", " ++ join2 (y1 :: l1)) with (62 :: lit ", " ++ join2 (y1 :: l1)) in E.
      change ([62] ++ lit ", " ++ join2 (y2 :: l2)) with (62 :: lit ", " ++ join2 (y2 :: l2)) in E.
      apply cut_first in E as [-> E]; [|exact N1|exact N2]. apply app_inv_head in E. f_equal. apply IH; assumption.
Qed.

Lemma class_name_inj k k' : class_name k = class_name k' -> k = k'.
Proof. destruct k, k'; try reflexivity; discriminate. Qed.

Lemma class_name_char k c : In c (class_name k) -> 65 <= c <= 122.
Proof. intros H. assert (X : Forall (fun c => 65 <= c <= 122) (class_name k)) by (destruct k; repeat (apply Forall_cons; [vm_compute; split; discriminate|]); apply Forall_nil).
  rewrite Forall_forall in X. apply X, H. Qed.

Lemma typed_tags_inj m m' : msg_type m = msg_type m' -> msg_tags m = msg_tags m' -> m = m'.
Proof.
  destruct m, m'; cbn [msg_type msg_tags]; try discriminate; intros _ E; try reflexivity;
    try (injection E; intros); subst; repeat match goal with H : who_str _ = who_str _ |- _ => apply who_str_inj in H; subst end; try reflexivity.
Qed.

Lemma join_in sep l c : In c (join sep l) -> c = sep \/ exists t, In t l /\ In c t.
Proof.
  induction l as [|x l IH]; [intros []|]. destruct l as [|y l].
  - cbn [join]. intros H. right. exists x. split; [left; reflexivity|exact H].
  - rewrite join_cons by discriminate. intros H. apply in_app_or in H as [H|[H|H]].
    + right. exists x. split; [left; reflexivity|exact H].
    + left. congruence.
    + destruct (IH H) as [E|(t & Ht & Hc)]; [left; exact E|]. right. exists t. split; [right; exact Ht|exact Hc].
Qed.

Lemma repr_inj m m' : comma_free m -> comma_free m' -> msg_repr m = msg_repr m' -> m = m'.
Proof.
  intros [F N] [F' N'] E. unfold msg_repr in E. apply app_inv_head in E.
  change (lit ": ") with [58; 32] in E. cbn [app] in E. apply (cut_first 58) in E as [E1 E2].
  - injection E2 as E2. apply app_inj_tail in E2 as [E2 _].
    apply typed_tags_inj; [apply class_name_inj, E1|].
    rewrite <- (split_join 44 (msg_tags m)), E2, split_join by assumption. reflexivity.
  - intros H. apply class_name_char in H. lia.
  - intros H. apply class_name_char in H. lia.
Qed.

Lemma tagtext_char t c : tagtext t -> In c t -> 48 <= c <= 57 \/ c = 35.
Proof. unfold tagtext. rewrite Forall_forall. intros H I. apply H, I. Qed.

Lemma built_tags m : built m -> Forall tagtext (msg_tags m) /\ msg_tags m <> [].
Proof.
  intros [H G].
  assert (W : forall w, tagtext (who_str w)) by (intros []; repeat (apply Forall_cons; [vm_compute; left; split; discriminate|]); apply Forall_nil).
  destruct m; cbn [msg_tags free_tags] in *.
  1,2: split; [|discriminate]; repeat apply Forall_cons; try apply Forall_nil; vm_compute; auto; left; split; discriminate.
  1,2,3: split; [|discriminate]; repeat (apply Forall_cons); auto; inversion H; subst; auto;
    match goal with K : Forall _ [_] |- _ => inversion K; subst; auto | _ => idtac end.
  1,2: split; [|discriminate]; apply Forall_cons; auto.
  split; [exact H|apply G; reflexivity].
Qed.

Lemma built_comma m : built m -> comma_free m.
Proof.
  intros B. apply built_tags in B as [F N]. split; [|exact N]. eapply Forall_impl; [|exact F].
  intros t T I. apply (tagtext_char t 44 T) in I. lia.
Qed.

Lemma repr_shape m : built m -> exists a, msg_repr m = a ++ [62] /\ ~ In 62 a.
Proof.
  intros B. apply built_tags in B as [F _]. exists (lit "<" ++ class_name (msg_type m) ++ lit ": " ++ join 44 (msg_tags m)).
  split; [unfold msg_repr; rewrite <- !app_assoc; reflexivity|].
  intros I. apply in_app_or in I as [I|I]; [destruct I as [I|[]]; discriminate|].
  apply in_app_or in I as [I|I]; [apply class_name_char in I; lia|].
  apply in_app_or in I as [I|I]; [destruct I as [I|[I|[]]]; discriminate|].
  apply join_in in I as [I|(t & Ht & I)]; [discriminate|].
  rewrite Forall_forall in F. apply (tagtext_char t 62 (F t Ht)) in I. lia.
Qed.

Lemma cons_inj {A} (x y : A) l k : x :: l = y :: k -> x = y /\ l = k.
Proof. intros [= -> ->]. auto. Qed.

Lemma map_repr_inj l1 l2 : Forall built l1 -> Forall built l2 -> map msg_repr l1 = map msg_repr l2 -> l1 = l2.
Proof.
  intros H. revert l2. induction H as [|m l1 Hm H IH]; intros l2 H2 E; destruct l2 as [|m2 l2]; try discriminate; [reflexivity|].
  cbn [map] in E. apply cons_inj in E as [E1 E2]. inversion H2; subst. f_equal; [|apply IH; assumption].
  apply repr_inj; [apply built_comma..|]; assumption.
Qed.

Theorem msgs_repr_inj l1 l2 : Forall built l1 -> Forall built l2 -> msgs_repr l1 = msgs_repr l2 -> l1 = l2.
Proof.
  intros H1 H2 E. unfold msgs_repr in E. apply app_inv_head in E. apply app_inj_tail in E as [E _].
  apply map_repr_inj; [assumption..|]. apply join2_inj; [| |exact E]; rewrite Forall_map;
    (eapply Forall_impl; [|eassumption]); intros m; apply repr_shape.
Qed.

(** ** The life of a connection *)

Definition received_record (g : list msg) : record := Rec L_protocol DEBUG (lit "Received messages: " ++ msgs_repr g).
Definition sent_record (m : msg) : record := Rec L_protocol DEBUG (lit "Sent message: " ++ msg_str m).

Lemma starts_app (p t : str) : startswith p (p ++ t) = true.
Proof. apply startswith_spec. exists t. reflexivity. Qed.

Lemma data_cases other data :
  (exists ms, packet_messages data = Ok ms /\ packet_messages_x data = Okx ms /\ data_log other data = match ms with [] => [] | _ => [received_record ms] end) \/
  (exists r, packet_messages data = Err (r_class r) /\ packet_messages_x data = Raise r /\
     (data_log other data = [] \/ exists t, data_log other data = [Rec L_protocol WARNING t] /\
        (t = lit "Received data not ascii: " ++ hexs data \/ t = lit "Received invalid message: " ++ exn_text other r data))).
Proof.
  pose proof (forget_packet data) as F. unfold data_log. destruct (packet_messages_x data) as [ms|r]; cbn [forget] in F.
  - left. exists ms. split; [symmetry; exact F|]. split; [reflexivity|]. destruct ms; reflexivity.
  - right. exists r. split; [symmetry; exact F|]. split; [reflexivity|].
    destruct (r_class r); try (left; reflexivity); right; eexists; (split; [reflexivity|]); auto.
Qed.

Lemma filter_received_data other self data :
  filter told_received (data_log other data ++ handler_log other self data) =
  match packet_messages data with Ok [] => [] | Ok ms => [received_record ms] | Err _ => [] end.
Proof.
  unfold handler_log. destruct (data_cases other data) as [(ms & -> & -> & ->)|(r & -> & -> & H)].
  - rewrite app_nil_r. destruct ms; [reflexivity|]. cbn [filter]. unfold told_received, begins_with. cbn [r_logger r_text received_record].
    rewrite starts_app. reflexivity.
  - rewrite filter_app. destruct H as [->|(t & -> & [->| ->])]; reflexivity.
Qed.

Lemma filter_sent_data other self data : filter told_sent (data_log other data ++ handler_log other self data) = [].
Proof.
  unfold handler_log. destruct (data_cases other data) as [(ms & _ & -> & ->)|(r & _ & -> & H)].
  - rewrite app_nil_r. destruct ms; reflexivity.
  - rewrite filter_app. destruct H as [->|(t & -> & [->| ->])]; reflexivity.
Qed.

Lemma received_sent m : told_received (sent_record m) = false.
Proof. reflexivity. Qed.

Lemma nrun_snoc other self es e : nrun other self (es ++ [e]) = nstep other self (nrun other self es) e.
Proof. unfold nrun. rewrite fold_left_app. reflexivity. Qed.

Theorem run_received other self es : exists groups,
  c_queue (n_conn (nrun other self es)) = concat groups /\ Forall (fun g => g <> [] /\ Forall built g) groups /\
  filter told_received (n_log (nrun other self es)) = map received_record groups.
Proof.
  induction es as [|e es (gs & Q & F & L)] using rev_ind; [exists []; repeat split; constructor|].
  rewrite nrun_snoc. set (n := nrun other self es) in *. destruct e; cbn [nstep].
  - destruct (c_open (n_conn n)) eqn:O; [|exists gs; auto]. cbn [n_conn n_log]. rewrite filter_app, filter_received_data, L.
    unfold deliver, data_received. rewrite O. destruct (packet_messages data) as [ms|] eqn:P.
    + rewrite ProtoThms.fold_app. cbn [c_queue]. destruct ms as [|m ms].
      * exists gs. rewrite !app_nil_r. auto.
      * exists (gs ++ [m :: ms]). rewrite concat_app. cbn [concat]. rewrite app_nil_r, Q, map_app. split; [reflexivity|]. split; [|reflexivity].
        apply Forall_app. split; [exact F|]. apply Forall_cons; [|constructor]. split; [discriminate|]. eapply packet_built, P.
    + cbn [c_queue]. exists gs. rewrite app_nil_r. auto.
  - destruct (msg_bytes m); [|exists gs; auto]. cbn [n_conn n_log]. rewrite filter_app. exists gs. rewrite L.
    change (filter told_received [Rec L_protocol DEBUG (lit "Sent message: " ++ msg_str m)]) with (@nil record). rewrite app_nil_r. auto.
  - exists gs. cbn [n_conn n_log]. rewrite filter_app, L. cbn. rewrite app_nil_r. auto.
  - exists gs. cbn [n_conn n_log]. rewrite filter_app, L. cbn. rewrite app_nil_r. auto.
  - exists gs. auto.
  - exists gs. cbn [n_conn n_log shut c_queue]. rewrite filter_app, L. destruct why; cbn; rewrite app_nil_r; auto.
Qed.

Lemma sends_app a b : sends (a ++ b) = sends a ++ sends b.
Proof. induction a as [|[] a IH]; cbn [sends app]; auto. destruct (forallb _ _); cbn; rewrite IH; reflexivity. Qed.

Lemma msg_bytes_cases m : if forallb (fun c => c <? 128) (msg_str m) then msg_bytes m = Ok (msg_str m) else exists e, msg_bytes m = Err e.
Proof. unfold msg_bytes, encode_ascii. destruct (forallb (fun c => c <? 128) (msg_str m)); eauto. Qed.

Theorem run_sent other self es :
  filter told_sent (n_log (nrun other self es)) = map sent_record (sends es) /\
  exists k, n_written (nrun other self es) = firstn k (map msg_str (sends es)) /\
    (c_open (n_conn (nrun other self es)) = true -> k = length (sends es)) /\ (k <= length (sends es))%nat.
Proof.
  induction es as [|e es (L & k & W & O & K)] using rev_ind; [split; [reflexivity|exists 0%nat; repeat split; constructor]|].
  rewrite nrun_snoc, sends_app. set (n := nrun other self es) in *.
  assert (Same : forall x, filter told_sent x = [] -> filter told_sent (n_log n ++ x) = map sent_record (sends es ++ [])).
  { intros x Hx. rewrite filter_app, L, Hx, !app_nil_r. reflexivity. }
  destruct e; cbn [nstep sends].
  - rewrite app_nil_r. destruct (c_open (n_conn n)) eqn:Op; [|split; [exact L|exists k; split; [exact W|split; [congruence|exact K]]]].
    cbn [n_conn n_log n_written]. split; [rewrite <- (app_nil_r (sends es)); apply Same, filter_sent_data|].
    exists k. split; [exact W|]. split; [intros _; apply O; reflexivity|exact K].
  - pose proof (msg_bytes_cases m) as B. destruct (forallb (fun c => c <? 128) (msg_str m)).
    + rewrite B. cbn [n_log n_conn n_written]. split.
      * rewrite filter_app, L, map_app. apply f_equal. cbn [filter]. unfold told_sent, begins_with. cbn [r_logger r_text]. rewrite starts_app. reflexivity.
      * destruct (c_open (n_conn n)) eqn:Op.
        -- exists (length (sends es ++ [m])). split; [|auto]. rewrite W, (O eq_refl).
           rewrite <- (map_length msg_str (sends es)), <- (map_length msg_str (sends es ++ [m])), !firstn_all, map_app. reflexivity.
        -- exists k. split; [|split; [discriminate|rewrite app_length; lia]].
           rewrite W, map_app, firstn_app, map_length. replace (k - length (sends es))%nat with 0%nat by lia. cbn [firstn]. rewrite app_nil_r. reflexivity.
    + destruct B as (e & ->). rewrite app_nil_r. split; [exact L|exists k; auto].
  - rewrite app_nil_r. cbn [n_conn n_log n_written]. split; [rewrite <- (app_nil_r (sends es)); apply Same; reflexivity|exists k; exact (conj W (conj O K))].
  - rewrite app_nil_r. cbn [n_conn n_log n_written]. split; [rewrite <- (app_nil_r (sends es)); apply Same; reflexivity|exists k; exact (conj W (conj O K))].
  - rewrite app_nil_r. cbn [n_conn n_log n_written shut c_open]. split; [exact L|]. exists k. split; [exact W|]. split; [discriminate|exact K].
  - rewrite app_nil_r. cbn [n_conn n_log n_written shut c_open]. split; [rewrite <- (app_nil_r (sends es)); apply Same; destruct why; reflexivity|].
    exists k. split; [exact W|]. split; [discriminate|exact K].
Qed.

Lemma records_inj g1 g2 : Forall (fun g => g <> [] /\ Forall built g) g1 -> Forall (fun g => g <> [] /\ Forall built g) g2 ->
  map received_record g1 = map received_record g2 -> g1 = g2.
Proof.
  intros H. revert g2. induction H as [|g g1 [_ Hg] H IH]; intros g2 H2 E; destruct g2 as [|g' g2]; try discriminate; [reflexivity|].
  cbn [map] in E. apply cons_inj in E as [E1 E2]. apply (f_equal r_text) in E1. cbn [received_record r_text] in E1. inversion H2 as [|? ? [_ Hg'] H2']; subst. f_equal; [|apply IH; assumption].
  apply app_inv_head in E1. apply msgs_repr_inj; assumption.
Qed.

Lemma sent_inj l1 l2 : map sent_record l1 = map sent_record l2 -> map msg_str l1 = map msg_str l2.
Proof.
  revert l2. induction l1 as [|m l1 IH]; intros l2 E; destruct l2 as [|m2 l2]; try discriminate; [reflexivity|].
  cbn [map] in *. apply cons_inj in E as [E1 E2]. apply (f_equal r_text) in E1. cbn [sent_record r_text] in E1. apply app_inv_head in E1. f_equal; [exact E1|]. apply IH, E2.
Qed.

(** Two histories with the same log received and sent the same. *)
Theorem log_determines other1 self1 other2 self2 es1 es2 : n_log (nrun other1 self1 es1) = n_log (nrun other2 self2 es2) ->
  c_queue (n_conn (nrun other1 self1 es1)) = c_queue (n_conn (nrun other2 self2 es2)) /\ map msg_str (sends es1) = map msg_str (sends es2).
Proof.
  intros E. split.
  - destruct (run_received other1 self1 es1) as (g1 & -> & F1 & L1). destruct (run_received other2 self2 es2) as (g2 & -> & F2 & L2).
    f_equal. apply records_inj; [assumption..|]. rewrite <- L1, <- L2, E. reflexivity.
  - apply sent_inj. rewrite <- (proj1 (run_sent other1 self1 es1)), <- (proj1 (run_sent other2 self2 es2)), E. reflexivity.
Qed.
