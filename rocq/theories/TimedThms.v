(** * Facts about the clock *)
From Coq Require Import String List NArith ZArith Bool Lia.
From Verif Require Import PyStr Tags Messages AuthOpen AuthHmac IO Client Items Lighting PyDate Gateway PyFloat Energy SpecFrames Timed SpecTimed.
Import ListNotations.
Open Scope N_scope.
Open Scope list_scope.

(** ** How a coroutine uses its script *)

Definition fits (n : option nat) (k : nat) : Prop := match n with Some n => (k <= n)%nat | None => True end.
Definition oplus (n m : option nat) : option nat := match n, m with Some n, Some m => Some (n + m)%nat | _, _ => None end.

Definition lawful (n : option nat) {Y A} (x : io Y A) : Prop :=
  forall s, exists es r,
    (exists rest, s = map Some (gots es) ++ rest /\ fits n (List.length (gots es)) /\
       forall more, x (map Some (gots es) ++ more) = (es, more, r)) \/
    (exists rest, (s = map Some (gots es) ++ None :: rest \/ s = map Some (gots es)) /\ fits n (S (List.length (gots es))) /\
       r = Err TimeoutError /\ forall more, x (map Some (gots es) ++ None :: more) = (es, more, r)).

Lemma fits_oplus n m a b : fits n a -> fits m b -> fits (oplus n m) (a + b).
Proof. destruct n, m; cbn; lia. Qed.
Lemma fits_left n m a : fits n a -> fits (oplus n m) a.
Proof. destruct n, m; cbn; lia. Qed.

Lemma lawful_weaken n m {Y A} (x : io Y A) : (forall k, fits n k -> fits m k) -> lawful n x -> lawful m x.
Proof.
  intros W L s. destruct (L s) as (es & r & [(rest & H1 & H2 & H3)|(rest & H1 & H2 & H3)]); exists es, r; [left|right]; exists rest; auto.
Qed.
Lemma lawful_none n {Y A} (x : io Y A) : lawful n x -> lawful None x.
Proof. apply lawful_weaken. intros; exact I. Qed.
Lemma lawful_le n m {Y A} (x : io Y A) : (n <= m)%nat -> lawful (Some n) x -> lawful (Some m) x.
Proof. intros H. apply lawful_weaken. cbn. lia. Qed.

Lemma lawful_lift n {Y A} (r : res A) : lawful n (lift (Y:=Y) r).
Proof. intros s. exists [], r. left. exists s. repeat split. destruct n; cbn; lia || exact I. Qed.
Lemma lawful_raise n {Y A} e : lawful n (raise (Y:=Y) (A:=A) e).
Proof. apply lawful_lift. Qed.
Lemma lawful_ret n {Y A} (a : A) : lawful n (ret (Y:=Y) a).
Proof. apply (lawful_lift n (Ok a)). Qed.
Lemma lawful_put n {Y} b : lawful n (put (Y:=Y) b).
Proof. intros s. exists [Sent b], (Ok tt). left. exists s. repeat split. destruct n; cbn; lia || exact I. Qed.
Lemma lawful_take {Y} : lawful (Some 1%nat) (take (Y:=Y)).
Proof.
  intros [|[m|] s].
  - exists [], (Err TimeoutError). right. exists []. cbn. auto.
  - exists [Got m], (Ok m). left. exists s. cbn. auto.
  - exists [], (Err TimeoutError). right. exists s. cbn. auto.
Qed.

Lemma lawful_andthen n m {Y A B} (x : io Y A) (f : A -> io Y B) :
  lawful n x -> (forall a, lawful m (f a)) -> lawful (oplus n m) (andthen x f).
Proof.
  intros Lx Lf s. destruct (Lx s) as (es & r & [(rest & H1 & H2 & H3)|(rest & H1 & H2 & H3 & H4)]).
  - destruct r as [a|e].
    + destruct (Lf a rest) as (es' & r' & [(rest' & K1 & K2 & K3)|(rest' & K1 & K2 & K3 & K4)]); exists (es ++ es'), r'.
      * left. exists rest'. rewrite gots_app, map_app, app_length, H1, K1. split; [apply app_assoc|]. split; [apply fits_oplus; assumption|].
        intros more. unfold andthen. rewrite <- app_assoc, H3, K3. reflexivity.
      * right. exists rest'. rewrite gots_app, map_app, app_length, H1. split; [|split; [|split; [exact K3|]]].
        -- destruct K1 as [K1|K1]; [left|right]; rewrite K1; [apply app_assoc|reflexivity].
        -- rewrite <- Nat.add_succ_r. apply fits_oplus; assumption.
        -- intros more. unfold andthen. rewrite <- app_assoc, H3, K4. reflexivity.
    + exists es, (Err e). left. exists rest. split; [exact H1|]. split; [apply fits_left, H2|].
      intros more. unfold andthen. rewrite H3. reflexivity.
  - exists es, (Err TimeoutError). right. exists rest. split; [exact H1|]. split; [apply fits_left, H2|]. split; [reflexivity|].
    intros more. unfold andthen. rewrite H4, H3. reflexivity.
Qed.

Lemma lawful_lift_then n {Y A B} (r : res A) (f : A -> io Y B) : (forall a, lawful n (f a)) -> lawful n (andthen (lift r) f).
Proof.
  intros H. refine (lawful_weaken (oplus (Some 0%nat) n) n _ _ (lawful_andthen _ _ _ _ (lawful_lift _ _) H)).
  destruct n; cbn; auto.
Qed.
Lemma lawful_then_lift n {Y A B} (x : io Y A) (f : A -> res B) : lawful n x -> lawful n (andthen x (fun a => lift (f a))).
Proof.
  intros H. refine (lawful_weaken (oplus n (Some 0%nat)) n _ _ (lawful_andthen _ _ _ _ H (fun a => lawful_lift _ _))).
  destruct n as [n|]; cbn; [|auto]. intros. lia.
Qed.
Lemma lawful_if n {Y A} (c : bool) (x y : io Y A) : lawful n x -> lawful n y -> lawful n (if c then x else y).
Proof. destruct c; auto. Qed.

Lemma lawful_send {Y} c force m : lawful (Some 0%nat) (client_send (Y:=Y) c force m).
Proof. unfold client_send. repeat apply lawful_if; try apply lawful_raise. apply lawful_lift_then. intros. apply lawful_put. Qed.
Lemma lawful_read {Y} c : lawful (Some 1%nat) (client_read (Y:=Y) c).
Proof. unfold client_read. apply lawful_if; [apply lawful_raise|apply lawful_take]. Qed.
Lemma lawful_send_then n {Y A} c force m (f : unit -> io Y A) : (forall u, lawful n (f u)) -> lawful n (andthen (client_send c force m) f).
Proof.
  intros H. refine (lawful_weaken (oplus (Some 0%nat) n) n _ _ (lawful_andthen _ _ _ _ (lawful_send _ _ _) H)).
  destruct n; cbn; auto.
Qed.
Lemma lawful_read_then n {Y A} c (f : msg -> io Y A) : (forall m, lawful (Some n) (f m)) -> lawful (Some (S n)) (andthen (client_read c) f).
Proof. intros H. exact (lawful_andthen _ _ _ _ (lawful_read c) H). Qed.

Lemma gots_yielded {Y} (ys : list Y) : gots (map Yielded ys) = [].
Proof. induction ys; cbn; auto. Qed.

Lemma lawful_replies {Y} keep (body : msg -> res (list Y)) : lawful None (replies keep body).
Proof.
  intros s. induction s as [|[m|] s IH].
  - exists [], (Err TimeoutError). right. exists []. cbn. auto.
  - cbn [replies]. destruct (mtype_eqb (msg_type m) T_NACK) eqn:E1.
    { exists [Got m], (Err ResponseError). left. exists s. cbn. repeat split. intros more. rewrite E1. reflexivity. }
    destruct (mtype_eqb (msg_type m) T_ACK) eqn:E2.
    { exists [Got m], (Ok tt). left. exists s. cbn. repeat split. intros more. rewrite E1, E2. reflexivity. }
    destruct (keep m) eqn:E3.
    2: { exists [Got m], (Err ResponseError). left. exists s. cbn. repeat split. intros more. rewrite E1, E2, E3. reflexivity. }
    destruct (body m) as [ys|e] eqn:E4.
    2: { exists [Got m], (Err e). left. exists s. cbn. repeat split. intros more. rewrite E1, E2, E3, E4. reflexivity. }
    assert (G : forall es : list (ev Y), gots (Got m :: map Yielded ys ++ es) = m :: gots es).
    { intros es. cbn [gots]. rewrite gots_app, gots_yielded. reflexivity. }
    destruct IH as (es & r & [(rest & H1 & _ & H3)|(rest & H1 & _ & H3 & H4)]); exists (Got m :: map Yielded ys ++ es), r.
    + left. exists rest. rewrite G, H1. repeat split. intros more. cbn. rewrite E1, E2, E3, E4, H3. reflexivity.
    + right. exists rest. rewrite G. split; [destruct H1 as [->| ->]; [left|right]; reflexivity|]. split; [exact I|]. split; [exact H3|].
      intros more. cbn. rewrite E1, E2, E3, E4, H4. reflexivity.
  - exists [], (Err TimeoutError). right. exists s. cbn. auto.
Qed.

Lemma gots_drop {Y Z} (l : list (ev Y)) : gots (drop_yields (Z:=Z) l) = gots l.
Proof. induction l as [|[] l IH]; cbn; congruence. Qed.

Lemma lawful_collect n {Y Z} (g : io Y unit) : lawful n g -> lawful n (collect (Z:=Z) g).
Proof.
  intros L s. destruct (L s) as (es & r & H).
  exists (drop_yields es), (match r with Ok _ => Ok (yields es) | Err e => Err e end). rewrite gots_drop.
  destruct H as [(rest & H1 & H2 & H3)|(rest & H1 & H2 & H3 & H4)]; [left|right]; exists rest.
  - repeat split; try assumption. intros more. unfold collect. rewrite H3. reflexivity.
  - rewrite H3 in *. repeat split; try assumption. intros more. unfold collect. rewrite H4. reflexivity.
Qed.

(** ** The methods of items *)

Lemma lawful_ack n {Y} m : lawful n (check_ack (Y:=Y) m).
Proof. unfold check_ack. apply lawful_if; [apply lawful_raise|apply lawful_ret]. Qed.
Lemma lawful_normal {Y} it what : lawful (Some 1%nat) (send_normal_message (Y:=Y) it what).
Proof. apply lawful_lift_then. intros m. apply lawful_send_then. intros _. apply lawful_read_then. intros. apply lawful_ack. Qed.
Lemma lawful_writing {Y} it dim args : lawful (Some 1%nat) (send_dimension_writing (Y:=Y) it dim args).
Proof. apply lawful_lift_then. intros m. apply lawful_send_then. intros _. apply lawful_read_then. intros. apply lawful_ack. Qed.
Lemma lawful_camera {Y} it what : lawful (Some 1%nat) (send_command_without_where (Y:=Y) it what).
Proof. apply lawful_send_then. intros _. apply lawful_read_then. intros. apply lawful_ack. Qed.
Lemma lawful_loop {Y} it keep (body : msg -> res (list Y)) : lawful None (reply_loop it keep body).
Proof. unfold reply_loop. apply lawful_if; [apply lawful_raise|apply lawful_replies]. Qed.
Lemma lawful_status {Y} it (body : msg -> res (list Y)) : lawful None (send_status_request it body).
Proof. apply lawful_send_then. intros _. apply lawful_loop. Qed.
Lemma lawful_request {Y} it dim (body : msg -> res (list Y)) : lawful None (send_dimension_request it dim body).
Proof. apply lawful_lift_then. intros d. apply lawful_send_then. intros _. apply lawful_loop. Qed.
Lemma lawful_andthen_none {Y A B} (x : io Y A) (f : A -> io Y B) : lawful None x -> (forall a, lawful None (f a)) -> lawful None (andthen x f).
Proof. intros H H0. exact (lawful_andthen None None _ _ H H0). Qed.
Lemma lawful_single {Y} it dim : lawful None (single_dim_req (Y:=Y) it dim).
Proof.
  apply lawful_andthen_none; [apply lawful_collect, lawful_request|]. intros [|m l]; [apply lawful_raise|].
  apply lawful_if; [apply lawful_ret|apply lawful_raise].
Qed.
Lemma lawful_gateway {Y A} it w (decode : list str -> res A) : lawful None (ask_gateway (Y:=Y) it w decode).
Proof. apply lawful_andthen_none; [apply lawful_single|]. intros. apply lawful_lift. Qed.
Lemma lawful_energy {Y A} it d (decode : list str -> res A) : lawful None (ask_energy (Y:=Y) it d decode).
Proof. apply lawful_lift_then. intros w. apply lawful_andthen_none; [apply lawful_single|]. intros. apply lawful_lift. Qed.

Ltac law := repeat match goal with
  | |- lawful _ (andthen (lift _) _) => apply lawful_lift_then; intros ?
  | |- lawful _ (if _ then _ else _) => apply lawful_if
  | |- lawful _ (raise _) => apply lawful_raise
  | |- lawful _ (send_normal_message _ _) => apply lawful_normal
  | |- lawful _ (send_dimension_writing _ _ _) => apply lawful_writing
  | |- lawful _ (send_command_without_where _ _) => apply lawful_camera
  | |- lawful _ (send_status_request _ _) => apply lawful_status
  | |- lawful _ (send_dimension_request _ _ _) => apply lawful_request
  | |- lawful _ (ask_gateway _ _ _) => apply lawful_gateway
  | |- lawful _ (ask_energy _ _ _) => apply lawful_energy
  | |- lawful _ (match ?v with Some _ => _ | None => _ end) => destruct v
  end.

Lemma lawful_step {Y} it w a b : lawful (Some 1%nat) (dimmer_step (Y:=Y) it w a b).
Proof. unfold dimmer_step. law. Qed.
Lemma lawful_speed {Y} it w a : lawful (Some 1%nat) (dimmer_speed (Y:=Y) it w a).
Proof. unfold dimmer_speed. law. Qed.

Lemma command_lawful it Y A (x : io Y A) : command_method it Y A x -> lawful (Some 1%nat) x.
Proof.
  intros (k & [M|M] & K).
  - destruct M; try (exfalso; destruct K as [K|[K|K]]; discriminate K); try apply lawful_step; try apply lawful_speed; try (destruct dt as [[y0 mo] d]);
      unfold run_base, run_blink, run_level, temporization_command, set_brightness_with_speed, set_hsv, set_white_temperature, run_auto, receive_video, run_cam, display_dial, set_time, set_date, set_datetime, run_energy; law.
  - destruct M; try (exfalso; destruct K as [K|[K|K]]; discriminate K);
      unfold start_sending_instant_power, stop_sending_instant_power; law.
Qed.

Lemma request_lawful it Y A (x : io Y A) : request_method it Y A x -> lawful None x.
Proof.
  intros (k & [M|M] & K).
  - destruct M; try (exfalso; destruct K as [K|K]; discriminate K); 
      unfold light_get_status, dimmer_get_status, temporization_request, request_working_time_lamp, request_current_brightness_speed, request_current_hsv, request_current_white_temperature, auto_get_status, get_time, get_date, get_ip, get_netmask, get_macaddress, get_model, get_firmware, get_uptime, get_datetime, get_kernel_version, get_distribution_version, get_active_power, get_energy_unit_totalizer, get_partial_totalizer_current_month, get_partial_totalizer_current_day, get_actuators_info, get_differential_current_level; law.
    + unfold get_netinfo. apply lawful_andthen_none; [apply lawful_gateway|]. intros ip.
      apply lawful_andthen_none; [apply lawful_gateway|]. intros. apply lawful_lift.
    + unfold request_status. apply lawful_andthen_none; [apply lawful_collect, lawful_request|]. intros. apply lawful_lift.
  - destruct M; try (exfalso; destruct K as [K|K]; discriminate K);
      unfold get_energy_unit_per_month, get_totalizers; law.
Qed.

(** ** The handshake *)

Lemma lawful_tag n {Y} m i : lawful n (tag_at (Y:=Y) m i).
Proof. apply lawful_lift. Qed.
Lemma lawful_tag_then n {Y A} m i (f : str -> io Y A) : (forall a, lawful n (f a)) -> lawful n (andthen (tag_at m i) f).
Proof. apply lawful_lift_then. Qed.

Lemma lawful_open {Y} c pw nonce : lawful (Some 1%nat) (auth_open (Y:=Y) c pw nonce).
Proof.
  apply lawful_lift_then. intros enc. apply lawful_send_then. intros _. apply lawful_read_then. intros m.
  apply lawful_if; [apply lawful_ret|apply lawful_raise].
Qed.
Lemma lawful_hmac {Y} C c pw tag rnd : lawful (Some 2%nat) (auth_hmac (Y:=Y) C c pw tag rnd).
Proof.
  unfold auth_hmac. destruct (alg_from_string tag).
  - apply lawful_send_then. intros _. apply lawful_read_then. intros m. apply lawful_tag_then. intros k.
    apply lawful_lift_then. intros _. apply lawful_lift_then. intros d1. apply lawful_lift_then. intros d2. apply lawful_send_then. intros _.
    apply lawful_read_then. intros m2. apply lawful_if; [apply lawful_raise|].
    apply lawful_tag_then. intros t. apply lawful_lift_then. intros h. apply lawful_lift_then. intros b.
    apply lawful_if; [apply lawful_raise|apply lawful_send].
  - apply lawful_send_then. intros _. apply lawful_raise.
Qed.
Lemma lawful_handshake {Y} C c pw rnd : lawful (Some 4%nat) (handshake (Y:=Y) C c pw rnd).
Proof.
  unfold handshake. apply lawful_read_then. intros m. apply lawful_if; [apply lawful_raise|].
  apply lawful_lift_then. intros sm. apply lawful_send_then. intros _. apply lawful_read_then. intros m2.
  apply lawful_if; [apply lawful_ret|]. apply lawful_if.
  - apply lawful_tag_then. intros nonce. eapply lawful_le; [|apply lawful_open]. lia.
  - apply lawful_tag_then. intros t. apply lawful_if; [|apply lawful_raise].
    apply lawful_tag_then. intros tag. apply lawful_hmac.
Qed.

(** ** The clock *)

Lemma waits_app t arr s1 s2 t' arr' :
  waits t arr (s1 ++ s2) t' arr' <-> exists t1 arr1, waits t arr s1 t1 arr1 /\ waits t1 arr1 s2 t' arr'.
Proof.
  split.
  - revert t arr. induction s1 as [|o s1 IH]; intros t arr H; cbn [app] in H.
    + exists t, arr. split; [constructor|exact H].
    + inversion H as [|? a m arr0 s ? ? L W|? ? s ? ? Q W]; subst; destruct (IH _ _ W) as (t1 & arr1 & W1 & W2); exists t1, arr1; split; try assumption; constructor; assumption.
  - intros (t1 & arr1 & W1 & W2). induction W1; cbn [app]; [exact W2|constructor; auto..].
Qed.

Lemma waits_bound t arr s t' arr' : waits t arr s t' arr' -> t <= t' <= t + read_timeout * N.of_nat (List.length s).
Proof.
  induction 1; cbn [List.length]; rewrite ?Nat2N.inj_succ, ?N.mul_succ_r; try lia.
Qed.

Lemma waits_exists n t arr : exists s t' arr', List.length s = n /\ waits t arr s t' arr'.
Proof.
  revert t arr. induction n as [|n IH]; intros t arr.
  - exists [], t, arr. split; [reflexivity|constructor].
  - destruct arr as [|[a m] arr].
    + destruct (IH (t + read_timeout) []) as (s & t' & arr' & L & W). exists (None :: s), t', arr'.
      split; [cbn; congruence|]. constructor; [exact I|exact W].
    + destruct (N.le_gt_cases a (t + read_timeout)) as [H|H].
      * destruct (IH (N.max t a) arr) as (s & t' & arr' & L & W). exists (Some m :: s), t', arr'.
        split; [cbn; congruence|]. constructor; assumption.
      * destruct (IH (t + read_timeout) ((a, m) :: arr)) as (s & t' & arr' & L & W). exists (None :: s), t', arr'.
        split; [cbn; congruence|]. constructor; [cbn; lia|exact W].
Qed.

(** Messages read are messages that arrived. *)
Lemma waits_count t arr s t' arr' ms : waits t arr s t' arr' -> s = map Some ms -> (List.length ms <= List.length arr)%nat.
Proof.
  intros W. revert ms. induction W; intros [|x ms] E; try discriminate; cbn; try lia. injection E as -> ->.
  specialize (IHW ms eq_refl). lia.
Qed.

Lemma none_some (ms : list msg) s1 s2 : map Some ms <> s1 ++ None :: s2.
Proof. revert s1. induction ms as [|m ms IH]; intros [|o s1] E; try discriminate. injection E as _ E. exact (IH _ E). Qed.

(** What a coroutine that is lawful has read when it ends. *)
Lemma timed_reads n {Y A} (x : io Y A) t arr es r t' arr' :
  lawful n x -> timed x t arr es r t' arr' ->
  (waits t arr (map Some (gots es)) t' arr' /\ fits n (List.length (gots es))) \/
  (waits t arr (map Some (gots es) ++ [None]) t' arr' /\ fits n (S (List.length (gots es))) /\ r = Err TimeoutError).
Proof.
  intros L (s & W & X). destruct (L (s ++ [None])) as (es0 & r0 & [(rest & H1 & H2 & H3)|(rest & H1 & H2 & H3 & H4)]).
  - specialize (X [None]). rewrite H1, H3 in X. injection X as -> -> ->. apply app_inj_tail in H1 as [-> _]. left. auto.
  - destruct H1 as [H1|H1].
    + specialize (X [None]). rewrite H1, H4 in X. injection X as -> -> <-.
      change (None :: [None]) with ([None] ++ [@None msg]) in H1. rewrite app_assoc in H1. apply app_inj_tail in H1 as [-> _]. right. auto.
    + exfalso. symmetry in H1. exact (none_some _ _ _ H1).
Qed.

Lemma timed_exists n {Y A} (x : io Y A) t arr : lawful n x -> exists es r t' arr', timed x t arr es r t' arr'.
Proof.
  intros L. destruct (waits_exists (S (List.length arr)) t arr) as (s & te & ae & Ls & W).
  destruct (L s) as (es & r & [(rest & H1 & _ & H3)|(rest & H1 & _ & H3 & H4)]).
  - rewrite H1 in W. apply waits_app in W as (t' & arr' & W & _). exists es, r, t', arr', (map Some (gots es)). auto.
  - destruct H1 as [H1|H1].
    + rewrite H1 in W. change (None :: rest) with ([None] ++ rest) in W. rewrite app_assoc in W.
      apply waits_app in W as (t' & arr' & W & _). exists es, r, t', arr', (map Some (gots es) ++ [None]). split; [exact W|].
      intros more. rewrite <- app_assoc. apply H4.
    + exfalso. pose proof (waits_count _ _ _ _ _ _ W H1) as K. rewrite H1, map_length in Ls. lia.
Qed.

Lemma timed_within n {Y A} (x : io Y A) t arr es r t' arr' :
  lawful (Some n) x -> timed x t arr es r t' arr' -> t <= t' <= t + read_timeout * N.of_nat n.
Proof.
  intros L H. destruct (timed_reads _ _ _ _ _ _ _ _ L H) as [(W & F)|(W & F & _)]; apply waits_bound in W;
    rewrite ?app_length, map_length in W; cbn [fits List.length] in *; nia.
Qed.

Lemma timed_replies n {Y A} (x : io Y A) t arr es r t' arr' :
  lawful n x -> timed x t arr es r t' arr' -> t <= t' <= t + read_timeout * (read_count es + 1).
Proof.
  intros L H. unfold read_count. destruct (timed_reads _ _ _ _ _ _ _ _ L H) as [(W & F)|(W & F & _)]; apply waits_bound in W;
    rewrite ?app_length, map_length in W; cbn [List.length] in *; nia.
Qed.

(** A message read was read no later than 5 seconds after the previous one. *)
Lemma timed_silence n {Y A} (x : io Y A) t arr es r t' arr' :
  lawful n x -> timed x t arr es r t' arr' ->
  exists t1, waits t arr (map Some (gots es)) t1 arr' /\
    (t' = t1 \/ r = Err TimeoutError /\ t' = t1 + read_timeout /\ quiet_until t' arr').
Proof.
  intros L H. destruct (timed_reads _ _ _ _ _ _ _ _ L H) as [(W & F)|(W & F & R)].
  - exists t'. auto.
  - apply waits_app in W as (t1 & arr1 & W1 & W2). inversion W2 as [| |? ? ? ? ? Q W3]; subst. inversion W3; subst.
    exists t1. split; [exact W1|]. right. auto.
Qed.

(** ** Replies that keep coming *)

Fixpoint drip (n : nat) (t : N) (m : msg) : arrivals :=
  match n with O => [(t, MAck)] | S n => (t + read_timeout, m) :: drip n (t + read_timeout) m end.

Lemma drip_waits n m t : waits t (drip n t m) (repeat (Some m) n ++ [Some MAck]) (t + read_timeout * N.of_nat n) [].
Proof.
  revert t. induction n as [|n IH]; intros t.
  - cbn. rewrite N.add_0_r. apply W_message; [lia|]. rewrite N.max_id. constructor.
  - cbn [drip repeat app]. apply W_message; [lia|]. rewrite N.max_r by lia.
    replace (t + read_timeout * N.of_nat (S n)) with (t + read_timeout + read_timeout * N.of_nat n) by lia. apply IH.
Qed.

Lemma drip_replies {Y} keep (body : msg -> res (list Y)) n m ys :
  msg_type m <> T_ACK -> msg_type m <> T_NACK -> keep m = true -> body m = Ok ys ->
  exists es, forall more, replies keep body ((repeat (Some m) n ++ [Some MAck]) ++ more) = (es, more, Ok tt).
Proof.
  intros N1 N2 K B.
  assert (E1 : mtype_eqb (msg_type m) T_NACK = false) by (destruct (msg_type m); congruence || reflexivity).
  assert (E2 : mtype_eqb (msg_type m) T_ACK = false) by (destruct (msg_type m); congruence || reflexivity).
  induction n as [|n (es & IH)].
  - exists [Got MAck]. reflexivity.
  - exists (Got m :: map Yielded ys ++ es). intros more. cbn. rewrite E1, E2, K, B. cbn [negb]. rewrite IH. reflexivity.
Qed.

Lemma status_drip {Y} it (body : msg -> res (list Y)) m ys b n t :
  is_cmd_session (it_client it) = true -> cl_proto (it_client it) = true ->
  msg_bytes (create_status_message it) = Ok b -> msg_type m = T_NORMAL -> body m = Ok ys ->
  exists es, timed (send_status_request it body) t (drip n t m) es (Ok tt) (t + read_timeout * N.of_nat n) [].
Proof.
  intros C P B T M. destruct (drip_replies is_normal body n m ys) as (es & H); [rewrite T; discriminate..|unfold is_normal; rewrite T; reflexivity|exact M|].
  exists (Sent b :: es). exists (repeat (Some m) n ++ [Some MAck]). split; [apply drip_waits|]. intros more.
  unfold send_status_request, andthen, item_send, client_send. rewrite C, P. cbn [negb andb]. unfold andthen, lift. rewrite B. cbn [put].
  unfold reply_loop. rewrite P. cbn [negb put]. rewrite H. reflexivity.
Qed.

Lemma request_drip {Y} it dim (body : msg -> res (list Y)) m ys b n t :
  is_cmd_session (it_client it) = true -> cl_proto (it_client it) = true ->
  mk dim = Ok dim -> msg_bytes (create_dimension_request_message it dim) = Ok b -> msg_type m = T_DIMRES -> body m = Ok ys ->
  exists es, timed (send_dimension_request it dim body) t (drip n t m) es (Ok tt) (t + read_timeout * N.of_nat n) [].
Proof.
  intros C P D B T M. destruct (drip_replies is_dimres body n m ys) as (es & H); [rewrite T; discriminate..|unfold is_dimres; rewrite T; reflexivity|exact M|].
  exists (Sent b :: es). exists (repeat (Some m) n ++ [Some MAck]). split; [apply drip_waits|]. intros more.
  unfold send_dimension_request, andthen at 1, lift. rewrite D. cbn [app]. unfold andthen, item_send, client_send. rewrite C, P. cbn [negb andb]. unfold andthen, lift. rewrite B. cbn [put].
  unfold reply_loop. rewrite P. cbn [negb put]. rewrite H. reflexivity.
Qed.

Lemma one_read {Y A} (x : io Y A) t arr es r t' arr' :
  lawful (Some 1%nat) x -> timed x t arr es r t' arr' ->
  (gots es = [] /\ t' = t /\ arr' = arr) \/
  (exists a m, arr = (a, m) :: arr' /\ gots es = [m] /\ a <= t + read_timeout /\ t' = N.max t a) \/
  (gots es = [] /\ r = Err TimeoutError /\ t' = t + read_timeout /\ arr' = arr /\ quiet_until t' arr).
Proof.
  intros L H. destruct (timed_reads _ _ _ _ _ _ _ _ L H) as [(W & F)|(W & F & R)].
  - destruct (gots es) as [|m [|m2 l]]; cbn in F; [| |lia].
    + inversion W; subst. auto.
    + inversion W as [|? a ? arr0 ? ? ? La W1|]; subst. inversion W1; subst. right. left. exists a, m. auto.
  - destruct (gots es) as [|m l]; cbn in F; [|lia]. cbn in W. inversion W as [| |? ? ? ? ? Q W1]; subst. inversion W1; subst. auto 10.
Qed.

Lemma drip_long bound t : bound < (t + read_timeout * N.of_nat (S (N.to_nat bound))) - t.
Proof. unfold read_timeout. lia. Qed.
