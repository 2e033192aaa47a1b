(** * The log: what is refused, and start() *)
From Coq Require Import String List NArith ZArith Bool Lia.
From Verif Require Import PyStr Regex Tags Messages MessageFacts SpecMsg MessageThms MessageThms2 MessageThms3 AuthOpen AuthHmac SpecOpen OpenThms SpecClient HmacThms IO
  Protocol SpecProto ProtoThms Client Items Energy Dispatch DispatchThms2 Errors SpecErrors ErrorThms Log SpecLog LogThms HandshakeThms.
Import ListNotations.
Open Scope N_scope.
Open Scope list_scope.

(** ** Erasure *)

Definition forget_out {Y A} (x : list lev * script * (A + (exn * str))) : list (ev Y) * script * res A :=
  match x with (es, s, r) => (forget_log es, s, forget_text r) end.

Lemma forget_log_app {Y} a b : forget_log (Y := Y) (a ++ b) = forget_log a ++ forget_log b.
Proof. induction a as [|[] a IH]; cbn; congruence. Qed.

Definition erases {Y A} (x : lio A) (y : io Y A) : Prop := forall s, forget_out (x s) = y s.

Lemma erases_then {Y A B} (x : lio A) (y : io Y A) (f : A -> lio B) (g : A -> io Y B) :
  erases x y -> (forall a, erases (f a) (g a)) -> erases (landthen x f) (andthen y g).
Proof.
  intros H K s. unfold landthen, andthen. specialize (H s). destruct (x s) as [[es s'] [a|[e t]]]; cbn [forget_out forget_text] in H; rewrite <- H; cbn [forget_out forget_text].
  - specialize (K a s'). destruct (f a s') as [[es' s''] r]. cbn [forget_out] in K. rewrite <- K. cbn [forget_out]. rewrite forget_log_app. reflexivity.
  - reflexivity.
Qed.

Lemma erases_say {Y A} g l t (f : unit -> lio A) (y : io Y A) : erases (f tt) y -> erases (landthen (say g l t) f) y.
Proof. intros H s. unfold landthen, say. specialize (H s). destruct (f tt s) as [[es s'] r]. exact H. Qed.

Lemma erases_said {Y A} (x : lio unit) (y : io Y unit) g l t (f : unit -> lio A) : erases x y -> erases (landthen x (fun _ => say g l t)) y.
Proof.
  intros H s. unfold landthen, say. specialize (H s). destruct (x s) as [[es s'] [[]|[e w]]]; rewrite <- H; cbn [forget_out]; [|reflexivity].
  rewrite forget_log_app. cbn. rewrite app_nil_r. reflexivity.
Qed.

Lemma erases_lift {Y A} t (r : res A) : erases (llift t r) (lift (Y := Y) r).
Proof. intros s. destruct r; reflexivity. Qed.
Lemma erases_raise {Y A} e t : erases (@lraise A e t) (raise (Y := Y) e).
Proof. intros s. reflexivity. Qed.
Lemma erases_ret {Y A} (a : A) : erases (lret a) (ret (Y := Y) a).
Proof. intros s. reflexivity. Qed.
Lemma erases_take {Y} : erases ltake (take (Y := Y)).
Proof. intros [|[m|] s]; reflexivity. Qed.

Lemma erases_read {Y} c : erases (client_read_l c) (client_read (Y := Y) c).
Proof. unfold client_read_l, client_read. destruct (negb (cl_proto c)); [apply erases_raise|apply erases_take]. Qed.

Lemma erases_send {Y} other c m : erases (client_send_l other c m) (client_send (Y := Y) c true m).
Proof.
  unfold client_send_l, client_send. rewrite andb_false_r. destruct (negb (cl_proto c)); [apply erases_raise|].
  apply erases_then; [apply erases_lift|]. intros b. apply (erases_said (lput b) (put b) _ _ _ (fun _ => lret tt)). intros s. reflexivity.
Qed.

Lemma erases_tag {Y} other m i : erases (tag_at_l other m i) (tag_at (Y := Y) m i).
Proof. apply erases_lift. Qed.

Lemma erases_open {Y} other odd c p n : erases (auth_open_l other odd c p n) (auth_open (Y := Y) c p n).
Proof.
  unfold auth_open_l, auth_open. apply erases_then; [apply erases_lift|]. intros enc.
  apply erases_then; [apply erases_send|]. intros _. apply erases_then; [apply erases_read|]. intros resp.
  destruct (mtype_eqb _ _); [apply erases_ret|apply erases_raise].
Qed.

Lemma erases_hmac {Y} other C c p tag rnd : erases (auth_hmac_l other C c p tag rnd) (auth_hmac (Y := Y) C c p tag rnd).
Proof.
  unfold auth_hmac_l, auth_hmac. destruct (alg_from_string tag).
  - apply erases_then; [apply erases_send|]. intros _. apply erases_then; [apply erases_read|]. intros resp.
    apply erases_then; [apply erases_tag|]. intros key. apply erases_then; [apply erases_lift|]. intros _. apply erases_then; [apply erases_lift|]. intros d1. apply erases_then; [apply erases_lift|]. intros d2.
    apply erases_then; [apply erases_send|]. intros _. apply erases_then; [apply erases_read|]. intros resp2.
    destruct (mtype_eqb _ _); [apply erases_raise|]. apply erases_then; [apply erases_tag|]. intros t.
    apply erases_then; [apply erases_lift|]. intros h. apply erases_then; [apply erases_lift|]. intros b.
    destruct (negb _); [apply erases_raise|apply erases_send].
  - apply erases_then; [apply erases_send|]. intros _. apply erases_raise.
Qed.

Lemma erases_handshake {Y} other odd C c p rnd : erases (handshake_l other odd C c p rnd) (handshake (Y := Y) C c p rnd).
Proof.
  unfold handshake_l, handshake. apply erases_say. apply erases_then; [apply erases_read|]. intros m.
  destruct (negb _); [apply erases_raise|]. apply erases_say. apply erases_then; [apply erases_lift|]. intros sm.
  apply erases_then; [apply erases_send|]. intros _. apply erases_then; [apply erases_read|]. intros resp.
  apply (erases_said _ _ _ _ _ (fun _ => lret tt)).
  destruct (mtype_eqb _ _); [intros s; reflexivity|]. destruct (_ =? 1)%nat.
  - apply erases_say. apply erases_then; [apply erases_tag|]. intros n. apply erases_open.
  - apply erases_then; [apply erases_tag|]. intros t. destruct (str_eqb _ _); [|apply erases_raise].
    apply erases_say. apply erases_then; [apply erases_tag|]. intros tag. apply erases_hmac.
Qed.

Theorem start_same {Y} other odd C c p rnd connected s :
  fst (start_l other odd C c p rnd connected s) = fst (start (Y := Y) C c p rnd connected s) /\
  forget_out (snd (start_l other odd C c p rnd connected s)) = snd (start (Y := Y) C c p rnd connected s).
Proof.
  unfold start_l, start. destruct connected; cbn [fst snd]; [|split; reflexivity]. split; [reflexivity|].
  apply (erases_say _ _ _ (fun _ => handshake_l other odd C _ p rnd)). apply erases_handshake.
Qed.

(** ** What can be seen at INFO *)

Definition infos (es : list lev) : list record := filter seen_at_info (logged es).
Definition summ {A} (x : list lev * script * (A + (exn * str))) : list record * (A + (exn * str)) := (infos (fst (fst x)), snd x).

Lemma logged_app a b : logged (a ++ b) = logged a ++ logged b.
Proof. induction a as [|[] a IH]; cbn; congruence. Qed.
Lemma infos_app a b : infos (a ++ b) = infos a ++ infos b.
Proof. unfold infos. rewrite logged_app, filter_app. reflexivity. Qed.

Lemma summ_then {A B} (x : lio A) (f : A -> lio B) s : summ (landthen x f s) =
  match x s with
  | (es, s', inl a) => (infos es ++ fst (summ (f a s')), snd (summ (f a s')))
  | (es, s', inr e) => (infos es, inr e)
  end.
Proof.
  unfold landthen. destruct (x s) as [[es s'] [a|e]]; [|reflexivity]. destruct (f a s') as [[es' s''] r]. unfold summ. cbn [fst snd].
  rewrite infos_app. reflexivity.
Qed.

(** The same outcome for every password and every random draw, or one of two. *)
Definition blind {A} (x : A -> list record * (unit + (exn * str))) (P : A -> Prop) : Prop :=
  exists l e, forall a, P a -> (snd (x a) = inl tt /\ fst (x a) = l) \/ (snd (x a) = inr e /\ fst (x a) = l).

Definition numeric (p : str) : Prop := exists v, py_int p = Ok v.

Lemma hexs_mod l : hexs l = hexs (map (fun x => x mod 256) l).
Proof.
  unfold hexs. rewrite map_map. f_equal. apply map_ext. intros x.
  pose proof (N.div_mod x 256 ltac:(discriminate)) as Q.
  assert (A : x mod 16 = x mod 256 mod 16).
  { rewrite Q at 1. replace (256 * (x / 256) + x mod 256) with (x mod 256 + (16 * (x / 256)) * 16) by lia. apply N.mod_add. discriminate. }
  assert (B : x / 16 mod 16 = x mod 256 / 16 mod 16).
  { rewrite Q at 1. replace (256 * (x / 256) + x mod 256) with (x mod 256 + (16 * (x / 256)) * 16) by lia. rewrite N.div_add by discriminate.
    replace (x mod 256 / 16 + 16 * (x / 256)) with (x mod 256 / 16 + (x / 256) * 16) by lia. apply N.mod_add. discriminate. }
  rewrite A, B. reflexivity.
Qed.

Lemma hexs_digits l : exists d, hex_to_digits (hexs l) = Ok d /\ digits d.
Proof.
  rewrite hexs_mod. assert (B : bytes (map (fun x => x mod 256) l)).
  { unfold bytes. rewrite Forall_map. apply Forall_forall. intros x _. apply N.mod_lt. discriminate. }
  exists (pairs (map (fun x => x mod 256) l)). pose proof (hexs_pairs _ B) as H. split; [exact H|]. apply (hex_to_digits_shape _ _ H).
Qed.

Lemma digits_ascii d : digits d -> forallb (fun c => c <? 128) d = true.
Proof. intros H. apply forallb_forall. intros c I. unfold digits in H. rewrite Forall_forall in H. apply H in I. unfold digitchar in I. apply N.ltb_lt. lia. Qed.

Lemma send_ok other c m s : cl_proto c = true -> forallb (fun c => c <? 128) (msg_str m) = true ->
  client_send_l other c m s = ([LSent (msg_str m); LLog (sent_record m)], s, inl tt).
Proof.
  intros H A. unfold client_send_l. rewrite H. cbn [negb]. pose proof (msg_bytes_cases m) as B. rewrite A in B.
  unfold landthen, llift. rewrite B. reflexivity.
Qed.

Lemma generic_ascii l : Forall (fun d => forallb (fun c => c <? 128) d = true) l -> forallb (fun c => c <? 128) (msg_str (MGeneric l)) = true.
Proof.
  intros H. cbn [msg_str]. apply forallb_forall. intros c I. apply in_app_or in I as [[<-|[]]|I]; [reflexivity|].
  apply in_app_or in I as [I|I]; [|destruct I as [<-|[<-|[]]]; reflexivity].
  apply join_in in I as [->|(t & Ht & I)]; [reflexivity|]. rewrite Forall_forall in H. specialize (H t Ht). rewrite forallb_forall in H. apply H, I.
Qed.

Lemma blind_const {A} (x : A -> list record * (unit + (exn * str))) (P : A -> Prop) v : (forall a, P a -> x a = v) -> blind x P.
Proof.
  intros H. destruct v as [l [[]|e]].
  - exists l, (TimeoutError, []). intros a Pa. rewrite (H a Pa). left. auto.
  - exists l, e. intros a Pa. rewrite (H a Pa). right. auto.
Qed.

Lemma blind_pre {A} (x y : A -> list record * (unit + (exn * str))) (P : A -> Prop) l0 :
  (forall a, P a -> y a = (l0 ++ fst (x a), snd (x a))) -> blind x P -> blind y P.
Proof.
  intros H (l & e & B). exists (l0 ++ l), e. intros a Pa. rewrite (H a Pa). cbn [fst snd].
  destruct (B a Pa) as [[-> ->]|[-> ->]]; auto.
Qed.

Lemma read_cases c s : cl_proto c = true ->
  (exists m s', client_read_l c s = ([LGot m], s', inl m) /\ s = Some m :: s') \/ exists s', client_read_l c s = ([], s', inr (TimeoutError, [])).
Proof. intros H. unfold client_read_l. rewrite H. destruct s as [|[m|] s]; cbn; eauto 6. Qed.

Lemma pass_digits p nonce : numeric p -> exists d, own_calc_pass p nonce = Ok d /\ digits d.
Proof.
  intros (v & H). rewrite (pass_ok _ nonce v H). eexists. split; [reflexivity|].
  apply MessageThms.digits_all, dec_digits.
Qed.

Lemma summ_skip {A B} (x : lio A) (f : A -> lio B) s es s' a : x s = (es, s', inl a) -> infos es = [] -> summ (landthen x f s) = summ (f a s').
Proof. intros E I. rewrite summ_then, E, I. unfold summ. destruct (f a s') as [[? ?] ?]. reflexivity. Qed.

Lemma summ_fail {A B} (x : lio A) (f : A -> lio B) s es s' e : x s = (es, s', inr e) -> infos es = [] -> summ (landthen x f s) = ([], inr e).
Proof. intros E I. rewrite summ_then, E, I. reflexivity. Qed.

Lemma open_blind other odd c nonce s : cl_proto c = true ->
  blind (fun a : str * list N => summ (auth_open_l other odd c (fst a) nonce s)) (fun a => numeric (fst a)).
Proof.
  intros H.
  assert (E : forall a : str * list N, numeric (fst a) -> summ (auth_open_l other odd c (fst a) nonce s) =
    summ ((do* resp := client_read_l c in if mtype_eqb (msg_type resp) T_ACK then lret tt else lraise InvalidAuthentication (lit "Invalid password")) s)).
  { intros [p rnd] Np. cbn [fst] in *. destruct (pass_digits p nonce Np) as (d & Ed & D). unfold auth_open_l.
    rewrite (summ_skip _ _ s [] s d) by (try reflexivity; unfold llift; rewrite Ed; reflexivity).
    assert (G : forallb (fun c => c <? 128) (msg_str (MGeneric [c_hash :: d])) = true)
      by (apply generic_ascii; apply Forall_cons; [cbn [forallb]; apply digits_ascii, D|constructor]).
    rewrite (summ_skip _ _ _ _ _ _ (send_ok other c _ s H G) eq_refl). reflexivity. }
  eapply blind_const. exact E.
Qed.

Definition verdict (other : exn -> str -> str) (c : client) (server_auth : list N) : lio unit :=
  do* resp2 := client_read_l c in
  if mtype_eqb (msg_type resp2) T_NACK then lraise InvalidAuthentication (lit "Invalid password")
  else
    do* t := tag_at_l other resp2 0 in
    do* h := llift (fun e => other e t) (hex_to_digits t) in
    do* b := llift (fun e => other e h) (fromhex h) in
    if negb (compare_hmac server_auth b) then lraise InvalidAuthentication (lit "Invalid password")
    else client_send_l other c MAck.

Lemma verdict_blind {A} other c (auth : A -> list N) s : cl_proto c = true -> blind (fun a => summ (verdict other c (auth a) s)) (fun _ => True).
Proof.
  intros H. unfold verdict. destruct (read_cases c s H) as [(m & s1 & R & _)|(s1 & R)].
  2:{ eapply blind_const. intros a _. eapply summ_fail; [exact R|reflexivity]. }
  destruct (mtype_eqb (msg_type m) T_NACK) eqn:T.
  { eapply blind_const. intros a _. rewrite (summ_skip _ _ _ _ _ _ R eq_refl), T. reflexivity. }
  destruct (index (msg_tags m) 0) as [t|e] eqn:K.
  2:{ eapply blind_const. intros a _. rewrite (summ_skip _ _ _ _ _ _ R eq_refl), T. rewrite summ_then. unfold tag_at_l, llift. rewrite K. reflexivity. }
  destruct (hex_to_digits t) as [h|e] eqn:Ht.
  2:{ eapply blind_const. intros a _. rewrite (summ_skip _ _ _ _ _ _ R eq_refl), T.
      rewrite (summ_skip _ _ s1 [] s1 t) by (try reflexivity; unfold tag_at_l, llift; rewrite K; reflexivity).
      rewrite summ_then. unfold llift at 1. rewrite Ht. reflexivity. }
  destruct (fromhex h) as [b|e] eqn:Hb.
  2:{ eapply blind_const. intros a _. rewrite (summ_skip _ _ _ _ _ _ R eq_refl), T.
      rewrite (summ_skip _ _ s1 [] s1 t) by (try reflexivity; unfold tag_at_l, llift; rewrite K; reflexivity).
      rewrite (summ_skip _ _ s1 [] s1 h) by (try reflexivity; unfold llift; rewrite Ht; reflexivity).
      rewrite summ_then. unfold llift at 1. rewrite Hb. reflexivity. }
  exists [], (InvalidAuthentication, lit "Invalid password"). intros a _.
  rewrite (summ_skip _ _ _ _ _ _ R eq_refl), T.
  rewrite (summ_skip _ _ s1 [] s1 t) by (try reflexivity; unfold tag_at_l, llift; rewrite K; reflexivity).
  rewrite (summ_skip _ _ s1 [] s1 h) by (try reflexivity; unfold llift; rewrite Ht; reflexivity).
  rewrite (summ_skip _ _ s1 [] s1 b) by (try reflexivity; unfold llift; rewrite Hb; reflexivity).
  destruct (negb _); [right; split; reflexivity|]. left. rewrite send_ok by (exact H || reflexivity). split; reflexivity.
Qed.

Lemma hmac_blind other C c tag s : cl_proto c = true ->
  blind (fun a : str * list N => summ (auth_hmac_l other C c (fst a) tag (snd a) s)) (fun a => encodable (fst a)).
Proof.
  intros H. unfold auth_hmac_l. destruct (alg_from_string tag) as [al|].
  2:{ eapply blind_const. intros a _. rewrite summ_then, send_ok by (exact H || reflexivity). reflexivity. }
  destruct (read_cases c s H) as [(m1 & s1 & R1 & _)|(s1 & R1)].
  2:{ eapply blind_const. intros a _. rewrite (summ_skip _ _ _ _ _ _ (send_ok other c MAck s H eq_refl) eq_refl). eapply summ_fail; [exact R1|reflexivity]. }
  destruct (index (msg_tags m1) 0) as [key|e] eqn:K.
  2:{ eapply blind_const. intros a _. rewrite (summ_skip _ _ _ _ _ _ (send_ok other c MAck s H eq_refl) eq_refl).
      rewrite (summ_skip _ _ _ _ _ _ R1 eq_refl). rewrite summ_then. unfold tag_at_l, llift at 1. rewrite K. reflexivity. }
  eapply (blind_pre (fun a : str * list N => summ (verdict other c (server_hmac C key (create_key C al (snd a)) (fst a) al) s1)) _ _ []);
    [|destruct (verdict_blind other c (fun a : str * list N => server_hmac C key (create_key C al (snd a)) (fst a) al) s1 H) as (l & e & B);
      exists l, e; intros a _; apply B, I].
  intros a Ea. rewrite (summ_skip _ _ _ _ _ _ (send_ok other c MAck s H eq_refl) eq_refl).
  rewrite (summ_skip _ _ _ _ _ _ R1 eq_refl).
  rewrite (summ_skip _ _ s1 [] s1 key) by (try reflexivity; unfold tag_at_l, llift; rewrite K; reflexivity).
  rewrite (summ_skip _ _ s1 [] s1 (utf8 (fst a))) by (try reflexivity; unfold llift; rewrite (utf8_ok _ Ea); reflexivity).
  destruct (hexs_digits (hash C al (snd a))) as (d1 & E1 & D1).
  destruct (hexs_digits (client_hmac C key (create_key C al (snd a)) (fst a) al)) as (d2 & E2 & D2).
  rewrite (summ_skip _ _ s1 [] s1 d1) by (try reflexivity; unfold llift; unfold create_key; rewrite E1; reflexivity).
  rewrite (summ_skip _ _ s1 [] s1 d2) by (try reflexivity; unfold llift; rewrite E2; reflexivity).
  assert (G : forallb (fun c => c <? 128) (msg_str (MGeneric [d1; d2])) = true)
    by (apply generic_ascii; repeat (apply Forall_cons; [apply digits_ascii; assumption|]); constructor).
  rewrite (summ_skip _ _ _ _ _ _ (send_ok other c _ s1 H G) eq_refl).
  cbn [app]. rewrite <- surjective_pairing. reflexivity.
Qed.

(** The part of start() between the greeting and "Client ready". *)
Definition middle other odd C c (password : str) (rnd : list N) (resp : msg) : lio unit :=
  if mtype_eqb (msg_type resp) T_ACK then say L_client INFO (lit "No authentication required")
  else if (List.length (msg_tags resp) =? 1)%nat then
    do* _ := say L_client INFO (lit "Using open authentication") in
    do* nonce := tag_at_l other resp 0 in
    auth_open_l other odd c password nonce
  else
    do* t := tag_at_l other resp 0 in
    if str_eqb t (lit "98") then
      do* _ := say L_client INFO (lit "Using hmac authentication") in
      do* tag := tag_at_l other resp 1 in
      auth_hmac_l other C c password tag rnd
    else lraise InvalidAuthentication (lit "Invalid authentication response").

Lemma middle_blind other odd C c resp s : cl_proto c = true ->
  blind (fun a : str * list N => summ (middle other odd C c (fst a) (snd a) resp s)) (fun a => encodable (fst a) /\ (numeric (fst a) \/ length (msg_tags resp) <> 1%nat)).
Proof.
  intros H. unfold middle. destruct (mtype_eqb (msg_type resp) T_ACK); [eapply blind_const; intros a _; reflexivity|].
  destruct (length (msg_tags resp) =? 1)%nat eqn:L1.
  - apply Nat.eqb_eq in L1. destruct (index (msg_tags resp) 0) as [n|e] eqn:K.
    + eapply (blind_pre (fun a : str * list N => summ (auth_open_l other odd c (fst a) n s)) _ _ [Rec L_client INFO (lit "Using open authentication")]);
        [|destruct (open_blind other odd c n s H) as (l & e & B); exists l, e; intros a [_ [Na|Na]]; [apply B, Na|destruct (Na L1)]].
      intros a _. rewrite summ_then. unfold say. rewrite summ_then. unfold tag_at_l, llift at 1 2. rewrite K. reflexivity.
    + eapply blind_const. intros a _. rewrite summ_then. unfold say. rewrite summ_then. unfold tag_at_l, llift at 1 2. rewrite K. reflexivity.
  - destruct (index (msg_tags resp) 0) as [t|e] eqn:K.
    2:{ eapply blind_const. intros a _. rewrite summ_then. unfold tag_at_l at 1. unfold llift at 1. rewrite K. reflexivity. }
    destruct (str_eqb t (lit "98")) eqn:E98.
    2:{ eapply blind_const. intros a _. rewrite summ_then. unfold tag_at_l at 1. unfold llift at 1. rewrite K, E98. reflexivity. }
    destruct (index (msg_tags resp) 1) as [tag|e] eqn:K1.
    + eapply (blind_pre (fun a : str * list N => summ (auth_hmac_l other C c (fst a) tag (snd a) s)) _ _ [Rec L_client INFO (lit "Using hmac authentication")]).
      * intros a _. rewrite (summ_skip _ _ s [] s t) by (try reflexivity; unfold tag_at_l, llift; rewrite K; reflexivity). rewrite E98.
        rewrite summ_then. unfold say. rewrite summ_then. unfold tag_at_l, llift at 1 2. rewrite K1. reflexivity.
      * destruct (hmac_blind other C c tag s H) as (l & e & B). exists l, e. intros a [Ea _]. apply B, Ea.
    + eapply blind_const. intros a _. rewrite (summ_skip _ _ s [] s t) by (try reflexivity; unfold tag_at_l, llift; rewrite K; reflexivity). rewrite E98.
      rewrite summ_then. unfold say. rewrite summ_then. unfold tag_at_l, llift at 1 2. rewrite K1. reflexivity.
Qed.

(** The gateway's answer to the session request is one tag. *)
Definition open_challenge (s : script) : Prop :=
  exists m1 m2 s', s = Some m1 :: Some m2 :: s' /\ length (msg_tags m2) = 1%nat.

(** For a fixed conversation, what INFO shows and the text of the exception are
    the same for all passwords; only the outcome can differ.  With the OPEN
    algorithm the passwords are those which int() reads, otherwise those which
    UTF-8 can encode. *)
Theorem start_blind other odd C c connected s : exists l e, forall p rnd, numeric p \/ ~ open_challenge s /\ encodable p ->
  (snd (snd (start_l other odd C c p rnd connected s)) = inl tt /\
   infos (fst (fst (snd (start_l other odd C c p rnd connected s)))) = l ++ [Rec L_client INFO (lit "Client ready")]) \/
  (snd (snd (start_l other odd C c p rnd connected s)) = inr e /\ infos (fst (fst (snd (start_l other odd C c p rnd connected s)))) = l).
Proof.
  unfold start_l. destruct connected; cbn [snd]; [|exists [], (TimeoutError, lit "Could not connect to the server"); intros; right; split; reflexivity].
  set (c' := {| cl_session := cl_session c; cl_proto := true |}).
  assert (Const : forall v, snd v <> inl tt -> (forall p rnd, summ ((do* _ := say L_protocol INFO (lit "Connection made") in handshake_l other odd C c' p rnd) s) = v) ->
    exists l e, forall p rnd, numeric p \/ ~ open_challenge s /\ encodable p ->
      (snd (summ ((do* _ := say L_protocol INFO (lit "Connection made") in handshake_l other odd C c' p rnd) s)) = inl tt /\
       fst (summ ((do* _ := say L_protocol INFO (lit "Connection made") in handshake_l other odd C c' p rnd) s)) = l ++ [Rec L_client INFO (lit "Client ready")]) \/
      (snd (summ ((do* _ := say L_protocol INFO (lit "Connection made") in handshake_l other odd C c' p rnd) s)) = inr e /\
       fst (summ ((do* _ := say L_protocol INFO (lit "Connection made") in handshake_l other odd C c' p rnd) s)) = l)).
  { intros [l [[]|e]] N V; [destruct (N eq_refl)|]. exists l, e. intros p rnd _. rewrite V. right. auto. }
  change (exists l e, forall p rnd, numeric p \/ ~ open_challenge s /\ encodable p ->
      (snd (summ ((do* _ := say L_protocol INFO (lit "Connection made") in handshake_l other odd C c' p rnd) s)) = inl tt /\
       fst (summ ((do* _ := say L_protocol INFO (lit "Connection made") in handshake_l other odd C c' p rnd) s)) = l ++ [Rec L_client INFO (lit "Client ready")]) \/
      (snd (summ ((do* _ := say L_protocol INFO (lit "Connection made") in handshake_l other odd C c' p rnd) s)) = inr e /\
       fst (summ ((do* _ := say L_protocol INFO (lit "Connection made") in handshake_l other odd C c' p rnd) s)) = l)).
  assert (H : cl_proto c' = true) by reflexivity.
  assert (S0 : forall p rnd, summ ((do* _ := say L_protocol INFO (lit "Connection made") in handshake_l other odd C c' p rnd) s) =
    (Rec L_protocol INFO (lit "Connection made") :: fst (summ (handshake_l other odd C c' p rnd s)), snd (summ (handshake_l other odd C c' p rnd s)))).
  { intros p rnd. rewrite summ_then. reflexivity. }
  destruct (read_cases c' s H) as [(m & s1 & R & Es)|(s1 & R)].
  2:{ apply (Const ([Rec L_protocol INFO (lit "Connection made")], inr (TimeoutError, []))); [discriminate|]. intros p rnd. rewrite S0.
      unfold handshake_l. rewrite (summ_skip (say L_client DEBUG _) _ s _ s tt eq_refl eq_refl). rewrite (summ_fail _ _ _ _ _ _ R eq_refl). reflexivity. }
  destruct (negb (mtype_eqb (msg_type m) T_ACK)) eqn:A.
  { apply (Const ([Rec L_protocol INFO (lit "Connection made")], inr (InvalidAuthentication, lit "Expected ACK message"))); [discriminate|]. intros p rnd. rewrite S0.
    unfold handshake_l. rewrite (summ_skip (say L_client DEBUG _) _ s _ s tt eq_refl eq_refl). rewrite (summ_skip _ _ _ _ _ _ R eq_refl), A. reflexivity. }
  assert (SM : exists sm, session_message (cl_session c') = Ok sm /\ forallb (fun c => c <? 128) (msg_str sm) = true)
    by (unfold session_message; destruct (cl_session c'); eexists; split; reflexivity).
  destruct SM as (sm & SM & SA).
  destruct (read_cases c' s1 H) as [(m2 & s2 & R2 & Es2)|(s2 & R2)].
  2:{ apply (Const ([Rec L_protocol INFO (lit "Connection made")], inr (TimeoutError, []))); [discriminate|]. intros p rnd. rewrite S0.
      unfold handshake_l. rewrite (summ_skip (say L_client DEBUG _) _ s _ s tt eq_refl eq_refl). rewrite (summ_skip _ _ _ _ _ _ R eq_refl), A.
      rewrite (summ_skip (say L_client DEBUG _) _ s1 _ s1 tt eq_refl eq_refl).
      rewrite (summ_skip _ _ s1 [] s1 sm) by (try reflexivity; unfold llift; rewrite SM; reflexivity).
      rewrite (summ_skip _ _ _ _ _ _ (send_ok other c' sm s1 H SA) eq_refl). rewrite (summ_fail _ _ _ _ _ _ R2 eq_refl). reflexivity. }
  destruct (middle_blind other odd C c' m2 s2 H) as (l & e & B).
  exists (Rec L_protocol INFO (lit "Connection made") :: l), e. 
  assert (Np' : forall p, numeric p \/ ~ open_challenge s /\ encodable p -> encodable p /\ (numeric p \/ length (msg_tags m2) <> 1%nat)).
  { intros p [Np|[Np Ep]]; [split; [destruct Np as [v Np]; exact (int_encodable p v Np)|left; exact Np]|split; [exact Ep|right]]. intros L. apply Np. exists m, m2, s2. subst. auto. }
  intros p rnd Np. rewrite S0.
  assert (E : summ (handshake_l other odd C c' p rnd s) = summ ((do* _ := middle other odd C c' p rnd m2 in say L_client INFO (lit "Client ready")) s2)).
  { unfold handshake_l. rewrite (summ_skip (say L_client DEBUG _) _ s _ s tt eq_refl eq_refl). rewrite (summ_skip _ _ _ _ _ _ R eq_refl), A.
    rewrite (summ_skip (say L_client DEBUG _) _ s1 _ s1 tt eq_refl eq_refl).
    rewrite (summ_skip _ _ s1 [] s1 sm) by (try reflexivity; unfold llift; rewrite SM; reflexivity).
    rewrite (summ_skip _ _ _ _ _ _ (send_ok other c' sm s1 H SA) eq_refl). rewrite (summ_skip _ _ _ _ _ _ R2 eq_refl). reflexivity. }
  rewrite E, summ_then. specialize (B (p, rnd) (Np' p Np)). unfold summ in B. cbn [fst snd] in B.
  destruct (middle other odd C c' p rnd m2 s2) as [[es s3] r]. cbn [fst snd] in B. destruct B as [[-> <-]|[-> <-]].
  - left. split; reflexivity.
  - right. split; reflexivity.
Qed.

(** ** What DEBUG and the exceptions show *)

(** The greeting and the challenge of the OPEN procedure. *)
Definition challenge (nonce : str) (s : script) : script := Some MAck :: Some (MGeneric [35 :: nonce]) :: s.

Definition events {A} (x : list lev * script * (A + (exn * str))) : list lev := fst (fst x).

Lemma in_right {A B} (x : lio A) (f : A -> lio B) s es s' a e : x s = (es, s', inl a) -> In e (fst (fst (f a s'))) -> In e (fst (fst (landthen x f s))).
Proof. intros E I. unfold landthen. rewrite E. destruct (f a s') as [[es' s''] r]. cbn [fst] in *. apply in_or_app. right. exact I. Qed.
Lemma in_left {A B} (x : lio A) (f : A -> lio B) s e : In e (fst (fst (x s))) -> In e (fst (fst (landthen x f s))).
Proof.
  intros I. unfold landthen. destruct (x s) as [[es s'] [a|r]]; [|exact I]. destruct (f a s') as [[es' s''] r]. cbn [fst] in *. apply in_or_app. left. exact I.
Qed.
Lemma in_logged r es : In (LLog r) es -> In r (logged es).
Proof. induction es as [|[] es IH]; cbn; [tauto|..]; intros [E|I]; try discriminate; auto. injection E as ->. auto. Qed.

Lemma open_run other odd C c p rnd nonce s : numeric p ->
  exists d, own_calc_pass p (35 :: nonce) = Ok d /\
    In (LLog (sent_record (MGeneric [35 :: d]))) (fst (fst (snd (start_l other odd C c p rnd true (challenge nonce s))))).
Proof.
  intros Np. destruct (pass_digits p (35 :: nonce) Np) as (d & E & D). exists d. split; [exact E|].
  assert (G : forallb (fun c => c <? 128) (msg_str (MGeneric [c_hash :: d])) = true)
    by (apply generic_ascii; apply Forall_cons; [cbn [forallb]; apply digits_ascii, D|constructor]).
  unfold start_l, challenge. cbn [snd]. set (c' := {| cl_session := cl_session c; cl_proto := true |}).
  assert (SM : exists sm, session_message (cl_session c') = Ok sm /\ forallb (fun c => c <? 128) (msg_str sm) = true)
    by (unfold session_message; destruct (cl_session c'); eexists; split; reflexivity).
  destruct SM as (sm & SM & SA).
  eapply in_right; [reflexivity|]. unfold handshake_l. eapply in_right; [reflexivity|]. eapply in_right; [reflexivity|]. cbn [msg_type mtype_eqb negb].
  eapply in_right; [reflexivity|]. eapply in_right; [unfold llift; rewrite SM; reflexivity|].
  eapply in_right; [apply (send_ok other c' sm); [reflexivity|exact SA]|]. eapply in_right; [reflexivity|]. cbn [msg_type mtype_eqb msg_tags length Nat.eqb].
  apply in_left. eapply in_right; [reflexivity|]. eapply in_right; [reflexivity|]. unfold auth_open_l.
  eapply in_right; [unfold llift; rewrite E; reflexivity|]. apply in_left. rewrite (send_ok other c' _ s eq_refl G). right. left. reflexivity.
Qed.

Theorem open_leak other odd C c p v rnd nonce s : py_int p = Ok v ->
  exists d, In (Rec L_protocol DEBUG (lit "Sent message: *#" ++ d ++ lit "##")) (logged (fst (fst (snd (start_l other odd C c p rnd true (challenge nonce s)))))) /\
    recover nonce (Z.of_N (dval d)) = (v mod 2 ^ 32)%Z.
Proof.
  intros V. destruct (open_run other odd C c p rnd nonce s (ex_intro _ v V)) as (d & E & I). exists d. split.
  - apply in_logged in I. exact I.
  - eapply pass_recover; eassumption.
Qed.

Definition plain_password (p : str) : Prop := Forall (fun c => 32 <= c < 127 /\ c <> 39 /\ c <> 92) p /\ N.of_nat (length p) <= 198.

Lemma plain_simple p : plain_password p -> simple_text p = true.
Proof.
  intros [F L]. unfold simple_text. apply andb_true_iff. split; [|apply N.leb_le; exact L].
  apply forallb_forall. intros c I. rewrite Forall_forall in F. specialize (F c I).
  rewrite !andb_true_iff, !negb_true_iff, !N.eqb_neq, N.leb_le, N.ltb_lt. tauto.
Qed.

Theorem open_text other odd C c p rnd nonce s : plain_password p -> ~ numeric p ->
  snd (snd (start_l other odd C c p rnd true (challenge nonce s))) =
    inr (ValueError, lit "invalid literal for int() with base 10: '" ++ p ++ lit "'") /\
  infos (fst (fst (snd (start_l other odd C c p rnd true (challenge nonce s))))) =
    [Rec L_protocol INFO (lit "Connection made"); Rec L_client INFO (lit "Using open authentication")].
Proof.
  intros Pl Nn. assert (E : own_calc_pass p (35 :: nonce) = Err ValueError).
  { unfold own_calc_pass. destruct (py_int p) as [v|e] eqn:Ep; [destruct Nn; exists v; exact Ep|]. cbn [bind].
    unfold py_int in Ep. destruct (match map fold_digit (int_strip p) with [] => _ | _ => _ end) as [neg body]. destruct (digits_us false body); [destruct (_ <? _)|]; congruence. }
  unfold start_l, challenge. cbn [snd]. set (c' := {| cl_session := cl_session c; cl_proto := true |}).
  assert (SM : exists sm, session_message (cl_session c') = Ok sm /\ forallb (fun c => c <? 128) (msg_str sm) = true)
    by (unfold session_message; destruct (cl_session c'); eexists; split; reflexivity).
  destruct SM as (sm & SM & SA).
  set (run := (do* _ := say L_protocol INFO (lit "Connection made") in handshake_l other odd C c' p rnd) (Some MAck :: Some (MGeneric [35 :: nonce]) :: s)).
  assert (R : summ run = ([Rec L_protocol INFO (lit "Connection made"); Rec L_client INFO (lit "Using open authentication")],
     inr (ValueError, lit "invalid literal for int() with base 10: '" ++ p ++ lit "'"))).
  { unfold run. rewrite summ_then. unfold say at 1. unfold handshake_l. rewrite (summ_skip (say L_client DEBUG _) _ _ _ _ tt eq_refl eq_refl).
    rewrite (summ_skip (client_read_l c') _ (Some MAck :: Some (MGeneric [35 :: nonce]) :: s) _ (Some (MGeneric [35 :: nonce]) :: s) MAck eq_refl eq_refl). cbn [msg_type mtype_eqb negb].
    rewrite (summ_skip (say L_client DEBUG _) _ _ _ _ tt eq_refl eq_refl).
    set (s1 := Some (MGeneric [35 :: nonce]) :: s).
    rewrite (summ_skip _ _ s1 [] s1 sm) by (try reflexivity; unfold llift; rewrite SM; reflexivity).
    rewrite (summ_skip _ _ _ _ _ _ (send_ok other c' sm s1 eq_refl SA) eq_refl).
    rewrite (summ_skip (client_read_l c') _ s1 _ s (MGeneric [35 :: nonce]) eq_refl eq_refl). cbn [msg_type mtype_eqb msg_tags length Nat.eqb].
    assert (M : (do* _ := say L_client INFO (lit "Using open authentication") in
                 do* nonce0 := tag_at_l other (MGeneric [35 :: nonce]) 0 in auth_open_l other odd c' p nonce0) s =
                ([LLog (Rec L_client INFO (lit "Using open authentication"))], s, inr (ValueError, int_text odd p))).
    { unfold landthen at 1, say. unfold landthen at 1, tag_at_l, llift. cbn [msg_tags index nth_error]. unfold auth_open_l, landthen at 1, llift at 1. rewrite E. reflexivity. }
    rewrite summ_then, M. unfold int_text. rewrite (plain_simple p Pl). reflexivity. }
  split; [exact (f_equal snd R)|exact (f_equal fst R)].
Qed.

(** ** Packets that are refused *)

Theorem refused_log other self n data e : c_open (n_conn n) = true -> packet_messages data = Err e ->
  exists w what, n_log (nstep other self n (NData data)) = n_log n ++ w ++
    [Rec L_client ERROR (lit "Exception occurred: Fatal error: protocol.data_received() call failed. (" ++ what ++ lit ")"); Rec L_client ERROR (lit "Protocol error: " ++ self)] /\
  c_open (n_conn (nstep other self n (NData data))) = false /\
  ((~ Forall (fun c => c < 128) data /\ w = [Rec L_protocol WARNING (lit "Received data not ascii: " ++ hexs data)]) \/
   exists w1 text w2 ps1 p ps2,
    data = w1 ++ text ++ w2 /\ white w1 /\ white w2 /\ cut text (ps1 ++ p :: ps2) /\ p <> [] /\
    (forall q, In q ps1 -> q <> [] -> exists l m, is_frame (q ++ [35; 35]) l /\ denotes l m) /\
    ((exists t, what = lit "Invalid message: " ++ t /\ w = [Rec L_protocol WARNING (lit "Received invalid message: Invalid message: " ++ t)] /\
                about (p ++ [35; 35]) t /\ (t = p ++ [35; 35] \/ stripped t) /\ forall l, ~ is_frame t l) \/
     (w = [] /\ exists l x, is_frame (p ++ [35; 35]) l /\ who_text l x /\ ~ known_who x))).
Proof.
  intros O P. unfold nstep. rewrite O. cbn [n_log n_conn].
  pose proof (forget_packet data) as F. destruct (packet_messages_x data) as [ms|r] eqn:X; cbn [forget] in F; [congruence|].
  pose proof (packet_blamed data r X) as B.
  assert (D : c_open (deliver (n_conn n) data) = false) by (unfold deliver, data_received; rewrite O, P; reflexivity).
  exists (data_log other data), (exn_text other r data). split; [unfold handler_log; rewrite X; reflexivity|]. split; [exact D|].
  unfold data_log. rewrite X. destruct B as [[-> NA]|(w1 & text & w2 & ps1 & p & ps2 & E1 & E2 & E3 & E4 & E5 & E6 & B)].
  - left. split; [exact NA|reflexivity].
  - right. exists w1, text, w2, ps1, p, ps2. repeat (split; [assumption|]). destruct B as [(t & -> & A)|(-> & A)].
    + left. exists t. split; [reflexivity|]. split; [reflexivity|]. exact A.
    + right. split; [reflexivity|exact A].
Qed.

(** ** Sessions in which nothing is refused *)

Definition accepted (e : nev) : Prop := forall data, e = NData data -> exists ms, packet_messages data = Ok ms.

Fixpoint ends (es : list nev) : list (option str) :=
  match es with [] => [] | NLost w :: r => w :: ends r | _ :: r => ends r end.
Lemma ends_app a b : ends (a ++ b) = ends a ++ ends b.
Proof. induction a as [|[] a IH]; cbn; congruence. Qed.

Definition end_record (w : option str) : record :=
  Rec L_protocol INFO (match w with Some t => lit "Connection lost with exception: " ++ t | None => lit "Connection lost" end).

Theorem quiet_log other self es : Forall accepted es ->
  filter seen_at_info (n_log (nrun other self es)) = Rec L_protocol INFO (lit "Connection made") :: map end_record (ends es).
Proof.
  induction es as [|e es IH] using rev_ind; [reflexivity|]. intros F. apply Forall_app in F as [F Fe]. specialize (IH F). inversion Fe as [|? ? A _]; subst.
  rewrite nrun_snoc, ends_app, map_app. set (n := nrun other self es) in *. destruct e; cbn [nstep ends map].
  - rewrite app_nil_r. destruct (c_open (n_conn n)); [|exact IH]. cbn [n_log]. destruct (A data eq_refl) as (ms & P).
    rewrite !filter_app, IH. unfold handler_log. destruct (data_cases other data) as [(ms' & _ & -> & ->)|(r & P' & _)]; [|congruence].
    destruct ms'; cbn; rewrite app_nil_r; reflexivity.
  - rewrite app_nil_r. destruct (msg_bytes m); [|exact IH]. cbn [n_log]. rewrite filter_app, IH. cbn. rewrite app_nil_r. reflexivity.
  - rewrite app_nil_r. cbn [n_log]. rewrite filter_app, IH. cbn. rewrite app_nil_r. reflexivity.
  - rewrite app_nil_r. cbn [n_log]. rewrite filter_app, IH. cbn. rewrite app_nil_r. reflexivity.
  - rewrite app_nil_r. exact IH.
  - cbn [n_log]. rewrite filter_app, IH. reflexivity.
Qed.

(** ** After the end *)

Lemma closed_step other self n e : c_open (n_conn n) = false ->
  c_open (n_conn (nstep other self n e)) = false /\ c_queue (n_conn (nstep other self n e)) = c_queue (n_conn n) /\ n_written (nstep other self n e) = n_written n.
Proof.
  intros O. destruct e; cbn [nstep n_conn n_written shut c_open c_queue]; try (repeat split; assumption || reflexivity).
  - rewrite O. repeat split. exact O.
  - destruct (msg_bytes m); [|auto]. cbn [n_conn n_written]. rewrite O. auto.
Qed.

Theorem closed_for_good other self es e es' :
  (e = NClose \/ (exists why, e = NLost why) \/ exists data x, e = NData data /\ packet_messages data = Err x) ->
  c_queue (n_conn (nrun other self (es ++ e :: es'))) = c_queue (n_conn (nrun other self es)) /\
  n_written (nrun other self (es ++ e :: es')) = n_written (nrun other self es).
Proof.
  intros E.
  assert (First : c_open (n_conn (nrun other self (es ++ [e]))) = false /\
    c_queue (n_conn (nrun other self (es ++ [e]))) = c_queue (n_conn (nrun other self es)) /\ n_written (nrun other self (es ++ [e])) = n_written (nrun other self es)).
  { rewrite nrun_snoc. set (n := nrun other self es). destruct E as [->|[[why ->]|(data & x & -> & P)]]; cbn [nstep].
    - auto.
    - auto.
    - destruct (c_open (n_conn n)) eqn:O; [|auto]. cbn [n_conn n_written]. unfold deliver, data_received. rewrite O, P. auto. }
  replace (es ++ e :: es') with ((es ++ [e]) ++ es') by (rewrite <- app_assoc; reflexivity).
  induction es' as [|a es' IH] using rev_ind; [rewrite app_nil_r; tauto|].
  assert (Inv : forall l, c_open (n_conn (nrun other self ((es ++ [e]) ++ l))) = false).
  { induction l as [|b l IHl] using rev_ind; [rewrite app_nil_r; apply First|]. rewrite app_assoc, nrun_snoc. apply closed_step, IHl. }
  rewrite app_assoc, nrun_snoc. destruct (closed_step other self (nrun other self ((es ++ [e]) ++ es')) a (Inv es')) as (_ & -> & ->). exact IH.
Qed.
