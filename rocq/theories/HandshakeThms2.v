(** * Consequences of the handshake table; client histories *)
From Coq Require Import String List NArith ZArith Bool Lia.
From Verif Require Import PyStr Tags Messages MessageFacts SpecMsg SpecTag MessageThms2 MessageThms3 AuthOpen OpenThms AuthHmac IO Client SpecClient HmacThms HandshakeThms.
Import ListNotations.
Open Scope N_scope.
Open Scope list_scope.

Notation E := (ev Empty_set).
Local Notation start := (@Client.start Empty_set).

Lemma first_tag_dec m : (exists k, first_tag m k) \/ m = MGeneric [].
Proof.
  destruct m as [| |w a b|w a|w a d|w a d vs|w a d vs|[|t l]]; try (left; eexists; eexists; reflexivity).
  right. reflexivity.
Qed.

Lemma first_tag_fun m a b : first_tag m a -> first_tag m b -> a = b.
Proof. intros [l H] [l' H']. congruence. Qed.

(** The challenges. *)
Lemma who_not_98 w : who_str w <> [57; 56].
Proof. destruct w; discriminate. Qed.

Lemma plain_tags m t x l :
  msg_tags m = t :: x :: l -> t <> [57; 56] ->
  List.length (msg_tags m) <> 1%nat /\ ~ first_tag m [57; 56] /\ msg_tags m <> [].
Proof.
  intros Hm Ht. unfold first_tag. rewrite Hm. repeat split; [discriminate| |discriminate].
  intros [l' Hl']. congruence.
Qed.

Lemma challenge_dec m :
  (exists nonce, m = MGeneric [nonce]) \/
  (exists n more, m = MGeneric ([57; 56] :: n :: more)) \/
  m = MGeneric [] \/
  (List.length (msg_tags m) <> 1%nat /\ ~ first_tag m [57; 56] /\ msg_tags m <> []).
Proof.
  destruct m as [| |w a b|w a|w a d|w a d vs|w a d vs|[|t [|n more]]].
  1-7: right; right; right; eapply plain_tags; [reflexivity|]; first [apply who_not_98|discriminate].
  - right; right; left; reflexivity.
  - left. eauto.
  - destruct (str_eq_dec t [57; 56]) as [->|Hn]; [right; left; eauto|].
    right; right; right. eapply plain_tags; [reflexivity|assumption].
Qed.

Lemma alg_dec n : (exists a, n = alg_name a) \/ (n <> [49] /\ n <> [50]).
Proof.
  destruct (str_eq_dec n [49]) as [->|H1]; [left; exists SHA1; reflexivity|].
  destruct (str_eq_dec n [50]) as [->|H2]; [left; exists SHA256; reflexivity|].
  right. split; assumption.
Qed.

Section Total.
Context (C : crypto) (t : session) (pw : str) (rnd : list N).

Lemma timeout_case (es : list E) s' :
  silent C t pw rnd es -> (exists rest, dry s' rest) ->
  exists r rest, outcome C t pw rnd es r /\ follows (map Some (gots es) ++ s') es r rest.
Proof.
  intros Hs [rest Hd]. exists (Err TimeoutError), rest. split; [exact Hs|].
  destruct Hd as [->|[-> ->]]; [left; reflexivity|right; split; [apply app_nil_r|reflexivity]].
Qed.

Lemma script_dec (s : script) : (exists rest, dry s rest) \/ exists m s', s = Some m :: s'.
Proof.
  destruct s as [|[m|] s]; [left; exists []; right; split; reflexivity|right; eauto|left; exists s; left; reflexivity].
Qed.

Ltac finish r rest := exists r, rest; split; [|reflexivity].

(** Every script leads to one of the outcomes. *)
Lemma outcome_total s : exists es r rest, outcome C t pw rnd es r /\ follows s es r rest.
Proof.
  destruct (script_dec s) as [Hd|[m [s1 ->]]].
  { exists []. apply (timeout_case [] s); [constructor|assumption]. }
  destruct (ack_dec m) as [->|Hm].
  2:{ exists [Got m]. finish (Err InvalidAuthentication : res unit) s1. constructor. assumption. }
  destruct (script_dec s1) as [Hd|[m [s2 ->]]].
  { exists (hello t). apply (timeout_case (hello t) s1); [constructor|assumption]. }
  destruct (ack_dec m) as [->|Hm].
  { exists (hello t ++ [Got MAck]). finish (Ok tt) s2. constructor. }
  destruct (challenge_dec m) as [[nonce ->]|[[n [more ->]]|[->|[H1 [H2 H3]]]]].
  - (* open *)
    destruct (pass_value pw nonce) as [[ans Ha]|He].
    2:{ exists (hello t ++ [Got (MGeneric [nonce])]). finish (Err ValueError : res unit) s2. econstructor. eassumption. }
    destruct (script_dec s2) as [Hd|[m2 [s3 ->]]].
    { exists (open_to t nonce ans). apply (timeout_case (open_to t nonce ans) s2); [constructor; assumption|assumption]. }
    destruct (ack_dec m2) as [->|Hm2].
    + exists (open_to t nonce ans ++ [Got MAck]). finish (Ok tt) s3. constructor. assumption.
    + exists (open_to t nonce ans ++ [Got m2]). finish (Err InvalidAuthentication : res unit) s3. constructor; assumption.
  - (* hmac *)
    destruct (alg_dec n) as [[a ->]|[H1 H2]].
    2:{ exists (hello t ++ [Got (MGeneric ([57; 56] :: n :: more)); Sent frame_nack]).
        finish (Err InvalidAuthentication : res unit) s2. constructor; assumption. }
    destruct (script_dec s2) as [Hd|[mk [s3 ->]]].
    { exists (alg_to t a more). apply (timeout_case (alg_to t a more) s2); [constructor|assumption]. }
    destruct (first_tag_dec mk) as [[k Hk]| ->].
    2:{ exists (alg_to t a more ++ [Got (MGeneric [])]). finish (Err IndexError : res unit) s3. constructor. }
    destruct (encodable_dec pw) as [He|He].
    2:{ exists (alg_to t a more ++ [Got mk]). finish (Err UnicodeEncodeError : res unit) s3. econstructor; eassumption. }
    apply (fun H => conj H He) in Hk. change (server_key pw mk k) in Hk.
    destruct (script_dec s3) as [Hd|[m2 [s4 ->]]].
    { exists (auth_to C t pw rnd a more mk k). apply (timeout_case (auth_to C t pw rnd a more mk k) s3); [constructor; assumption|assumption]. }
    destruct (nack_dec m2) as [->|Hm2].
    { exists (auth_to C t pw rnd a more mk k ++ [Got MNack]). finish (Err InvalidAuthentication : res unit) s4. constructor. assumption. }
    destruct (first_tag_dec m2) as [[p Hp]| ->].
    2:{ exists (auth_to C t pw rnd a more mk k ++ [Got (MGeneric [])]). finish (Err IndexError : res unit) s4. constructor. assumption. }
    destruct (proof_decode p) as [[b [Hb _]]|[Hn _]].
    2:{ exists (auth_to C t pw rnd a more mk k ++ [Got m2]). finish (Err ValueError : res unit) s4. econstructor; eassumption. }
    destruct (str_eq_dec b (server_proof C pw rnd a k)) as [->|Hne].
    + exists (auth_to C t pw rnd a more mk k ++ [Got m2; Sent frame_ack]). finish (Ok tt) s4. econstructor; eassumption.
    + exists (auth_to C t pw rnd a more mk k ++ [Got m2]). finish (Err InvalidAuthentication : res unit) s4. econstructor; eassumption.
  - exists (hello t ++ [Got (MGeneric [])]). finish (Err IndexError : res unit) s2. constructor.
  - exists (hello t ++ [Got m]). finish (Err InvalidAuthentication : res unit) s2. constructor; assumption.
Qed.
End Total.

(** The program does exactly what the table says. *)
Lemma handshake_iff C c pw rnd s es rest r :
  sane C -> cl_proto c = true ->
  (handshake C c pw rnd s = (es, rest, r) <-> outcome C (cl_session c) pw rnd es r /\ follows s es r rest).
Proof.
  intros HC Hp. split.
  - intros H. destruct (outcome_total C (cl_session c) pw rnd s) as [es' [r' [rest' [Ho Hf]]]].
    pose proof (outcome_runs C HC c Hp pw rnd s es' r' rest' Ho Hf) as H'. rewrite H in H'.
    injection H' as -> -> ->. split; assumption.
  - intros [Ho Hf]. apply outcome_runs; assumption.
Qed.

(** ** Consequences *)

Lemma start_connected C c pw rnd s :
  start C c pw rnd true s =
  ({| cl_session := cl_session c; cl_proto := true |},
   handshake C {| cl_session := cl_session c; cl_proto := true |} pw rnd s).
Proof. reflexivity. Qed.

Lemma start_iff C c pw rnd s c' es rest r :
  sane C ->
  (start C c pw rnd true s = (c', (es, rest, r)) <->
   c' = {| cl_session := cl_session c; cl_proto := true |} /\
   outcome C (cl_session c) pw rnd es r /\ follows s es r rest).
Proof.
  intros HC. rewrite start_connected.
  pose proof (handshake_iff C {| cl_session := cl_session c; cl_proto := true |} pw rnd s es rest r HC eq_refl) as H.
  cbn [cl_session] in H. rewrite <- H. split; [intros [= <- <-]; auto|intros [-> <-]; reflexivity].
Qed.

Lemma start_ok_iff C c pw rnd s c' es rest :
  sane C ->
  (start C c pw rnd true s = (c', (es, rest, Ok tt)) <->
   c' = {| cl_session := cl_session c; cl_proto := true |} /\
   logged_in C (cl_session c) pw rnd es /\ s = map Some (gots es) ++ rest).
Proof. intros HC. rewrite start_iff by assumption. reflexivity. Qed.

(** The HMAC path. *)
Lemma hmac_proved C c pw rnd n more s c' es rest :
  sane C ->
  start C c pw rnd true (Some MAck :: Some (MGeneric ([57; 56] :: n :: more)) :: s) = (c', (es, rest, Ok tt)) ->
  exists a mk k m2 p,
    n = alg_name a /\ s = Some mk :: Some m2 :: rest /\ first_tag mk k /\ m2 <> MNack /\ first_tag m2 p /\
    proof_bytes p (server_proof C pw rnd a k) /\
    es = auth_to C (cl_session c) pw rnd a more mk k ++ [Got m2; Sent frame_ack].
Proof.
  intros HC H. apply start_ok_iff in H; [|assumption]. destruct H as [_ [Hl Hs]].
  destruct Hl as [|nonce ans Ha|a more' mk k m2 p Hk Hn Hp Hb].
  - discriminate Hs.
  - unfold open_to in Hs. rewrite !gots_app in Hs. discriminate Hs.
  - unfold auth_to, alg_to in Hs. rewrite !gots_app in Hs. cbn [hello gots app map] in Hs. injection Hs as -> -> ->.
    exists a, mk, k, m2, p. repeat split; try assumption. apply Hk.
Qed.

Lemma hmac_small C c pw rnd n more s c' es rest :
  sane C ->
  start C c pw rnd true (Some MAck :: Some (MGeneric ([57; 56] :: n :: more)) :: s) = (c', (es, rest, Ok tt)) ->
  exists a mk k, n = alg_name a /\ hd_error s = Some (Some mk) /\ first_tag mk k /\
    Forall (fun x => x <= 9 \/ 16 <= x <= 21) (server_proof C pw rnd a k).
Proof.
  intros HC H. apply hmac_proved in H; [|assumption].
  destruct H as [a [mk [k [m2 [p [-> [-> [Hk [_ [_ [Hb _]]]]]]]]]]].
  exists a, mk, k. repeat split; [assumption|]. eapply proof_bytes_range; eassumption.
Qed.

Lemma hash_no_proof p b : ~ proof_bytes (35 :: p) b.
Proof. intros H. inversion H as [|? ? ? ? [v [Hv _]] _]; subst. apply hexval_iff in Hv. discriminate Hv. Qed.

(** A gateway that follows the document. *)
Lemma hmac_documented C c pw rnd a ra proof s c' es rest r :
  sane C -> encodable pw ->
  start C c pw rnd true
    (Some MAck :: Some (MGeneric [[57; 56]; alg_name a]) :: Some (MGeneric [35 :: ra]) :: Some (MGeneric [35 :: proof]) :: s)
    = (c', (es, rest, r)) ->
  r = Err ValueError /\ rest = s /\
  sents es = [frame_session (cl_session c); frame_ack; frame_auth C pw rnd a (35 :: ra)].
Proof.
  intros HC Hpw H.
  pose proof (proj2 (start_iff C c pw rnd
    (Some MAck :: Some (MGeneric [[57; 56]; alg_name a]) :: Some (MGeneric [35 :: ra]) :: Some (MGeneric [35 :: proof]) :: s)
    {| cl_session := cl_session c; cl_proto := true |}
    (auth_to C (cl_session c) pw rnd a [] (MGeneric [35 :: ra]) (35 :: ra) ++ [Got (MGeneric [35 :: proof])])
    s (Err ValueError) HC)) as H'.
  rewrite H' in H.
  - injection H as <- <- <- <-. repeat split.
  - repeat split. cbn [outcome]. apply V_proof with (p := 35 :: proof); [split; [exists []; reflexivity|exact Hpw]|discriminate|exists []; reflexivity|].
    intros [b Hb]. exact (hash_no_proof _ _ Hb).
Qed.

Lemma pairs_length d : List.length (pairs d) = (4 * List.length d)%nat.
Proof. unfold pairs. induction d as [|b d IH]; cbn [map concat List.length]; [reflexivity|]. rewrite app_length, IH. cbn. lia. Qed.

(** ... nor does leaving out the '#' help: the client wants one character per byte. *)
Lemma hmac_plain C c pw rnd a more mk k d s c' es rest r :
  sane C -> first_tag mk k -> d <> [] -> List.length (server_proof C pw rnd a k) = List.length d ->
  start C c pw rnd true
    (Some MAck :: Some (MGeneric ([57; 56] :: alg_name a :: more)) :: Some mk :: Some (MGeneric [pairs d]) :: s)
    = (c', (es, rest, r)) ->
  r <> Ok tt.
Proof.
  intros HC Hk Hd Hl H ->. apply hmac_proved in H; [|assumption].
  destruct H as [a' [mk' [k' [m2 [p [Ha [Hs [Hk' [_ [Hp [Hb _]]]]]]]]]]].
  injection Hs as <- <- _.
  assert (a' = a) as -> by (destruct a, a'; cbn in Ha; congruence).
  assert (k' = k) as -> by (eapply first_tag_fun; eassumption).
  assert (p = pairs d) as -> by (destruct Hp as [l Hp']; injection Hp'; auto).
  apply proof_bytes_range in Hb. destruct Hb as [_ Hlen]. rewrite pairs_length in Hlen.
  destruct d; [congruence|]. cbn [List.length] in *. lia.
Qed.

(** What the client writes when. *)
Ltac third :=
  unfold open_to, auth_to, alg_to, hello; rewrite <- ?app_assoc; cbn [app];
  eexists; eexists; split; [reflexivity|];
  intros Hne; first [exfalso; apply Hne; reflexivity|left; eexists; reflexivity|right; eexists; eexists; reflexivity].

Lemma writes_after_ack C c pw rnd s c' es rest r :
  sane C -> start C c pw rnd true s = (c', (es, rest, r)) ->
  es = [] \/ (exists m, m <> MAck /\ es = [Got m]) \/
  es = [Got MAck; Sent (frame_session (cl_session c))] \/
  exists m es', es = Got MAck :: Sent (frame_session (cl_session c)) :: Got m :: es' /\
    (es' <> [] -> (exists nonce, m = MGeneric [nonce]) \/ (exists n more, m = MGeneric ([57; 56] :: n :: more))).
Proof.
  intros HC H. apply start_iff in H; [|assumption]. destruct H as [_ [Ho _]].
  destruct r as [[]|e].
  - right; right; right.
    destruct Ho; third.
  - destruct e; try contradiction Ho.
    + destruct Ho as [m Hm| | | | |]; [right; left; eauto|..];
      right; right; right; third.
    + destruct Ho; right; right; right; third.
    + destruct Ho; right; right; right; third.
    + destruct Ho; [left; reflexivity|right; right; left; reflexivity|..];
      right; right; right; third.
    + destruct Ho; right; right; right; third.
Qed.

(** The password has no influence without a challenge. *)
Definition challenge (o : option msg) : Prop :=
  exists l, o = Some (MGeneric l) /\ (List.length l = 1%nat \/ exists l', l = [57; 56] :: l').

Lemma no_challenge C c pw1 pw2 rnd1 rnd2 s :
  sane C -> (forall o, nth_error s 1 = Some o -> ~ challenge o) ->
  start C c pw1 rnd1 true s = start C c pw2 rnd2 true s.
Proof.
  intros HC Hn. rewrite !start_connected. apply (f_equal (pair _)).
  set (c' := {| cl_session := cl_session c; cl_proto := true |}).
  destruct (script_dec s) as [[rest Hd]|[m [s1 ->]]].
  { rewrite !(run_no_hello C c' eq_refl _ _ s rest Hd). reflexivity. }
  destruct (ack_dec m) as [->|Hm].
  2:{ rewrite !(run_bad_hello C c' eq_refl _ _ m s1 Hm). reflexivity. }
  rewrite !(run_hello C c' eq_refl). apply (f_equal (pre _)).
  destruct (script_dec s1) as [[rest Hd]|[m [s2 ->]]].
  { unfold stage2. rewrite !(read_dry c' eq_refl _ s1 rest Hd). reflexivity. }
  specialize (Hn (Some m) eq_refl).
  unfold stage2. rewrite !(read_then c' eq_refl). apply (f_equal (pre _)).
  destruct (mtype_eqb (msg_type m) T_ACK); [reflexivity|].
  destruct (challenge_dec m) as [[nonce ->]|[[n [more ->]]|[->|[H1 [H2 H3]]]]].
  - exfalso. apply Hn. eexists. split; [reflexivity|]. left. reflexivity.
  - exfalso. apply Hn. eexists. split; [reflexivity|]. right. eexists. reflexivity.
  - reflexivity.
  - rewrite (proj2 (Nat.eqb_neq _ _) H1).
    destruct (msg_tags m) as [|t l] eqn:Et; [congruence|].
    assert (Ht : first_tag m t) by (exists l; assumption).
    rewrite !(tag_then m t _ _ Ht).
    destruct (str_eqb t (lit "98")) eqn:E98; [|reflexivity].
    exfalso. apply H2. apply str_eqb_spec in E98. subst t. assumption.
Qed.

Lemma unsupported_alg C c pw rnd n more s :
  sane C -> n <> [49] -> n <> [50] ->
  start C c pw rnd true (Some MAck :: Some (MGeneric ([57; 56] :: n :: more)) :: s) =
  ({| cl_session := cl_session c; cl_proto := true |},
   ([Got MAck; Sent (frame_session (cl_session c)); Got (MGeneric ([57; 56] :: n :: more)); Sent frame_nack], s,
    Err (A:=unit) InvalidAuthentication)).
Proof.
  intros HC H1 H2.
  apply (proj2 (start_iff C c pw rnd _ _
    (hello (cl_session c) ++ [Got (MGeneric ([57; 56] :: n :: more)); Sent frame_nack]) s (Err InvalidAuthentication) HC)).
  split; [reflexivity|]. split; [|reflexivity]. constructor; assumption.
Qed.

(** ** Histories of API calls *)

(** The calls a program can make on a client.  [CStart] carries what the new
    connection will deliver (each connection has its own queue,
    protocol.py:37); the other calls go on with the current script. *)
Inductive call :=
| CStart (connected : bool) (pw : str) (rnd : list N) (s : script)
| CSend (force : bool) (m : msg)
| CRead
| CClose.

Record hist := { h_client : client; h_script : script }.

Definition api (C : crypto) (h : hist) (k : call) : hist * (list E * res unit) :=
  match k with
  | CStart ok pw rnd s =>
      let s0 := if ok then s else h_script h in
      match start C (h_client h) pw rnd ok s0 with
      | (c, (es, rest, r)) => ({| h_client := c; h_script := rest |}, (es, r))
      end
  | CSend f m =>
      match client_send (h_client h) f m (h_script h) with
      | (es, rest, r) => ({| h_client := h_client h; h_script := rest |}, (es, r))
      end
  | CRead =>
      match (let* _ := client_read (h_client h) in ret tt) (h_script h) with
      | (es, rest, r) => ({| h_client := h_client h; h_script := rest |}, (es, r))
      end
  | CClose => ({| h_client := close (h_client h); h_script := h_script h |}, ([], Ok tt))
  end.

Fixpoint history (C : crypto) (h : hist) (ks : list call) : hist * list (call * (list E * res unit)) :=
  match ks with
  | [] => (h, [])
  | k :: r =>
      let '(h1, o) := api C h k in
      let '(h2, os) := history C h1 r in (h2, (k, o) :: os)
  end.

Definition begin (t : session) : hist := {| h_client := new_client t; h_script := [] |}.

Lemma history_cons C h k r :
  history C h (k :: r) =
  (fst (history C (fst (api C h k)) r), (k, snd (api C h k)) :: snd (history C (fst (api C h k)) r)).
Proof.
  cbn [history]. destruct (api C h k) as [h1 o]. cbn [fst snd].
  destruct (history C h1 r) as [h2 os]. reflexivity.
Qed.

Lemma history_app C ks1 : forall h ks2,
  history C h (ks1 ++ ks2) =
  (fst (history C (fst (history C h ks1)) ks2), snd (history C h ks1) ++ snd (history C (fst (history C h ks1)) ks2)).
Proof.
  induction ks1 as [|k ks1 IH]; intros h ks2.
  - cbn [history app fst snd]. destruct (history C h ks2). reflexivity.
  - cbn [app]. rewrite !history_cons, IH. cbn [fst snd app]. reflexivity.
Qed.

Lemma api_session C h k : cl_session (h_client (fst (api C h k))) = cl_session (h_client h).
Proof.
  destruct k as [ok pw rnd s|f m| |]; unfold api.
  - destruct ok.
    + unfold Client.start. destruct (handshake _ _ _ _ _) as [[es rest] r]. reflexivity.
    + reflexivity.
  - destruct (client_send _ _ _ _) as [[? ?] ?]. reflexivity.
  - destruct (andthen _ _ _) as [[? ?] ?]. reflexivity.
  - reflexivity.
Qed.

Lemma event_send {Y} c m s : cl_session c = Event -> client_send (Y:=Y) c false m s = ([], s, Err InvalidSession).
Proof. intros H. unfold client_send, is_cmd_session. rewrite H. reflexivity. Qed.

Lemma event_never_sends C h ks m es r :
  cl_session (h_client h) = Event ->
  In (CSend false m, (es, r)) (snd (history C h ks)) -> es = [] /\ r = Err InvalidSession.
Proof.
  revert h. induction ks as [|k ks IH]; intros h Hs Hin; [destruct Hin|].
  rewrite history_cons in Hin. cbn [snd] in Hin. destruct Hin as [Heq|Hin].
  - injection Heq as -> Heq. unfold api in Heq. rewrite event_send in Heq by assumption.
    cbn [snd] in Heq. injection Heq as <- <-. split; reflexivity.
  - eapply IH; [|exact Hin]. rewrite api_session. assumption.
Qed.

(** All that is ever written in an event session comes from start() or from a forced send. *)
Lemma event_writes C h ks k es r b :
  cl_session (h_client h) = Event -> In (k, (es, r)) (snd (history C h ks)) -> In (Sent b) es ->
  (exists ok pw rnd s, k = CStart ok pw rnd s) \/ (exists m, k = CSend true m /\ msg_bytes m = Ok b).
Proof.
  revert h. induction ks as [|k' ks IH]; intros h Hs Hin Hb; [destruct Hin|].
  rewrite history_cons in Hin. cbn [snd] in Hin. destruct Hin as [Heq|Hin].
  - injection Heq as -> Heq. destruct k as [ok pw rnd s|f m| |]; [left; eauto| | |].
    + right. exists m. unfold api in Heq. destruct f.
      * split; [reflexivity|]. unfold client_send in Heq. rewrite andb_false_r in Heq.
        destruct (cl_proto (h_client h)); cbn [negb] in Heq.
        -- destruct (msg_bytes m) as [b'|e].
           ++ rewrite andthen_lift in Heq. cbn in Heq. injection Heq as <- _.
              destruct Hb as [Hb|[]]. injection Hb as ->. reflexivity.
           ++ cbn in Heq. injection Heq as <- _. destruct Hb.
        -- cbn in Heq. injection Heq as <- _. destruct Hb.
      * rewrite event_send in Heq by assumption. cbn in Heq. injection Heq as <- _. destruct Hb.
    + exfalso. unfold api, client_read in Heq. destruct (cl_proto (h_client h)); cbn [negb] in Heq.
      * destruct (h_script h) as [|[m'|] s]; cbn in Heq; injection Heq as <- _; [destruct Hb| |destruct Hb].
        destruct Hb as [Hb|[]]. discriminate Hb.
      * cbn in Heq. injection Heq as <- _. destruct Hb.
    + exfalso. cbn in Heq. injection Heq as <- _. destruct Hb.
  - eapply IH; [|exact Hin|exact Hb]. rewrite api_session. assumption.
Qed.

(** A closed client. *)
Definition no_reconnect (ks : list call) : Prop := forall pw rnd s, ~ In (CStart true pw rnd s) ks.

Lemma closed_api C h k :
  cl_proto (h_client h) = false -> (forall pw rnd s, k <> CStart true pw rnd s) ->
  cl_proto (h_client (fst (api C h k))) = false /\
  h_script (fst (api C h k)) = h_script h /\
  fst (snd (api C h k)) = [] /\
  (match k with
   | CClose => snd (snd (api C h k)) = Ok tt
   | CStart _ _ _ _ => snd (snd (api C h k)) = Err TimeoutError
   | _ => snd (snd (api C h k)) = Err InvalidSession
   end).
Proof.
  intros Hc Hk. destruct k as [ok pw rnd s|f m| |]; unfold api.
  - destruct ok; [exfalso; eapply Hk; reflexivity|]. cbn. auto.
  - unfold client_send. rewrite Hc. destruct (_ && _); cbn; auto.
  - unfold client_read. rewrite Hc. cbn. auto.
  - cbn. auto.
Qed.

Lemma closed_refuses C ks : forall h,
  cl_proto (h_client h) = false -> no_reconnect ks ->
  cl_proto (h_client (fst (history C h ks))) = false /\
  h_script (fst (history C h ks)) = h_script h /\
  Forall (fun o => fst (snd o) = [] /\
    match fst o with
    | CClose => snd (snd o) = Ok tt
    | CStart _ _ _ _ => snd (snd o) = Err TimeoutError
    | _ => snd (snd o) = Err InvalidSession
    end) (snd (history C h ks)).
Proof.
  induction ks as [|k ks IH]; intros h Hc Hn; [repeat split; [assumption|constructor]|].
  rewrite history_cons. cbn [fst snd].
  destruct (closed_api C h k Hc) as [H1 [H2 [H3 H4]]].
  { intros pw rnd s ->. apply (Hn pw rnd s). left. reflexivity. }
  destruct (IH (fst (api C h k)) H1) as [H5 [H6 H7]].
  { intros pw rnd s Hin. apply (Hn pw rnd s). right. assumption. }
  repeat split; [assumption|congruence|]. constructor; [|assumption].
  cbn [fst snd]. split; [assumption|]. destruct k; assumption.
Qed.

Lemma after_close C h ks1 ks2 :
  no_reconnect ks2 ->
  Forall (fun o => fst (snd o) = [] /\
    match fst o with
    | CClose => snd (snd o) = Ok tt
    | CStart _ _ _ _ => snd (snd o) = Err TimeoutError
    | _ => snd (snd o) = Err InvalidSession
    end)
    (snd (history C (fst (history C h (ks1 ++ [CClose]))) ks2)).
Proof.
  intros Hn. apply closed_refuses; [|assumption].
  rewrite history_app. cbn [fst]. reflexivity.
Qed.

(** ... and before the first start(). *)
Lemma before_start C t ks :
  no_reconnect ks ->
  Forall (fun o => fst (snd o) = [] /\
    match fst o with
    | CClose => snd (snd o) = Ok tt
    | CStart _ _ _ _ => snd (snd o) = Err TimeoutError
    | _ => snd (snd o) = Err InvalidSession
    end) (snd (history C (begin t) ks)).
Proof. intros Hn. apply closed_refuses; [reflexivity|assumption]. Qed.

(** A start() that failed leaves the client open: the next send reaches the wire. *)
Lemma failed_start_sends C c pw rnd s c' es rest e m b s' :
  is_cmd_session c = true ->
  start C c pw rnd true s = (c', (es, rest, Err e)) -> msg_bytes m = Ok b ->
  client_send (Y:=Empty_set) c' false m s' = ([Sent b], s', Ok tt).
Proof.
  intros Hcmd H Hb. unfold Client.start in H. injection H as <- _.
  unfold client_send, is_cmd_session in *. cbn [cl_session cl_proto].
  destruct (cl_session c); [| |discriminate]; cbn [andb negb]; rewrite Hb, andthen_lift; reflexivity.
Qed.

(** Messages from the wire only have digits and '#' in their tags. *)
Lemma who_tagtext w : tagtext (who_str w).
Proof. exact (proj1 (who_wiretag w)). Qed.

Lemma built_first m p : built m -> first_tag m p -> tagtext p.
Proof.
  intros [Hf _] [l Hl]. destruct m as [| |w a b|w a|w a d|w a d vs|w a d vs|tags]; cbn [msg_tags free_tags] in *;
    try (injection Hl as <- _).
  1,2: constructor; [right; reflexivity|constructor].
  1-5: apply who_tagtext.
  rewrite Hl in Hf. inversion Hf. assumption.
Qed.

Lemma proof_bytes_wire t b : tagtext t -> proof_bytes t b -> Forall (fun x => x <= 9) b.
Proof.
  intros Ht H. induction H as [|c x t b [v [Hv ->]] _ IH]; [constructor|].
  inversion Ht as [|? ? Hc Ht']; subst. constructor; [|apply IH; assumption].
  destruct Hv as [d Hd|d Hd|d Hd]; destruct Hc as [Hc|Hc]; try lia.
  rewrite N.div_small, N.mod_small by assumption. lia.
Qed.

Lemma hmac_wire C c pw rnd n more s c' es rest :
  sane C -> (forall m, In (Some m) s -> built m) ->
  start C c pw rnd true (Some MAck :: Some (MGeneric ([57; 56] :: n :: more)) :: s) = (c', (es, rest, Ok tt)) ->
  exists a mk k, n = alg_name a /\ hd_error s = Some (Some mk) /\ first_tag mk k /\
    Forall (fun x => x <= 9) (server_proof C pw rnd a k).
Proof.
  intros HC Hs H. apply hmac_proved in H; [|assumption].
  destruct H as [a [mk [k [m2 [p [-> [-> [Hk [_ [Hp [Hb _]]]]]]]]]]].
  exists a, mk, k. repeat split; [assumption|]. eapply proof_bytes_wire; [|eassumption].
  eapply built_first; [|eassumption]. apply Hs. right. left. reflexivity.
Qed.
