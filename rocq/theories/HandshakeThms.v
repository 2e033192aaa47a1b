(** * The handshake, every outcome *)
From Coq Require Import String List NArith ZArith Bool Lia.
From Verif Require Import PyStr Tags Messages MessageFacts SpecMsg SpecTag MessageThms2 MessageThms3 AuthOpen OpenThms AuthHmac IO Client SpecClient HmacThms.
Import ListNotations.
Open Scope N_scope.
Open Scope list_scope.

Definition sane (C : crypto) : Prop :=
  forall a d, bytes (hash C a d) /\ forall k, bytes (mac C a k d).

Definition pre {Y A} (es : list (ev Y)) (x : list (ev Y) * script * res A) : list (ev Y) * script * res A :=
  match x with (a, s, r) => (es ++ a, s, r) end.

Lemma pre_app {Y A} (a b : list (ev Y)) (x : list (ev Y) * script * res A) : pre a (pre b x) = pre (a ++ b) x.
Proof. destruct x as [[es s] r]. cbn. rewrite app_assoc. reflexivity. Qed.

Lemma andthen_ok {Y A B} (x : io Y A) (f : A -> io Y B) s es s' a :
  x s = (es, s', Ok a) -> andthen x f s = pre es (f a s').
Proof. intros H. unfold andthen. rewrite H. destruct (f a s') as [[? ?] ?]. reflexivity. Qed.

Lemma andthen_err {Y A B} (x : io Y A) (f : A -> io Y B) s es s' e :
  x s = (es, s', Err e) -> andthen x f s = (es, s', Err e).
Proof. intros H. unfold andthen. rewrite H. reflexivity. Qed.

Lemma andthen_lift {Y A B} (a : A) (f : A -> io Y B) s : andthen (lift (Ok a)) f s = f a s.
Proof. unfold andthen, lift. destruct (f a s) as [[? ?] ?]. reflexivity. Qed.

Lemma wire_join l : l <> [] -> wire l = c_star :: join c_star l ++ hh.
Proof.
  intros H. unfold wire. rewrite app_comm_cons. f_equal. induction l as [|a [|b l] IH]; [congruence| |].
  - cbn. rewrite app_nil_r. reflexivity.
  - cbn [map concat] in *. rewrite IH by congruence. cbn [join]. rewrite <- app_comm_cons. reflexivity.
Qed.

Lemma generic_bytes l : l <> [] -> Forall tagtext l -> msg_bytes (MGeneric l) = Ok (wire l).
Proof.
  intros Hl Ht. destruct (bytes_ok (MGeneric l)) as [-> _].
  - split; [exact Ht|]. intros l' [= <-]. assumption.
  - rewrite wire_join by assumption. reflexivity.
Qed.

Lemma digits_tagtext t : digits t -> tagtext t.
Proof. apply Forall_impl. intros c H. left. exact H. Qed.

Lemma pairs_tagtext l : bytes l -> tagtext (pairs l).
Proof.
  intros H. apply digits_tagtext. unfold pairs, digits. induction H as [|b l Hb _ IH]; cbn [map concat]; [constructor|].
  destruct (byte_nibs b Hb) as [H1 [_ H3]].
  apply Forall_app. split; [|exact IH]. apply Forall_app. split; apply two_digits; assumption.
Qed.

Lemma py_int_value s : (exists z, py_int s = Ok z) \/ py_int s = Err ValueError.
Proof.
  unfold py_int. destruct (match map fold_digit (int_strip s) with | [] => _ | _ => _ end) as [neg body].
  destruct (digits_us false body); [|auto]. destruct (_ <? _); eauto.
Qed.

Lemma pass_value pw nonce : (exists a, own_calc_pass pw nonce = Ok a) \/ own_calc_pass pw nonce = Err ValueError.
Proof.
  destruct (py_int_value pw) as [[z Hz]|He].
  - left. eexists. eapply pass_ok. eassumption.
  - right. apply pass_raises. assumption.
Qed.

Lemma pass_tagtext pw nonce a : own_calc_pass pw nonce = Ok a -> digits a.
Proof.
  intros H. destruct (py_int_value pw) as [[z Hz]|He].
  - rewrite (pass_ok _ _ _ Hz) in H. injection H as <-.
    apply Forall_forall. intros c Hc.
    pose proof (dec_digits (Z.to_N (own_calc_int z nonce))) as Hd. unfold all_digits in Hd.
    rewrite forallb_forall in Hd. apply is_digit_range, Hd, Hc.
  - apply (pass_raises pw nonce) in He. congruence.
Qed.

Lemma type_ack m : mtype_eqb (msg_type m) T_ACK = true <-> m = MAck.
Proof. destruct m; cbn; split; congruence. Qed.
Lemma type_nack m : mtype_eqb (msg_type m) T_NACK = true <-> m = MNack.
Proof. destruct m; cbn; split; congruence. Qed.
Lemma type_not_ack m : m <> MAck -> mtype_eqb (msg_type m) T_ACK = false.
Proof. destruct m; cbn; congruence. Qed.
Lemma type_not_nack m : m <> MNack -> mtype_eqb (msg_type m) T_NACK = false.
Proof. destruct m; cbn; congruence. Qed.

Lemma ack_dec m : m = MAck \/ m <> MAck.
Proof. destruct m; (left; reflexivity) || (right; discriminate). Qed.
Lemma nack_dec m : m = MNack \/ m <> MNack.
Proof. destruct m; (left; reflexivity) || (right; discriminate). Qed.

(** ** Passwords that UTF-8 can encode *)

Lemma utf8_ok p : encodable p -> encode p = Ok (utf8 p).
Proof.
  intros H. unfold encode. replace (existsb surrogate p) with false; [reflexivity|]. symmetry.
  apply not_true_iff_false. intros E. apply existsb_exists in E. destruct E as [x [Hx E]].
  unfold encodable in H. rewrite Forall_forall in H. apply (H _ Hx). unfold surrogate in E.
  apply andb_true_iff in E. destruct E as [E1 E2]. apply N.leb_le in E1. apply N.ltb_lt in E2. split; assumption.
Qed.

Lemma utf8_bad p : ~ encodable p -> encode p = Err UnicodeEncodeError.
Proof.
  intros H. unfold encode. destruct (existsb surrogate p) eqn:E; [reflexivity|]. exfalso. apply H.
  unfold encodable. rewrite Forall_forall. intros x Hx [L U].
  assert (existsb surrogate p = true); [|congruence]. apply existsb_exists. exists x. split; [assumption|].
  unfold surrogate. rewrite (proj2 (N.leb_le _ _) L), (proj2 (N.ltb_lt _ _) U). reflexivity.
Qed.

Lemma encodable_dec p : encodable p \/ ~ encodable p.
Proof.
  destruct (encode p) eqn:E.
  - left. unfold encodable. rewrite Forall_forall. intros x Hx [L U]. unfold encode in E.
    destruct (existsb surrogate p) eqn:X; [discriminate|].
    assert (existsb surrogate p = true); [|congruence]. apply existsb_exists. exists x. split; [assumption|].
    unfold surrogate. rewrite (proj2 (N.leb_le _ _) L), (proj2 (N.ltb_lt _ _) U). reflexivity.
  - right. intros H. rewrite (utf8_ok p H) in E. discriminate.
Qed.

(** What int() reads has no surrogate. *)
Lemma dropwhile_keeps (f : N -> bool) c s : In c s -> f c = false -> In c (dropwhile f s).
Proof.
  induction s as [|x s IH]; intros H F; [destruct H|]. cbn [dropwhile]. destruct (f x) eqn:X; [|exact H].
  destruct H as [->|H]; [congruence|]. apply IH; assumption.
Qed.
Lemma digits_us_small b s d : digits_us b s = Some d -> forall c, In c s -> c < 128.
Proof.
  revert b d. induction s as [|x s IH]; intros b d H c I; [destruct I|]. cbn [digits_us] in H.
  destruct (is_digit x) eqn:X.
  - destruct (digits_us true s) as [r|] eqn:R; [|discriminate]. destruct I as [<-|I]; [apply is_digit_range in X; lia|]. exact (IH _ _ R c I).
  - destruct ((x =? _) && b)%bool eqn:Y; [|discriminate]. apply andb_true_iff in Y as [Y _]. apply N.eqb_eq in Y.
    destruct I as [<-|I]; [rewrite Y; reflexivity|].
    eapply IH; [exact H|exact I].
Qed.
Lemma fold_surrogate c : 55296 <= c < 57344 -> fold_digit c = c.
Proof.
  intros R. unfold fold_digit. destruct (c <? 128); [reflexivity|]. destruct (find _ other_zeros) as [z|] eqn:F; [|reflexivity].
  apply find_some in F as [I F]. apply andb_true_iff in F as [L U]. apply N.leb_le in L. apply N.ltb_lt in U.
  assert (Q : forallb (fun z => (z <? 55286) || (57344 <=? z)) other_zeros = true) by reflexivity.
  rewrite forallb_forall in Q. apply Q, orb_true_iff in I as [I|I]; [apply N.ltb_lt in I|apply N.leb_le in I]; lia.
Qed.
Lemma int_encodable p v : py_int p = Ok v -> encodable p.
Proof.
  intros H. unfold encodable. apply Forall_forall. intros c I R.
  assert (S : int_space c = false).
  { unfold int_space. replace (is_space c) with false; [reflexivity|]. symmetry. unfold is_space.
    rewrite !orb_false_iff, !andb_false_iff, !N.leb_gt, !N.eqb_neq. lia. }
  assert (T : In c (map fold_digit (int_strip p))).
  { apply in_map_iff. exists c. split; [apply fold_surrogate, R|]. unfold int_strip. apply -> in_rev. apply dropwhile_keeps; [|exact S].
    apply -> in_rev. apply dropwhile_keeps; [exact I|exact S]. }
  unfold py_int in H. destruct (map fold_digit (int_strip p)) as [|x t] eqn:M; [destruct T|].
  assert (B : forall body d, digits_us false body = Some d -> In c body -> False).
  { intros body d D J. pose proof (digits_us_small _ _ _ D c J). lia. }
  destruct (x =? c_minus) eqn:X1; [|destruct (x =? c_plus) eqn:X2].
  - apply N.eqb_eq in X1. destruct T as [T|T]; [unfold c_minus in X1; lia|].
    destruct (digits_us false t) as [d|] eqn:D; [|discriminate]. exact (B _ _ D T).
  - apply N.eqb_eq in X2. destruct T as [T|T]; [unfold c_plus in X2; lia|].
    destruct (digits_us false t) as [d|] eqn:D; [|discriminate]. exact (B _ _ D T).
  - destruct (digits_us false (x :: t)) as [d|] eqn:D; [|discriminate]. exact (B _ _ D T).
Qed.

Section Eval.
Context (C : crypto) (HC : sane C) (c : client) (Hp : cl_proto c = true) (pw : str) (rnd : list N).
Notation E := (ev Empty_set).
Notation out := (list E * script * res unit)%type.

Lemma send_ok (m : msg) b (s : script) :
  msg_bytes m = Ok b -> client_send (Y:=Empty_set) c true m s = ([Sent b], s, Ok tt).
Proof.
  intros H. unfold client_send. rewrite Hp. rewrite andb_false_r. cbn [negb].
  rewrite H, andthen_lift. reflexivity.
Qed.

Lemma send_then {A} (m : msg) b (f : unit -> io Empty_set A) s :
  msg_bytes m = Ok b -> andthen (client_send c true m) f s = pre [Sent b] (f tt s).
Proof. intros H. apply andthen_ok, send_ok, H. Qed.

Lemma read_then {A} m (f : msg -> io Empty_set A) s :
  andthen (client_read c) f (Some m :: s) = pre [Got m] (f m s).
Proof. apply andthen_ok. unfold client_read. rewrite Hp. reflexivity. Qed.

Lemma read_none {A} (f : msg -> io Empty_set A) s : andthen (client_read c) f (None :: s) = ([], s, Err TimeoutError).
Proof. apply andthen_err. unfold client_read. rewrite Hp. reflexivity. Qed.
Lemma read_nil {A} (f : msg -> io Empty_set A) : andthen (client_read c) f [] = ([], [], Err TimeoutError).
Proof. apply andthen_err. unfold client_read. rewrite Hp. reflexivity. Qed.

(** A read that times out. *)
Definition dry (s rest : script) : Prop := s = None :: rest \/ s = [] /\ rest = [].
Lemma read_dry {A} (f : msg -> io Empty_set A) s rest :
  dry s rest -> andthen (client_read c) f s = ([], rest, Err TimeoutError).
Proof. intros [->|[-> ->]]; [apply read_none|apply read_nil]. Qed.

Lemma follows_timeout s (es : list E) rest :
  follows s es (Err TimeoutError) rest -> exists s', s = map Some (gots es) ++ s' /\ dry s' rest.
Proof.
  intros [->|[-> ->]].
  - exists (None :: rest). split; [reflexivity|left; reflexivity].
  - exists []. split; [symmetry; apply app_nil_r|right; split; reflexivity].
Qed.

(** The stages. *)
Definition stage2 : io Empty_set unit :=
  let* resp := client_read c in
  if mtype_eqb (msg_type resp) T_ACK then ret tt
  else if (List.length (msg_tags resp) =? 1)%nat then
    let* nonce := tag_at resp 0 in auth_open c pw nonce
  else
    let* t := tag_at resp 0 in
    if str_eqb t (lit "98") then
      let* tag := tag_at resp 1 in auth_hmac C c pw tag rnd
    else raise InvalidAuthentication.

Definition stage_proof (a : alg) (k : str) : io Empty_set unit :=
  let* resp2 := client_read c in
  if mtype_eqb (msg_type resp2) T_NACK then raise InvalidAuthentication
  else
    let* t := tag_at resp2 0 in
    let* h := lift (hex_to_digits t) in
    let* b := lift (fromhex h) in
    if negb (compare_hmac (server_hmac C k (create_key C a rnd) pw a) b) then raise InvalidAuthentication
    else client_send c true MAck.

Lemma session_frame : lift (Y:=Empty_set) (session_message (cl_session c)) = lift (Ok (MGeneric [lit "99"; session_value (cl_session c)])).
Proof. unfold session_message. destruct (cl_session c); reflexivity. Qed.

Lemma session_bytes : msg_bytes (MGeneric [lit "99"; session_value (cl_session c)]) = Ok (frame_session (cl_session c)).
Proof. destruct (cl_session c); reflexivity. Qed.

Lemma run_hello s : handshake C c pw rnd (Some MAck :: s) = pre (hello (cl_session c)) (stage2 s).
Proof.
  unfold handshake. rewrite read_then. cbn [msg_type mtype_eqb negb].
  rewrite session_frame, andthen_lift, (send_then _ _ _ _ session_bytes). rewrite pre_app. reflexivity.
Qed.

Lemma run_bad_hello m s : m <> MAck -> handshake (Y:=Empty_set) C c pw rnd (Some m :: s) = ([Got m], s, Err InvalidAuthentication).
Proof. intros H. unfold handshake. rewrite read_then, type_not_ack by assumption. reflexivity. Qed.

Lemma run_no_hello s rest : dry s rest -> handshake (Y:=Empty_set) C c pw rnd s = ([], rest, Err TimeoutError).
Proof. intros H. unfold handshake. apply read_dry, H. Qed.

Lemma tag_then {A} m t (f : str -> io Empty_set A) s : first_tag m t -> andthen (tag_at m 0) f s = f t s.
Proof. intros [l Hl]. unfold tag_at. rewrite Hl. cbn [index nth_error]. apply andthen_lift. Qed.

Lemma run_open nonce ans s :
  own_calc_pass pw nonce = Ok ans ->
  stage2 (Some (MGeneric [nonce]) :: s) =
  pre [Got (MGeneric [nonce]); Sent (wire [35 :: ans])]
    ((let* resp := client_read c in
      if mtype_eqb (msg_type resp) T_ACK then ret tt else raise InvalidAuthentication) s).
Proof.
  intros H. unfold stage2. rewrite read_then. cbn [msg_type mtype_eqb msg_tags List.length Nat.eqb].
  rewrite (tag_then _ nonce) by (exists []; reflexivity).
  unfold auth_open. rewrite H, andthen_lift.
  rewrite (send_then _ (wire [35 :: ans])).
  - rewrite pre_app. reflexivity.
  - apply generic_bytes; [discriminate|]. constructor; [|constructor].
    constructor; [right; reflexivity|apply digits_tagtext, (pass_tagtext pw nonce), H].
Qed.

Lemma run_open_bad nonce s :
  own_calc_pass pw nonce = Err ValueError ->
  stage2 (Some (MGeneric [nonce]) :: s) = ([Got (MGeneric [nonce])], s, Err ValueError).
Proof.
  intros H. unfold stage2. rewrite read_then. cbn [msg_type mtype_eqb msg_tags List.length Nat.eqb].
  rewrite (tag_then _ nonce) by (exists []; reflexivity).
  unfold auth_open. rewrite H. reflexivity.
Qed.

Lemma run_98 n more s :
  stage2 (Some (MGeneric ([57; 56] :: n :: more)) :: s) =
  pre [Got (MGeneric ([57; 56] :: n :: more))] (auth_hmac C c pw n rnd s).
Proof.
  unfold stage2. rewrite read_then. cbn [msg_type mtype_eqb msg_tags List.length Nat.eqb].
  rewrite (tag_then _ [57; 56]) by (eexists; reflexivity).
  change (str_eqb [57; 56] (lit "98")) with true. cbv iota.
  unfold tag_at. cbn [msg_tags index nth_error]. rewrite andthen_lift. reflexivity.
Qed.

Lemma alg_of_name a : alg_from_string (alg_name a) = Ok a.
Proof. destruct a; reflexivity. Qed.

Lemma alg_unknown n : n <> [49] -> n <> [50] -> alg_from_string n = Err ValueError.
Proof.
  intros H1 H2. unfold alg_from_string. change (lit "1") with [49]. change (lit "2") with [50].
  rewrite !(proj2 (str_eqb_neq _ _)) by assumption. reflexivity.
Qed.

Lemma run_alg_bad n s :
  n <> [49] -> n <> [50] -> auth_hmac (Y:=Empty_set) C c pw n rnd s = ([Sent frame_nack], s, Err InvalidAuthentication).
Proof.
  intros H1 H2. unfold auth_hmac. rewrite alg_unknown by assumption.
  rewrite (send_then _ frame_nack) by reflexivity. reflexivity.
Qed.

Definition stage_key (a : alg) : io Empty_set unit :=
  let* resp := client_read c in
  let* server_key := tag_at resp 0 in
  let client_key := create_key C a rnd in
  let* _ := lift (encode pw) in
  let client_auth := client_hmac C server_key client_key pw a in
  let* d1 := lift (hex_to_digits client_key) in
  let* d2 := lift (hex_to_digits (hexs client_auth)) in
  let* _ := client_send c true (MGeneric [d1; d2]) in
  stage_proof a server_key.

Lemma run_alg a s : auth_hmac C c pw (alg_name a) rnd s = pre [Sent frame_ack] (stage_key a s).
Proof.
  unfold auth_hmac. rewrite alg_of_name. rewrite (send_then _ frame_ack) by reflexivity. reflexivity.
Qed.

Lemma key_rb a : create_key C a rnd = rb C rnd a.
Proof. apply hexs_text. apply HC. Qed.

Lemma client_auth_ok a k : client_hmac C k (create_key C a rnd) pw a = client_proof C pw rnd a k.
Proof. unfold client_hmac, client_proof. rewrite key_rb. unfold kab. rewrite hexs_text by apply HC. reflexivity. Qed.

Lemma server_auth_ok a k : server_hmac C k (create_key C a rnd) pw a = server_proof C pw rnd a k.
Proof. unfold server_hmac, server_proof. rewrite key_rb. unfold kab. rewrite hexs_text by apply HC. reflexivity. Qed.

Lemma run_key a m k s :
  server_key pw m k ->
  stage_key a (Some m :: s) = pre [Got m; Sent (frame_auth C pw rnd a k)] (stage_proof a k s).
Proof.
  intros [H He]. unfold stage_key. rewrite read_then, (tag_then _ k) by assumption.
  rewrite (utf8_ok _ He), andthen_lift.
  rewrite client_auth_ok.
  unfold create_key. rewrite hexs_pairs, andthen_lift by apply HC.
  rewrite hexs_pairs, andthen_lift by apply HC.
  rewrite (send_then _ (frame_auth C pw rnd a k)).
  - rewrite pre_app. reflexivity.
  - apply generic_bytes; [discriminate|]. repeat constructor; apply pairs_tagtext; apply HC.
Qed.

Lemma run_key_unencodable a m k s :
  first_tag m k -> ~ encodable pw -> stage_key a (Some m :: s) = ([Got m], s, Err UnicodeEncodeError).
Proof.
  intros H He. unfold stage_key. rewrite read_then, (tag_then _ k) by assumption.
  rewrite (utf8_bad _ He). reflexivity.
Qed.

Lemma run_key_none a s : stage_key a (Some (MGeneric []) :: s) = ([Got (MGeneric [])], s, Err IndexError).
Proof. unfold stage_key. rewrite read_then. reflexivity. Qed.

Lemma run_proof_nack a k s : stage_proof a k (Some MNack :: s) = ([Got MNack], s, Err InvalidAuthentication).
Proof. unfold stage_proof. rewrite read_then. reflexivity. Qed.

Lemma run_proof_none a k s : stage_proof a k (Some (MGeneric []) :: s) = ([Got (MGeneric [])], s, Err IndexError).
Proof. unfold stage_proof. rewrite read_then. reflexivity. Qed.

Lemma run_proof a k m p b s :
  m <> MNack -> first_tag m p -> proof_bytes p b ->
  stage_proof a k (Some m :: s) =
  if str_eqb (server_proof C pw rnd a k) b then ([Got m; Sent frame_ack], s, Ok tt)
  else ([Got m], s, Err InvalidAuthentication).
Proof.
  intros Hm Ht Hb. unfold stage_proof. rewrite read_then, type_not_nack, (tag_then _ p) by assumption.
  destruct (proof_decode p) as [[b' [Hb' [h [Hh Hf]]]]|[Hn _]]; [|exfalso; eauto].
  rewrite (proof_bytes_fun _ _ _ Hb Hb') in *.
  rewrite Hh, andthen_lift, Hf, andthen_lift, server_auth_ok. unfold compare_hmac.
  destruct (str_eqb _ _); cbn [negb]; [|reflexivity].
  rewrite (send_ok MAck frame_ack) by reflexivity. reflexivity.
Qed.

Lemma run_proof_bad a k m p s :
  m <> MNack -> first_tag m p -> (~ exists b, proof_bytes p b) ->
  stage_proof a k (Some m :: s) = ([Got m], s, Err ValueError).
Proof.
  intros Hm Ht Hn. unfold stage_proof. rewrite read_then, type_not_nack, (tag_then _ p) by assumption.
  destruct (proof_decode p) as [[b' [Hb' _]]|[_ Hh]]; [exfalso; eauto|].
  rewrite Hh. reflexivity.
Qed.

Lemma run_other m s :
  m <> MAck -> List.length (msg_tags m) <> 1%nat -> ~ first_tag m [57; 56] -> msg_tags m <> [] ->
  stage2 (Some m :: s) = ([Got m], s, Err InvalidAuthentication).
Proof.
  intros H1 H2 H3 H4. unfold stage2. rewrite read_then, type_not_ack by assumption.
  rewrite (proj2 (Nat.eqb_neq _ _) H2).
  destruct (msg_tags m) as [|t l] eqn:Et; [congruence|].
  rewrite (tag_then m t) by (exists l; assumption).
  destruct (str_eqb t (lit "98")) eqn:E98; [|reflexivity].
  apply str_eqb_spec in E98. exfalso. apply H3. exists l. rewrite Et, E98. reflexivity.
Qed.

Lemma map_gots (es : list E) m r : map Some (gots es ++ m :: r) = map Some (gots es) ++ Some m :: map Some r.
Proof. apply map_app. Qed.

(** Every outcome of the table is what the program does. *)
Lemma outcome_runs s es r rest :
  outcome C (cl_session c) pw rnd es r -> follows s es r rest ->
  handshake C c pw rnd s = (es, rest, r).
Proof.
  intros Ho Hf. destruct r as [[]|e].
  - (* logged in *)
    cbn [follows] in Hf. destruct Ho as [|nonce ans Hans|a more m k m2 p Hk Hn Hp2 Hb]; subst s; unfold open_to, auth_to, alg_to, hello;
      rewrite ?gots_app, <- ?app_assoc; cbn [gots app map].
    + rewrite run_hello. unfold stage2. rewrite read_then. reflexivity.
    + rewrite run_hello, (run_open _ _ _ Hans), read_then. reflexivity.
    + rewrite run_hello, run_98, run_alg, (run_key _ _ _ _ Hk), (run_proof _ _ _ _ _ _ Hn Hp2 Hb).
      rewrite str_eqb_refl. reflexivity.
  - destruct e; try contradiction Ho.
    + (* InvalidAuthentication *)
      cbn [follows] in Hf. destruct Ho as [m Hm|m H1 H2 H3 H4|nonce ans m Hans Hm|n more H1 H2|a more m k Hk|a more m k m2 p b Hk Hn Hp2 Hb Hne];
        subst s; unfold open_to, auth_to, alg_to, hello; rewrite ?gots_app, <- ?app_assoc; cbn [gots app map].
      * apply run_bad_hello, Hm.
      * rewrite run_hello, run_other by assumption. reflexivity.
      * rewrite run_hello, (run_open _ _ _ Hans), read_then, type_not_ack by assumption. reflexivity.
      * rewrite run_hello, run_98, run_alg_bad by assumption. reflexivity.
      * rewrite run_hello, run_98, run_alg, (run_key _ _ _ _ Hk), run_proof_nack. reflexivity.
      * rewrite run_hello, run_98, run_alg, (run_key _ _ _ _ Hk), (run_proof _ _ _ _ _ _ Hn Hp2 Hb).
        rewrite (proj2 (str_eqb_neq _ _)) by congruence. reflexivity.
    + (* ValueError *)
      cbn [follows] in Hf. destruct Ho as [nonce e He|a more m k m2 p Hk Hn Hp2 Hb]; subst s;
        unfold open_to, auth_to, alg_to, hello; rewrite ?gots_app, <- ?app_assoc; cbn [gots app map].
      * assert (He' : own_calc_pass pw nonce = Err ValueError) by (destruct (pass_value pw nonce) as [[a Ha]|]; congruence).
        rewrite run_hello, run_open_bad by assumption. reflexivity.
      * rewrite run_hello, run_98, run_alg, (run_key _ _ _ _ Hk), (run_proof_bad _ _ _ p) by assumption. reflexivity.
    + (* IndexError *)
      cbn [follows] in Hf. destruct Ho as [|a more|a more m k Hk]; subst s;
        unfold open_to, auth_to, alg_to, hello; rewrite ?gots_app, <- ?app_assoc; cbn [gots app map].
      * rewrite run_hello. unfold stage2. rewrite read_then. reflexivity.
      * rewrite run_hello, run_98, run_alg, run_key_none. reflexivity.
      * rewrite run_hello, run_98, run_alg, (run_key _ _ _ _ Hk), run_proof_none. reflexivity.
    + (* TimeoutError *)
      apply follows_timeout in Hf. destruct Hf as [s' [-> Hd]].
      destruct Ho as [| |nonce ans Hans|a more|a more m k Hk];
        unfold open_to, auth_to, alg_to, hello; rewrite ?gots_app, <- ?app_assoc; cbn [gots app map].
      * apply run_no_hello, Hd.
      * rewrite run_hello. unfold stage2. rewrite (read_dry _ _ _ Hd). reflexivity.
      * rewrite run_hello, (run_open _ _ _ Hans), (read_dry _ _ _ Hd). reflexivity.
      * rewrite run_hello, run_98, run_alg. unfold stage_key. rewrite (read_dry _ _ _ Hd). reflexivity.
      * rewrite run_hello, run_98, run_alg, (run_key _ _ _ _ Hk). unfold stage_proof. rewrite (read_dry _ _ _ Hd). reflexivity.
    + (* UnicodeEncodeError *)
      cbn [follows] in Hf. destruct Ho as [a more m k Hk He]; subst s; unfold alg_to, hello; rewrite ?gots_app, <- ?app_assoc; cbn [gots app map].
      rewrite run_hello, run_98, run_alg, (run_key_unencodable _ _ _ _ Hk He). reflexivity.
Qed.
End Eval.
