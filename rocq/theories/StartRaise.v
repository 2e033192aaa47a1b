(** * The exceptions of start() *)
From Coq Require Import String List NArith ZArith Bool Lia.
From Verif Require Import PyStr Tags Messages SpecMsg SpecTag MessageFacts MessageThms MessageThms2 TagThms AuthOpen AuthHmac IO Client SpecClient HmacThms HandshakeThms
  HandshakeThms2 LogThms SpecRaise.
Import ListNotations.
Open Scope N_scope.
Open Scope list_scope.

Lemma heard_tags m : heard m -> msg_tags m <> [].
Proof. intros (text & P). apply (proj2 (built_tags m (parse_built _ _ P))). Qed.

Lemma got_heard (s : script) (l : list msg) rest : s = map Some l ++ rest -> Forall arrives s -> Forall heard l.
Proof.
  intros ->. rewrite Forall_app. intros [F _]. apply Forall_forall. intros m H. rewrite Forall_forall in F. apply (F (Some m)), in_map, H.
Qed.

Lemma start_only C c pw rnd (s : script) e : sane C -> Forall arrives s ->
  res_of (snd (start (Y:=Empty_set) C c pw rnd true s)) = Err e -> In e [TimeoutError; InvalidAuthentication; ValueError] \/ e = UnicodeEncodeError /\ ~ encodable pw.
Proof.
  intros HC F H. destruct (start C c pw rnd true s) as [c' [[es rest] r]] eqn:E. cbn [snd res_of] in H. subst r.
  apply start_iff in E as (_ & O & Fo); [|exact HC].
  destruct e; cbn [outcome] in O; try contradiction; cbn [In]; auto; [exfalso|right; split; [reflexivity|inversion O; assumption]].
  cbn [follows] in Fo. pose proof (got_heard _ _ _ Fo F) as G.
  assert (T : In (MGeneric []) (gots es)).
  { inversion O; subst; unfold auth_to, alg_to, hello; cbn [app gots In]; auto 10. }
  rewrite Forall_forall in G. apply (heard_tags _ (G _ T)). reflexivity.
Qed.

Lemma start_ends C c pw rnd s es r rest : sane C -> outcome C (cl_session c) pw rnd es r -> follows s es r rest ->
  res_of (snd (start (Y:=Empty_set) C c pw rnd true s)) = r.
Proof.
  intros HC O Fo. pose proof (proj2 (start_iff C c pw rnd s _ es rest r HC) (conj eq_refl (conj O Fo))) as E. rewrite E. reflexivity.
Qed.

Lemma no_proof : ~ exists b, proof_bytes (lit "#1") b.
Proof.
  intros (b & P). change (lit "#1") with [35; 49] in P. inversion P as [|x y l l' (v & V & _)]. subst. clear - V.
  remember 35 as c eqn:Ec. destruct V; lia.
Qed.

Lemma start_each C c pw rnd e : sane C -> In e [TimeoutError; InvalidAuthentication; ValueError] ->
  exists s, Forall arrives s /\ res_of (snd (start (Y:=Empty_set) C c pw rnd true s)) = Err e.
Proof.
  intros HC [<-|[<-|[<-|[]]]].
  - exists []. split; [constructor|]. eapply start_ends with (es := []) (rest := []); [exact HC|constructor|right; split; reflexivity].
  - exists [Some MNack]. split; [constructor; [exists (lit "*#*0##"); reflexivity|constructor]|].
    eapply start_ends with (es := [Got MNack]) (rest := []); [exact HC|apply R_hello; discriminate|reflexivity].
  - destruct (encodable_dec pw) as [Hpw|Hpw].
    2:{ exists (map Some [MAck; MGeneric [lit "#1"]]). split.
        - repeat apply Forall_cons; [exists (lit "*#*1##"); reflexivity|exists (lit "*#1##"); reflexivity|apply Forall_nil].
        - eapply start_ends with (rest := []); [exact HC|cbn [outcome]; eapply V_password with (e := ValueError)|reflexivity].
          destruct (py_int_value pw) as [[v P]|P]; [destruct (Hpw (int_encodable pw v P))|]. unfold own_calc_pass. rewrite P. reflexivity. }
    exists (map Some [MAck; MGeneric [lit "98"; lit "2"]; MGeneric [lit "#1"]; MGeneric [lit "#1"]]). split.
    + repeat apply Forall_cons; [exists (lit "*#*1##"); reflexivity|exists (lit "*98*2##"); reflexivity
        |exists (lit "*#1##"); reflexivity|exists (lit "*#1##"); reflexivity|apply Forall_nil].
    + eapply start_ends with (rest := []); [exact HC| |].
      * cbn [outcome]. apply (V_proof C (cl_session c) pw rnd SHA256 [] (MGeneric [lit "#1"]) (lit "#1") (MGeneric [lit "#1"]) (lit "#1"));
          [split; [exists []; reflexivity|exact Hpw]|discriminate|exists []; reflexivity|exact no_proof].
      * reflexivity.
Qed.

(** The OPEN lock and a password that is no number. *)
Lemma start_word C c pw rnd nonce e : sane C -> own_calc_pass pw nonce = Err e ->
  forall s, res_of (snd (start (Y:=Empty_set) C c pw rnd true (Some MAck :: Some (MGeneric [nonce]) :: s))) = Err ValueError.
Proof.
  intros HC P s. eapply start_ends with (rest := s); [exact HC|cbn [outcome]; eapply V_password, P|reflexivity].
Qed.

(** The HMAC lock and a password that UTF-8 cannot encode. *)
Lemma start_unencodable C c pw rnd a more mk k : sane C -> first_tag mk k -> ~ encodable pw ->
  forall s, res_of (snd (start (Y:=Empty_set) C c pw rnd true (Some MAck :: Some (MGeneric ([57; 56] :: alg_name a :: more)) :: Some mk :: s))) = Err UnicodeEncodeError.
Proof.
  intros HC F E s. eapply start_ends with (rest := s); [exact HC|cbn [outcome]; eapply (U_password (cl_session c) pw a more); eassumption|reflexivity].
Qed.
