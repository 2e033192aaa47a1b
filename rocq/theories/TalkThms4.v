(** * Documented answers: the commands after a request that left answers unread *)
From Coq Require Import String List NArith ZArith Bool Lia.
From Verif Require Import PyStr Tags Messages SpecMsg SpecTag TagThms HandshakeThms Protocol IO Client Items SpecItem ItemThms LightThms2 Lighting Energy SpecEnergy
  EnergyThms SpecDocs DocsThms SpecTalk TalkThms TalkThms2 TalkThms3.
Import ListNotations.
Open Scope N_scope.
Open Scope list_scope.

Lemma normal_turn it what m rest : ready it -> placed it -> tagtext what ->
  rest_of (send_normal_message (Y:=Empty_set) it what (Some m :: rest)) = rest /\ res_of (send_normal_message (Y:=Empty_set) it what (Some m :: rest)) = verdict m.
Proof.
  intros Hr Hp T. pose proof (command_answered (Y:=Empty_set) it what (Some m :: rest) Hr Hp T) as A.
  inversion A as [s E1 E2|m' s N E1 E2| |]; subst; (split; [reflexivity|]); [reflexivity|]. destruct m; try reflexivity. contradiction.
Qed.

Theorem turns cs : Forall (fun c => ready (fst c) /\ placed (fst c) /\ tagtext (snd c)) cs -> forall ms rest, (length cs <= length ms)%nat ->
  in_turn cs (map Some ms ++ rest) = map verdict (firstn (length cs) ms).
Proof.
  induction 1 as [|[it what] cs (Hr & Hp & T) F IH]; intros ms rest L; [reflexivity|].
  destruct ms as [|m ms]; [cbn in L; lia|]. cbn [in_turn map app length firstn fst snd] in *.
  destruct (normal_turn it what m (map Some ms ++ rest) Hr Hp T) as [E1 E2].
  destruct (send_normal_message it what (Some m :: map Some ms ++ rest)) as [[es s'] r]. cbn [rest_of res_of fst snd] in E1, E2. subst.
  f_equal. apply IH. lia.
Qed.

(** The state of each light, then the acknowledgement. *)
Definition told (ps : list (N * str)) : list msg := map (fun p => MNormal LIGHTING (dec (fst p)) (snd p)) ps ++ [MAck].

Lemma told_spoken ps : Forall (fun p => fst p <= 31 /\ groups (snd p)) ps -> Forall2 spoken (map (state_of LIGHTING) ps ++ [ack]) (told ps).
Proof. intros F. apply spoken_ack. exact (normals ps LIGHTING _ F). Qed.

Lemma spoken_unique fs : forall ms ms', Forall2 spoken fs ms -> Forall2 spoken fs ms' -> ms = ms'.
Proof.
  induction fs as [|f fs IH]; intros ms ms' H H'; inversion H as [|? m ? l [S D] F]; subst; inversion H' as [|? m' ? l' [S' D'] F']; subst; [reflexivity|].
  f_equal; [|apply IH; assumption]. pose proof (parse_sendable _ _ S D) as E. rewrite (parse_sendable _ _ S' D') in E. congruence.
Qed.

Lemma told_packet ps : Forall (fun p => fst p <= 31 /\ groups (snd p)) ps -> packet_messages (concat (map wire (map (state_of LIGHTING) ps ++ [ack]))) = Ok (told ps).
Proof. intros F. apply wires_packet. exact (told_spoken ps F). Qed.

Lemma heard_packet fs ms : Forall2 spoken fs ms -> packet_messages (concat (map wire fs)) = Ok ms.
Proof. intros F. apply wires_packet. exact F. Qed.

Theorem lag it p ps cs answers rest :
  ready it -> placed it -> it_who it = LIGHTING -> Forall (fun p => fst p <= 31 /\ groups (snd p)) (p :: ps) ->
  Forall (fun c => ready (fst c) /\ placed (fst c) /\ tagtext (snd c)) cs -> (length cs <= length answers)%nat ->
  let out := request_working_time_lamp it (map Some (told (p :: ps) ++ answers) ++ rest) in
  res_of out = Err ResponseError /\
  in_turn cs (rest_of out) = map verdict (firstn (length cs) (told ps ++ answers)).
Proof.
  intros Hr Hp W F C L out.
  assert (X : exchange it (it_who it) _ _ (request_working_time_lamp it) (map (state_of LIGHTING) (p :: ps) ++ [ack]) [] (Err ResponseError)
      (map (state_of LIGHTING) ps ++ [ack])) by (rewrite W; constructor; exact F).
  destruct (exchanged _ _ _ _ _ _ _ _ Hr Hp X (map Some answers ++ rest)) as (ms & ls & S1 & S2 & _ & E1 & E2).
  rewrite (spoken_unique _ _ _ S1 (told_spoken _ F)) in *. inversion F as [|? ? _ F']; subst.
  rewrite (spoken_unique _ _ _ S2 (told_spoken _ F')) in *.
  assert (O : out = request_working_time_lamp it (map Some (told (p :: ps)) ++ map Some answers ++ rest)) by (unfold out; rewrite map_app, <- app_assoc; reflexivity).
  rewrite O. split; [exact E1|]. rewrite E2, app_assoc, <- map_app. apply turns; [exact C|]. rewrite app_length. lia.
Qed.

(** Command by command. *)
Lemma firstn_nth {A} k : forall n (l : list A), (k < n)%nat -> nth_error (firstn n l) k = nth_error l k.
Proof. induction k as [|k IH]; intros [|n] [|a l] H; try lia; try reflexivity. cbn. apply IH. lia. Qed.

Theorem lag_nth it p ps cs answers rest k :
  ready it -> placed it -> it_who it = LIGHTING -> Forall (fun p => fst p <= 31 /\ groups (snd p)) (p :: ps) ->
  Forall (fun c => ready (fst c) /\ placed (fst c) /\ tagtext (snd c)) cs -> (length cs <= length answers)%nat -> (k < length cs)%nat ->
  let out := in_turn cs (rest_of (request_working_time_lamp it (map Some (told (p :: ps) ++ answers) ++ rest))) in
  ((k < length ps)%nat -> nth_error out k = Some (Err ResponseError)) /\
  (k = length ps -> nth_error out k = Some (Ok tt)) /\
  ((length ps < k)%nat -> nth_error out k = option_map verdict (nth_error answers (k - length ps - 1))).
Proof.
  intros Hr Hp W F C L K out. destruct (lag it p ps cs answers rest Hr Hp W F C L) as [_ E]. unfold out. rewrite E, nth_error_map, firstn_nth by exact K.
  unfold told. set (q := map _ ps). assert (Lq : length q = length ps) by apply map_length. rewrite <- app_assoc. split; [|split].
  - intros H. rewrite nth_error_app1 by lia. destruct (nth_error q k) as [m|] eqn:Q; [|apply nth_error_None in Q; lia].
    apply nth_error_In in Q. unfold q in Q. apply in_map_iff in Q as (x & <- & _). reflexivity.
  - intros ->. rewrite nth_error_app2 by lia. rewrite Lq, Nat.sub_diag. reflexivity.
  - intros H. rewrite nth_error_app2 by lia. rewrite Lq. destruct (k - length ps)%nat as [|j] eqn:J; [lia|]. cbn [app nth_error]. do 2 f_equal. lia.
Qed.
