(** * C130: what the methods make of the documented answers *)
From Coq Require Import String List NArith ZArith Bool Lia.
From Verif Require Import PyStr PyDate PyFloat Tags Messages SpecMsg SpecTag Protocol IO Client Items SpecItem ItemThms LightThms2 Lighting SpecGateway Gateway
  Energy SpecEnergy EnergyThms SpecDocs DocsThms SpecTalk TalkThms TalkThms2 TalkThms3 TalkThms4 PropItems PropGateway PropEnergy.
Import ListNotations.
Open Scope N_scope.
Open Scope list_scope.

(** The bytes of every documented answer are read as messages, and the method
    that asked yields, returns or raises what the table says; whatever follows
    the answer stays unread. *)
Theorem C130_exchanges : forall it Y A (x : io Y A) fs ys r left rest,
  ready it -> placed it -> exchange it (it_who it) Y A x fs ys r left ->
  exists ms ls, packet_messages (concat (map wire fs)) = Ok ms /\ packet_messages (concat (map wire left)) = Ok ls /\
    yields (evs_of (x (map Some ms ++ rest))) = ys /\ res_of (x (map Some ms ++ rest)) = r /\
    rest_of (x (map Some ms ++ rest)) = map Some ls ++ rest.
Proof.
  intros it Y A x fs ys r left rest Hr Hp X. destruct (exchanged it Y A x fs ys r left Hr Hp X rest) as (ms & ls & S1 & S2 & E).
  exists ms, ls. split; [apply heard_packet, S1|]. split; [apply heard_packet, S2|]. exact E.
Qed.
Print Assumptions C130_exchanges.

Example C130_exchanges_meets :
  ready lamp /\ placed lamp /\
  exchange lamp (it_who lamp) _ _ (dimmer_get_status lamp) [[lit "1"; lit "5"; lit "12"]; ack] [(lit "12", 50%Z)] (Ok tt) [] /\
  exchange (gateway conn) (it_who (gateway conn)) Empty_set _ (get_ip (gateway conn))
    [value GATEWAY [] (lit "10") [lit "192"; lit "168"; lit "1"; lit "35"]; ack] [] (Ok (address 192 168 1 35)) [] /\
  exchange PropEnergy.meter (it_who PropEnergy.meter) Empty_set _ (request_status PropEnergy.meter SG_BLOCK)
    [value ENERGY_MANAGEMENT (lit "51") (lit "253") [lit "1"]; ack] [] (Ok (only 2 true)) [].
Proof.
  split; [apply lamp_ready|]. split; [apply lamp_ready|]. split; [|split].
  - apply (T_dimmer lamp [(5, lit "12")]). constructor; [|constructor]. cbn [fst snd]. split; [lia|].
    apply num_groups, lit_num; [reflexivity|discriminate].
  - apply (T_ip (gateway conn) 192 168 1 35). unfold octets. lia.
  - apply (T_bit PropEnergy.meter (lit "51") 2 SG_BLOCK true); [right; right; left; reflexivity|].
    exists (lit "1"). split; [split; [apply digits_all; reflexivity|discriminate]|right; left; reflexivity].
Qed.

(** The level, the timer, the colour and the white temperature of a light are
    told on the event connection: the iterators that ask for them end without
    having produced anything. *)
Theorem C130_told_elsewhere_refuted : forall it x rest,
  ready it -> placed it -> elsewhere it x ->
  yields (evs_of (x (Some MAck :: rest))) = [] /\ res_of (x (Some MAck :: rest)) = Ok tt /\ rest_of (x (Some MAck :: rest)) = rest.
Proof.
  intros it x rest Hr Hp X.
  assert (Q : hears x [ack] [] (Ok tt) []) by (destruct X; apply quiet_hears; try assumption; apply (proj1 (mk_ok _)); reflexivity).
  destruct (Q rest) as (ms & ls & S1 & S2 & E). inversion S2; subst. rewrite (spoken_unique [ack] ms [MAck]) in E; [exact E|exact S1|].
  constructor; [exact ack_spoken|constructor].
Qed.
Print Assumptions C130_told_elsewhere_refuted.
Example C130_told_elsewhere_meets : ready lamp /\ placed lamp /\ elsewhere lamp (request_current_hsv lamp).
Proof. split; [apply lamp_ready|]. split; [apply lamp_ready|constructor]. Qed.

(** The documented answer to dimension 3 lists the lights that are on.  With one
    light or more the request raises ResponseError; it leaves the other lights
    and the acknowledgement unread, and the commands that follow take them for
    their own answers. *)
Theorem C130_on_lights_refuted : forall it p ps cs answers rest,
  ready it -> placed it -> it_who it = LIGHTING -> Forall (fun p => fst p <= 31 /\ groups (snd p)) (p :: ps) ->
  Forall (fun c => ready (fst c) /\ placed (fst c) /\ tagtext (snd c)) cs -> (length cs <= length answers)%nat ->
  packet_messages (concat (map wire (map (state_of LIGHTING) (p :: ps) ++ [ack]))) = Ok (told (p :: ps)) /\
  res_of (request_working_time_lamp it (map Some (told (p :: ps) ++ answers) ++ rest)) = Err ResponseError /\
  let out := in_turn cs (rest_of (request_working_time_lamp it (map Some (told (p :: ps) ++ answers) ++ rest))) in
  length out = length cs /\ forall k, (k < length cs)%nat ->
    ((k < length ps)%nat -> nth_error out k = Some (Err ResponseError)) /\
    (k = length ps -> nth_error out k = Some (Ok tt)) /\
    ((length ps < k)%nat -> nth_error out k = option_map verdict (nth_error answers (k - length ps - 1))).
Proof.
  intros it p ps cs answers rest Hr Hp W F C L. split; [apply told_packet, F|].
  destruct (lag it p ps cs answers rest Hr Hp W F C L) as [E1 E2]. split; [exact E1|]. intros out. split.
  - unfold out. rewrite E2, map_length, firstn_length, app_length. lia.
  - intros k K. apply lag_nth; assumption.
Qed.
Print Assumptions C130_on_lights_refuted.

(** Two lights are on; then three commands, all refused by the gateway: the
    second is reported as done. *)
Example C130_on_lights_meets :
  let ps := [(1, lit "11"); (1, lit "12")] in
  let cs := [(lamp, lit "1"); (lamp, lit "0"); (lamp, lit "1")] in
  ready lamp /\ placed lamp /\ it_who lamp = LIGHTING /\ Forall (fun p => fst p <= 31 /\ groups (snd p)) ps /\
  Forall (fun c => ready (fst c) /\ placed (fst c) /\ tagtext (snd c)) cs /\
  in_turn cs (rest_of (request_working_time_lamp lamp (map Some (told ps ++ [MNack; MNack; MNack])))) =
    [Err ResponseError; Ok tt; Err ResponseError].
Proof.
  intros ps cs. split; [apply lamp_ready|]. split; [apply lamp_ready|]. split; [reflexivity|]. split; [|split].
  - unfold ps. repeat (apply Forall_cons; [cbn [fst snd]; split; [lia|apply num_groups, lit_num; [reflexivity|discriminate]]|]). apply Forall_nil.
  - unfold cs. repeat (apply Forall_cons; [cbn [fst snd]; split; [apply lamp_ready|split; [apply lamp_ready|apply (proj1 (mk_ok _)); reflexivity]]|]). apply Forall_nil.
  - reflexivity.
Qed.
