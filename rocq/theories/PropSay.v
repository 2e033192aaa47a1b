(** * C129 What a client can say *)
From Coq Require Import String List NArith ZArith Bool Lia.
From Verif Require Import PyStr Tags Messages SpecMsg SpecTag IO Client Items SpecItem ItemThms Lighting PyDate SpecGateway Gateway PyFloat Energy
  SpecEnergy MeterThms PropMeter PropItems SpecSay SayThms SayThms2.
Import ListNotations.
Open Scope N_scope.
Open Scope list_scope.

(** The methods of the item classes, with any arguments and whatever is
    answered, write the frames of [says] and no others. *)
Theorem C129_vocabulary : forall it b, ready it -> placed it ->
  ((exists Y A (x : io Y A) s, named it (it_who it) Y A x /\ In b (sents (evs_of (x s)))) <->
   exists ts, says (it_who it) (it_where it) ts /\ b = wire ts).
Proof. exact vocabulary. Qed.
Print Assumptions C129_vocabulary.

(** The documented commands marked [true] can be sent, each by a method of the
    class of its system. *)
Theorem C129_documented_partial : forall it ts, ready it -> placed it ->
  command (it_who it) (it_where it) true ts ->
  exists Y A (x : io Y A) s, named it (it_who it) Y A x /\ In (wire ts) (sents (evs_of (x s))).
Proof. intros it ts Hr Hp C. apply vocabulary; [exact Hr|exact Hp|]. exists ts. split; [apply command_says, C|reflexivity]. Qed.
Print Assumptions C129_documented_partial.

(** The others cannot: no method of an item of the system, wherever it is, ever
    writes them. *)
Theorem C129_unsayable_refuted : forall W whr ts, command W whr false ts -> tagtext whr ->
  forall it Y A (x : io Y A) s, it_who it = W -> placed it -> named it W Y A x -> ~ In (wire ts) (sents (evs_of (x s))).
Proof. intros W whr ts C T it Y A x s. apply (command_mute_frame it W whr); assumption. Qed.
Print Assumptions C129_unsayable_refuted.

(** And some of what methods write is no documented command. *)
Theorem C129_undocumented_refuted : forall it ts, ready it -> placed it -> unlisted (it_who it) (it_where it) ts ->
  (exists Y A (x : io Y A) s, named it (it_who it) Y A x /\ In (wire ts) (sents (evs_of (x s)))) /\
  forall whr can ts', tagtext whr -> command (it_who it) whr can ts' -> wire ts' <> wire ts.
Proof.
  intros it ts Hr Hp U. split.
  - apply vocabulary; [exact Hr|exact Hp|]. exists ts. split; [apply unlisted_says, U|reflexivity].
  - intros whr can ts' T C. exact (unlisted_frame _ _ _ _ _ _ U Hp T C).
Qed.
Print Assumptions C129_undocumented_refuted.

Example C129_ex_lamp :
  command LIGHTING (lit "12") true [lit "1"; lit "26"; lit "12"] /\
  wire [lit "1"; lit "26"; lit "12"] = lit "*1*26*12##" /\
  (run_blink lamp blink_3_5_sec [Some MAck] : list (ev Empty_set) * script * res unit) = ([Sent (lit "*1*26*12##"); Got MAck], [], Ok tt) /\
  command LIGHTING (lit "12") false [lit "1"; lit "1#40"; lit "12"] /\
  command LIGHTING (lit "12") false [lit "#1"; lit "12"; lit "#14"; lit "200"] /\
  unlisted LIGHTING (lit "12") [lit "#1"; lit "12"; lit "#13"; lit "200"] /\
  command LIGHTING (lit "12") true [lit "#1"; lit "12"; lit "#2"; lit "23"; lit "0"; lit "5"] /\
  command LIGHTING (lit "12") false [lit "#1"; lit "12"; lit "#2"; lit "24"; lit "0"; lit "5"] /\
  it_who lamp = LIGHTING /\ it_where lamp = lit "12" /\ ready lamp /\ placed lamp.
Proof.
  split; [apply (D_light (lit "12") 26); vm_compute; tauto|]. split; [reflexivity|]. split; [reflexivity|].
  split; [apply (D_speed (lit "12") 1 40); lia|]. split; [apply (D_white (lit "12") 200); lia|].
  split; [apply (U_white (lit "12") 200); lia|].
  split; [apply (D_timer (lit "12") 23 0 5 true); try lia; intuition lia|].
  split; [apply (D_timer (lit "12") 24 0 5 false); try lia; intuition (discriminate || lia)|].
  split; [reflexivity|]. split; [reflexivity|]. exact lamp_ready.
Qed.

Example C129_ex_meter :
  command ENERGY_MANAGEMENT (lit "51") true [lit "#18"; lit "51"; lit "52#24#5"] /\
  command ENERGY_MANAGEMENT (lit "51") false [lit "#18"; lit "51"; lit "52#09#5"] /\
  command GATEWAY [] false [lit "#13"; []; lit "#0"; lit "14"; lit "30"; lit "25"; lit "001"] /\
  unlisted GATEWAY [] [lit "#13"; []; lit "#0"; lit "14"; lit "30"; lit "25"; lit "0001"].
Proof.
  assert (K : clock (lit "14") (lit "30") (lit "25")).
  { exists 14%Z, 30%Z, 25%Z. repeat (split; [apply fixed_ex; (reflexivity || discriminate)|]). lia. }
  split; [apply (D_per_month (lit "51") (lit "24") 24 5 true); [apply fixed_ex; (reflexivity || discriminate)|lia|intuition lia]|].
  split; [apply (D_per_month (lit "51") (lit "09") 9 5 false); [apply fixed_ex; (reflexivity || discriminate)|lia|intuition (discriminate || lia)]|].
  split; [apply (D_set_time (lit "#") _ _ _ _ 1); [auto|exact K|apply (Zone_plus (lit "01") 1), fixed_ex; (reflexivity || discriminate)]|].
  apply U_set_time; [exact K|]. apply (Zone4 48 (lit "001") 1); [auto|apply fixed_ex; (reflexivity || discriminate)|lia].
Qed.
