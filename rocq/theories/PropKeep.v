(** * Property C115: what a client keeps of the events *)
From Coq Require Import String List NArith ZArith Bool Lia.
From Verif Require Import PyStr Tags Messages SpecMsg SpecTag MessageThms Protocol Energy SpecEnergy Dispatch SpecDispatch DispatchThms DispatchThms2 SpecKeep KeepThms.
Import ListNotations.
Open Scope N_scope.
Open Scope list_scope.

(** While a loop runs, the unread messages are those that arrived since it last
    ran, and the items are exactly one for each address met that has a class. *)
Theorem C115_keeps : forall v r acts evs q, observed r acts evs q -> Forall (fun ev => ~ stray (snd ev)) evs ->
  let s := run v (enter v (connected r)) acts in
  st_loop s = Waiting /\ st_trans s = Some false /\ st_queue s = q /\ NoDup (st_items s) /\
  forall k, In k (st_items s) <-> met acts evs k /\ has_item k.
Proof. exact keeps. Qed.
Print Assumptions C115_keeps.

(** In a house with the addresses [l] there are never more items than addresses,
    however many events arrive. *)
Theorem C115_bounded : forall v r acts evs q l, observed r acts evs q -> Forall (fun ev => ~ stray (snd ev)) evs ->
  (forall k, met acts evs k -> In k l) -> (length (st_items (run v (enter v (connected r)) acts)) <= length l)%nat.
Proof.
  intros v r acts evs q l O NS F. destruct (keeps v r acts evs q O NS) as (_ & _ & _ & N & K).
  apply NoDup_incl_length; [exact N|]. intros k I. apply F, K, I.
Qed.
Print Assumptions C115_bounded.

(** The number of items is the number of addresses met. *)
Theorem C115_count : forall v r acts evs q n, observed r acts evs q -> Forall (fun ev => ~ stray (snd ev)) evs ->
  counts (fun k => met acts evs k /\ has_item k) n -> length (st_items (run v (enter v (connected r)) acts)) = n.
Proof.
  intros v r acts evs q n O NS C. destruct (keeps v r acts evs q O NS) as (_ & _ & _ & N & K).
  eapply counts_unique; [|exact C]. eexists. split; [exact N|]. split; [exact K|reflexivity].
Qed.
Print Assumptions C115_count.

(** Refuted: no bound holds for every gateway.  [n] packets with [n] addresses
    leave [n] items, though every event was handled. *)
Theorem C115_items_refuted : forall v r n, exists acts evs, observed r acts evs [] /\ Forall (fun ev => ~ stray (snd ev)) evs /\ length acts = (2 * n)%nat /\
  let s := run v (enter v (connected r)) acts in st_loop s = Waiting /\ st_queue s = [] /\ length (st_items s) = n.
Proof.
  intros v r n. destruct (lamps_seen r n) as (evs & O & E). exists (concat (map wake_each (seq 0 n))), evs. split; [exact O|]. split; [|split; [|apply grows]].
  - apply Forall_forall. intros [r0 m] I. apply (in_map snd) in I. rewrite E in I. apply in_map_iff in I as (i & X & _). cbn [snd] in *. subst m. intros (X & _). discriminate X.
  - assert (X : forall i, length (concat (map wake_each (seq i n))) = (2 * n)%nat); [|apply X]. clear. induction n as [|n IH]; intros i; [reflexivity|]. cbn [seq map concat wake_each app length]. rewrite IH. lia.
Qed.
Print Assumptions C115_items_refuted.

(** Refuted: as long as nobody reads, everything that arrives is kept. *)
Theorem C115_unread_refuted : forall v r n, exists acts, length acts = n /\ Forall (fun a => exists d ms, a = Packet d /\ packet_messages d = Ok ms /\ ms <> []) acts /\
  length (st_queue (run v (connected r) acts)) = n.
Proof.
  intros v r n. exists (map (fun i => Packet (msg_str (lamp_event i))) (seq 0 n)). split; [rewrite map_length, seq_length; reflexivity|]. split; [|apply unread].
  apply Forall_map, Forall_forall. intros i _. exists (msg_str (lamp_event i)), [lamp_event i]. split; [reflexivity|]. split; [apply lamp_packet|discriminate].
Qed.
Print Assumptions C115_unread_refuted.

(** Five packets, three addresses, one of them without a class and one looked up. *)
Definition acts0 : list act := [Packet (lit "*1*1*12##*1*0*12##"); Wake; Packet (lit "*2*1*12##"); Lookup GATEWAY []; Wake; Packet (lit "*4*1*12##"); Packet (lit "*1*1*12##")].
Definition lamp (what : string) : msg := MNormal LIGHTING (lit what) (lit "12").
Example C115_ex : exists evs, observed no_callbacks acts0 evs [MNormal THERMOREGULATION (lit "1") (lit "12"); lamp "1"] /\
  map snd evs = [lamp "1"; lamp "0"; MNormal AUTOMATION (lit "1") (lit "12")] /\ Forall (fun ev => ~ stray (snd ev)) evs /\
  st_items (run 12 (enter 12 (connected no_callbacks)) acts0) = [(LIGHTING, lit "12"); (GATEWAY, []); (AUTOMATION, lit "12")].
Proof.
  pose (e1 := [(no_callbacks, lamp "1"); (no_callbacks, lamp "0")]).
  exists (e1 ++ [(no_callbacks, MNormal AUTOMATION (lit "1") (lit "12"))]). split; [|split; [reflexivity|split; [|vm_compute; reflexivity]]].
  - pose proof (O_start no_callbacks) as O. apply (O_packet _ _ _ _ (lit "*1*1*12##*1*0*12##") [lamp "1"; lamp "0"]) in O; [|vm_compute; reflexivity]. apply O_wake in O.
    apply (O_packet _ _ _ _ (lit "*2*1*12##") [MNormal AUTOMATION (lit "1") (lit "12")]) in O; [|vm_compute; reflexivity].
    apply (O_lookup _ _ _ _ GATEWAY []) in O; [|constructor]. apply O_wake in O.
    apply (O_packet _ _ _ _ (lit "*4*1*12##") [MNormal THERMOREGULATION (lit "1") (lit "12")]) in O; [|vm_compute; reflexivity].
    apply (O_packet _ _ _ _ (lit "*1*1*12##") [lamp "1"]) in O; [|vm_compute; reflexivity]. exact O.
  - repeat constructor; intros (X & _); discriminate X.
Qed.
