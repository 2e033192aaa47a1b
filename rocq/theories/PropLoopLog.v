(** * Property C112: the log of the event loop *)
From Coq Require Import String List NArith ZArith Bool Lia.
From Verif Require Import PyStr PyDate PyFloat Tags Messages SpecMsg SpecTag MessageThms Protocol IO Client Items Lighting LightThms2 Gateway SpecGateway Energy
  SpecEnergy Dispatch SpecDispatch DispatchThms DispatchThms2 DispatchThms3 Errors Log LoopLog SpecLoopLog LoopLogThms.
Import ListNotations.
Open Scope N_scope.
Open Scope list_scope.

(** The model with the records is the model of the loop. *)
Theorem C112_same : forall why v s acts, l_state (run_l why v (enter_l why v s) acts) = run v (enter v s) acts.
Proof. exact run_same. Qed.
Print Assumptions C112_same.

(** In every history of an open connection without stray events, the log is
    made of the accounts of the events the loop got to, in order; and there is
    one possible account of each. *)
Theorem C112_account : forall why v r acts evs q, v < 13 -> observed r acts evs q -> Forall (fun ev => ~ stray (snd ev)) evs ->
  exists ls, l_log (run_l why v (enter_l why v (Dispatch.connected r)) acts) = concat ls /\
    Forall2 (fun ev l => account why (fst ev) (snd ev) l) evs ls.
Proof. exact observed_log. Qed.
Print Assumptions C112_account.

Theorem C112_unique : forall why r m l l', built m -> account why r m l -> account why r m l' -> l = l'.
Proof. exact account_unique. Qed.
Print Assumptions C112_unique.

(** An event that leaves no record was given to all callbacks registered for
    it, or is an answer to a command, or is one that no callback can be
    registered for: the last are lost without a trace. *)
Theorem C112_silent_refuted : forall why r m, built m -> (account why r m [] <->
  m = MAck \/ m = MNack \/ unheard m \/
  exists k args, reports m k args /\ ~ refused r k args /\ forall v, ~ unknown_model m v).
Proof. exact silent_events. Qed.
Print Assumptions C112_silent_refuted.

(** "Item not found" is written about events whose item was found: wherever an
    account holds it, the item is among the items of the client. *)
Theorem C112_not_found_refuted : forall why v r acts evs q, v < 13 -> observed r acts evs q -> Forall (fun ev => ~ stray (snd ev)) evs ->
  forall ev l, In ev evs -> account why (fst ev) (snd ev) l -> In (not_found (snd ev)) l ->
  exists w whr, msg_who (snd ev) = Some w /\ msg_where (snd ev) = Some whr /\ In (w, whr) (st_items (run v (enter v (Dispatch.connected r)) acts)).
Proof.
  intros why v r acts evs q Hv O NS ev l I A IN.
  assert (X : forall m l, account why (fst ev) m l -> In (not_found m) l -> exists w whr, msg_who m = Some w /\ msg_where m = Some whr /\ with_items w).
  { clear. intros m l A I.
    assert (Y : forall w, msg_who m = Some w -> with_items w -> exists w whr, msg_who m = Some w /\ msg_where m = Some whr /\ with_items w).
    { intros w W H. destruct m; cbn in W |- *; try discriminate W; eauto. }
    destruct A as [m E|tags|m w whr W Wh NI|m k args l R NR M|m U|m w W I' K|m k args l R NR M|m K NU NV].
    - destruct I.
    - destruct I as [I|[]]. discriminate I.
    - destruct I as [I|[]]. discriminate I.
    - apply reports_kind, kind_items in R as (w & W & H). eauto.
    - destruct I.
    - eauto.
    - apply reports_kind, kind_items in R as (w & W & H). eauto.
    - apply kind_items in K as (w & W & H). eauto. }
  destruct (X _ _ A IN) as (w & whr & W & Wh & H). exists w, whr. split; [exact W|]. split; [exact Wh|].
  eapply observed_found; eassumption.
Qed.
Print Assumptions C112_not_found_refuted.

(** A stray event ends the loop (C41) and the log: nothing is written about it
    nor about anything after it. *)
Theorem C112_stray_refuted : forall why v r acts evs pre m post, v < 13 ->
  observed r acts evs (pre ++ m :: post) -> Forall (fun ev => ~ stray (snd ev)) evs -> Forall (fun m => ~ stray m) pre -> stray m ->
  exists ls1 ls2, Forall2 (fun ev l => account why (fst ev) (snd ev) l) evs ls1 /\
    Forall2 (account why (registered r acts)) pre ls2 /\
    forall more, l_log (run_l why v (enter_l why v (Dispatch.connected r)) (acts ++ Wake :: more)) = concat (ls1 ++ ls2).
Proof. exact stray_log. Qed.
Print Assumptions C112_stray_refuted.

(** From Python 3.13 on the record about every event of an item is "Item not
    found". *)
Theorem C112_new_refuted : forall why v r its m w whr its' n, 13 <= v -> msg_who m = Some w -> msg_where m = Some whr ->
  get_item its w whr = (its', Ok n) -> handle_l why v r its m = (its', [], None, [not_found m]).
Proof. exact handle_new_log. Qed.
Print Assumptions C112_new_refuted.

(** Whatever happens, in any version, these are the only records: never "Tag not
    supported", "Received a message without who or where" or "Error reading
    message". *)
Theorem C112_records : forall why v s acts, Forall loop_record (l_log (run_l why v (enter_l why v s) acts)).
Proof. exact run_records. Qed.
Print Assumptions C112_records.

Definition takes_two : callback := {| cb_id := 1; cb_takes := fun n => (n =? 2)%nat |}.
Definition lamp : registry := register no_callbacks (K_light STATUS_CHANGE) takes_two.
Definition acts_ex : list act :=
  [Packet (lit "*1*1*12##*#*1##*1001*1*2##*#1*12*2*5##*25##"); Wake;
   Packet (lit "*#1*12##*#1*12*1*5##*#13**15*99##*2*7*31##"); Wake].
Definition evs_ex : list msg :=
  [MNormal LIGHTING (lit "1") (lit "12"); MAck; MNormal AUTOMATION_DIAGNOSTICS (lit "1") (lit "2"); MDimRes LIGHTING (lit "12") (lit "2") [lit "5"];
   MGeneric [lit "25"]; MStatus LIGHTING (lit "12"); MDimRes LIGHTING (lit "12") (lit "1") [lit "5"];
   MDimRes GATEWAY [] (lit "15") [lit "99"]; MNormal AUTOMATION (lit "7") (lit "31")].

Example C112_ex : forall why,
  l_log (run_l why 12 (enter_l why 12 (Dispatch.connected lamp)) acts_ex) = [
    Rec L_client INFO (lit "Item type not supported, WHO=1001, WHERE=2");
    Rec L_client WARNING (lit "Received an unknown message: *25##");
    Rec L_client WARNING (lit "Message not supported *#1*12##");
    Rec L_client WARNING (lit "Item not found for message *#1*12##");
    Rec L_client ERROR (lit "There was an error in the callback: " ++ why lamp (MDimRes LIGHTING (lit "12") (lit "1") [lit "5"]));
    Rec L_client WARNING (lit "Item not found for message *#1*12*1*5##");
    Rec L_gateway WARNING (lit "The gateway model 99 was not found in the known models.");
    Rec L_gateway WARNING (lit "Please, open an issue on GitHub, attach the logs and the model name.");
    Rec L_client ERROR (lit "There was an error in the callback: " ++ why lamp (MNormal AUTOMATION (lit "7") (lit "31")));
    Rec L_client WARNING (lit "Item not found for message *2*7*31##")] /\
  st_items (run 12 (enter 12 (Dispatch.connected lamp)) acts_ex) = [(LIGHTING, lit "12"); (GATEWAY, []); (AUTOMATION, lit "31")] /\
  length (st_started (run 12 (enter 12 (Dispatch.connected lamp)) acts_ex)) = 1%nat.
Proof. intros why. vm_compute. repeat split. Qed.

(** The hypotheses hold of this history. *)
Example C112_observed_ex : observed lamp acts_ex (map (pair lamp) evs_ex) [] /\ Forall (fun ev => ~ stray (snd ev)) (map (pair lamp) evs_ex) /\
  unheard (nth 3 evs_ex MAck).
Proof.
  split; [|split].
  - change (map (pair lamp) evs_ex) with (map (pair lamp) (firstn 5 evs_ex) ++ map (fun m => (lamp, m)) (skipn 5 evs_ex)).
    unfold acts_ex. set (a := Packet (lit "*1*1*12##*#*1##*1001*1*2##*#1*12*2*5##*25##")).
    set (b := Packet (lit "*#1*12##*#1*12*1*5##*#13**15*99##*2*7*31##")).
    apply (O_wake lamp [a; Wake; b] (map (pair lamp) (firstn 5 evs_ex)) (skipn 5 evs_ex)).
    apply (O_packet lamp [a; Wake] _ [] (lit "*#1*12##*#1*12*1*5##*#13**15*99##*2*7*31##") (skipn 5 evs_ex)); [|vm_compute; reflexivity].
    change (map (pair lamp) (firstn 5 evs_ex)) with ([] ++ map (fun m => (lamp, m)) (firstn 5 evs_ex)).
    apply (O_wake lamp [a] [] (firstn 5 evs_ex)).
    apply (O_packet lamp [] [] [] (lit "*1*1*12##*#*1##*1001*1*2##*#1*12*2*5##*25##") (firstn 5 evs_ex)); [|vm_compute; reflexivity]. constructor.
  - repeat (apply Forall_cons; [intros [W _]; discriminate W|]). apply Forall_nil.
  - apply (U_light (lit "12") (lit "2") [] [lit "5"]); [cbv; intuition discriminate|constructor|]. intros e n L. inversion L.
Qed.
