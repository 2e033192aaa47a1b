(** * Property C36 again: item methods on a client that may not send *)
From Coq Require Import String List NArith ZArith Bool Lia.
From Verif Require Import PyStr Tags Messages SpecMsg SpecTag IO Client Items SpecItem Lighting PyDate SpecGateway Gateway PyFloat Energy SpecEnergy
  ItemThms SpecRaise RaiseThms RaiseThms2 SessionThms.
Import ListNotations.
Open Scope N_scope.
Open Scope list_scope.

(** Every method of every item: on an event session, before start() and after
    close() it raises InvalidSession and writes and reads nothing, unless its
    arguments are such that every item refuses them before doing anything. *)
Theorem C36_items : forall it k Y A (x : io Y A), runs it k Y A x ->
  cl_session (it_client it) = Event \/ cl_proto (it_client it) = false ->
  (forall s, x s = ([], s, Err InvalidSession)) \/
  exists (f : item -> io Y A) e, x = f it /\ (forall it', runs it' k Y A (f it')) /\ In e [ValueError; InvalidTag] /\
    forall it' s, f it' s = ([], s, Err e).
Proof.
  intros it k Y A x R Hc. assert (Hr : ~ ready it).
  { intros [H1 H2]. destruct Hc as [H|H]; [exact (H1 H)|congruence]. }
  destruct (gated it k Y A x R) as (f & -> & F & [G|(e & He & G)]); [left; intros s; apply G, Hr|].
  right. exists f, e. auto.
Qed.
Print Assumptions C36_items.

(** The methods that take no argument that can be refused. *)
Theorem C36_items_fixed : forall it k Y A (x : io Y A), placed it -> runs it k Y A x ->
  cl_session (it_client it) = Event \/ cl_proto (it_client it) = false ->
  ~ In ValueError (raises k) -> ~ In InvalidTag (raises k) -> forall s, x s = ([], s, Err InvalidSession).
Proof.
  intros it k Y A x Hp R Hc NV NT s. destruct (C36_items it k Y A x R Hc) as [G|(f & e & -> & F & He & G)]; [apply G|].
  pose proof (only_raises it k Y A (f it) Hp R s e ltac:(rewrite G; reflexivity)) as I.
  destruct He as [<-|[<-|[]]]; contradiction.
Qed.
Print Assumptions C36_items_fixed.

Definition listener : item := {| it_client := {| cl_session := Event; cl_proto := true |}; it_who := LIGHTING; it_where := lit "12" |}.

Example C36_ex_items : forall s,
  (run_base listener turn_on s : list (ev Empty_set) * script * res unit) = ([], s, Err InvalidSession) /\
  light_get_status listener s = ([], s, Err InvalidSession) /\
  (set_hsv listener 400 0 0 s : list (ev Empty_set) * script * res unit) = ([], s, Err ValueError) /\
  (set_hsv listener 300 0 0 s : list (ev Empty_set) * script * res unit) = ([], s, Err InvalidSession).
Proof. intros s. repeat split; reflexivity. Qed.
Example C36_ex_fixed : placed listener /\ ~ In ValueError (raises (Light turn_on)) /\ ~ In InvalidTag (raises (Light turn_on)).
Proof. split; [apply (proj1 (mk_ok _)); reflexivity|]. split; cbn; intuition discriminate. Qed.
