(** * C131: the exceptions of each method *)
From Coq Require Import String List NArith ZArith Bool Lia.
From Verif Require Import PyStr Tags Messages SpecMsg SpecTag IO SpecItem Client Items ItemThms Lighting PyDate SpecGateway Gateway PyFloat Energy SpecEnergy
  SpecRaise RaiseThms RaiseThms2 RaiseThms3 RaiseThms4 PropItems.
Import ListNotations.
Open Scope N_scope.
Open Scope list_scope.

(** Whatever the arguments, and whatever arrives or does not, a method raises
    nothing but the exceptions of its row. *)
Theorem C131_only it k Y A (x : io Y A) : placed it -> runs it k Y A x -> forall s e, res_of (x s) = Err e -> In e (raises k).
Proof. exact (only_raises it k Y A x). Qed.
Print Assumptions C131_only.

(** Each of them is raised: by some call, when what arrives are messages that
    the parser makes of some text; InvalidSession when the client has no
    session to send on. *)
Theorem C131_each it k : placed it ->
  (ready it -> forall e, In e (raises k) -> e <> InvalidSession ->
     exists Y A (x : io Y A) s, runs it k Y A x /\ Forall arrives s /\ res_of (x s) = Err e) /\
  (~ ready it -> exists Y A (x : io Y A), runs it k Y A x /\ forall s, res_of (x s) = Err InvalidSession).
Proof.
  intros Hp. split; [|exact (session_raised it k Hp)].
  intros Hr e H N. destruct (each_raised it k e Hp Hr H N) as (Y & A & x & R & s & F & E). exists Y, A, x, s. auto.
Qed.
Print Assumptions C131_each.

(** Catching OWNException does not catch all: every method can raise
    TimeoutError, and those below other exceptions as well. *)
Theorem C131_own_exception_refuted it k : placed it -> ready it ->
  ~ In TimeoutError own /\ (exists Y A (x : io Y A) s, runs it k Y A x /\ Forall arrives s /\ res_of (x s) = Err TimeoutError) /\
  ((exists e, In e (raises k) /\ e <> TimeoutError /\ ~ In e own) <->
   ~ match k with
     | Normal | Status | Dim_request | Dim_writing | Light _ | Blink _ | Level _ | Light_status | Shutter _ | Video | Camera _ | Set_date
     | Enable | Force_off | Auto_reset_on | Auto_reset_off => True
     | _ => False
     end).
Proof.
  intros Hp Hr. split; [intros H; cbn in H; intuition discriminate|]. split.
  - apply (proj1 (C131_each it k Hp) Hr); [right; left; reflexivity|discriminate].
  - split.
    + intros (e & H & T & O) K. destruct k; try contradiction; cbn in H; cbn in O; intuition congruence.
    + intros K. assert (V : In ValueError (raises k) \/ In IndexError (raises k)) by (destruct k; try (exfalso; apply K; exact I); cbn; tauto).
      destruct V as [V|V]; eexists; (split; [exact V|]; split; [discriminate|]); intros H; cbn in H; intuition discriminate.
Qed.
Print Assumptions C131_own_exception_refuted.

(** The exceptions of a docstring are raised; none of the docstrings is
    complete. *)
Theorem C131_docstrings_refuted it k ds : placed it -> ready it -> documented k = Some ds ->
  (forall e, In e ds -> exists Y A (x : io Y A) s, runs it k Y A x /\ Forall arrives s /\ res_of (x s) = Err e) /\
  exists e Y A (x : io Y A) s, ~ In e ds /\ runs it k Y A x /\ Forall arrives s /\ res_of (x s) = Err e.
Proof.
  intros Hp Hr D. pose proof (proj1 (C131_each it k Hp) Hr) as E. split.
  - intros e H. apply E; [|intros ->]; destruct k; cbn in D; try discriminate; injection D as <-; cbn in *; intuition (try discriminate; congruence).
  - destruct (E TimeoutError) as (Y & A & x & s & R & F & X); [right; left; reflexivity|discriminate|].
    exists TimeoutError, Y, A, x, s. split; [|auto]. destruct k; cbn in D; try discriminate; injection D as <-; cbn; intuition discriminate.
Qed.
Print Assumptions C131_docstrings_refuted.

(** The lamp of PropItems: one method, its row, and a call for each entry that
    an opened client can meet. *)
Example C131_ex_dimmer : placed lamp /\ ready lamp /\
  raises Dimmer_status = [InvalidSession; TimeoutError; ResponseError; ValueError] /\
  res_of (dimmer_get_status lamp []) = Err TimeoutError /\
  res_of (dimmer_get_status lamp [Some (MNormal LIGHTING (lit "5") (lit "12")); Some MNack]) = Err ResponseError /\
  heard (MNormal LIGHTING [] (lit "12")) /\ res_of (dimmer_get_status lamp [Some (MNormal LIGHTING [] (lit "12"))]) = Err ValueError.
Proof.
  split; [apply lamp_ready|]. split; [apply lamp_ready|]. split; [reflexivity|]. split; [reflexivity|]. split; [reflexivity|].
  split; [exists (lit "*1**12##"); reflexivity|reflexivity].
Qed.
(** A version in two parts, which get_firmware does not expect. *)
Example C131_ex_firmware : heard (MDimRes GATEWAY [] (lit "16") [lit "1"; lit "2"]) /\
  res_of (get_firmware (Y:=Empty_set) lamp [Some (MDimRes GATEWAY [] (lit "16") [lit "1"; lit "2"]); Some MAck]) = Err IndexError /\
  ~ In IndexError own /\ ~ In IndexError common.
Proof.
  split; [exists (lit "*#13**16*1*2##"); reflexivity|]. split; [reflexivity|]. split; intros H; cbn in H; intuition discriminate.
Qed.
