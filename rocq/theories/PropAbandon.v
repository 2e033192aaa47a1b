(** * Property C103: leaving the replies of a request early (refuted) *)
From Coq Require Import String List NArith ZArith Bool Lia.
From Verif Require Import PyStr Tags Messages SpecMsg IO Client SpecItem Items ItemThms ItemThms2 Lighting SpecAbandon AbandonThms PropItems.
Import ListNotations.
Open Scope list_scope.

(** The claim: a request whose consumer leaves its loop before the ACK, by break
    or by an exception, does not disturb the calls that follow. *)

(** What does hold: requests that are consumed to the end get the replies of
    their own answers, and leave nothing. *)
Theorem C103_consumed_partial : forall qs rss (s : script),
  Forall ask_ok qs -> Forall2 (fun p rs => Forall (wants (snd p)) rs) qs rss ->
  ask_all qs (replies_to rss ++ s) = map (fun rs => (rs, Ok tt)) rss.
Proof. exact ask_each. Qed.
Print Assumptions C103_consumed_partial.

(** A request that is left at the reply [m] has read up to [m] and not further,
    whatever the consumer does. *)
Theorem C103_unread_refuted : forall Y it q (body : msg -> res (list Y)) rs yss m e (rest : script),
  ask_ok (it, q) -> Forall (wants q) rs -> wants q m -> Forall2 (fun m ys => body m = Ok ys) rs yss -> body m = Err e ->
  let x := ask_with it q body (map Some rs ++ Some m :: rest) in
  sents (evs_of x) = [frame_of it q] /\ yields (evs_of x) = concat yss /\ gots (evs_of x) = rs ++ [m] /\ rest_of x = rest /\ res_of x = Err e.
Proof. exact @abandoned. Qed.
Print Assumptions C103_unread_refuted.

(** Afterwards every request of the same kind gets the replies of the request
    before it, for ever, and reports success. *)
Theorem C103_shifted_refuted : forall q qs rs2 rss,
  Forall ask_ok qs -> Forall (fun p => same_kind q (snd p)) qs ->
  Forall (wants q) rs2 -> Forall (Forall (wants q)) rss -> length qs = length rss ->
  ask_all qs (reply rs2 ++ replies_to rss) = map (fun rs => (rs, Ok tt)) (removelast (rs2 :: rss)).
Proof. exact shifted. Qed.
Print Assumptions C103_shifted_refuted.

(** A request of the other kind fails, whatever the gateway answers to it. *)
Theorem C103_other_kind_refuted : forall q it q' m (s : script), ask_ok (it, q') -> ~ same_kind q q' -> wants q m ->
  ask_with it q' as_is (Some m :: s) = ([Sent (frame_of it q'); Got m], s, Err ResponseError).
Proof. exact other_kind. Qed.
Print Assumptions C103_other_kind_refuted.

(** Commands: one ResponseError for every reply left over, one success for the
    ACK of the abandoned request, and from then on the verdict of every command
    is the answer to an earlier one. *)
Theorem C103_commands_refuted : forall q rs2 cs (rs : list msg),
  Forall call_ok cs -> Forall (wants q) rs2 -> length cs = S (length rs2 + length rs) ->
  run_all cs (reply rs2 ++ map Some rs) = map (fun _ => Err ResponseError) rs2 ++ Ok tt :: map (fun m => verdict (Some m)) rs.
Proof. exact commands_after. Qed.
Print Assumptions C103_commands_refuted.

(** A consumer stops at the first reply that says on: the next request yields what
    was left, the one after it the replies of that one; a command after the
    break fails although the gateway accepts it, the next one succeeds although
    the gateway refuses it. *)
Definition on12 := MNormal LIGHTING (lit "1") (lit "12").
Definition off13 := MNormal LIGHTING (lit "0") (lit "13").
Definition on14 := MNormal LIGHTING (lit "1") (lit "14").
Definition until_on (m : msg) : res (list msg) :=
  match m with MNormal _ w _ => if str_eqb w (lit "1") then Err ValueError else Ok [m] | _ => Ok [m] end.
Example C103_ex :
  ask_ok (lamp, QStatus) /\
  rest_of (ask_with lamp QStatus until_on (reply [off13; on12; on14])) = reply [on14] /\
  ask_all [(lamp, QStatus); (lamp, QStatus)] (reply [on14] ++ replies_to [[off13]; [on12; off13]]) = [([on14], Ok tt); ([off13], Ok tt)] /\
  run_all [(lamp, CWhat (lit "1")); (lamp, CWhat (lit "0"))] (reply [on14] ++ map Some [MAck; MNack]) = [Err ResponseError; Ok tt].
Proof. split; [split; [apply lamp_ready|split; [apply lamp_ready|exact I]]|]. split; [reflexivity|]. split; reflexivity. Qed.
