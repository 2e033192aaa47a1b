(** * What accepting a packet costs at least *)
From Coq Require Import String List NArith ZArith Bool Lia.
From Verif Require Import PyStr Regex Tags Messages MessageFacts MessageThms MessageThms2 Protocol SpecMsg MessageThms3 SpecProto ProtoThms Backtrack BacktrackThms BacktrackThms2.
Import ListNotations.
Open Scope N_scope.
Open Scope list_scope.

Lemma orelse_fst a b : snd (orelse a b) = true -> fst a <= fst (orelse a b).
Proof. unfold orelse. destruct (snd a); cbn; lia. Qed.

(** A search that succeeds has tested every character it consumed. *)
Lemma bt_lower r : forall s k, snd (bt r s k) = true ->
  exists u v, s = u ++ v /\ snd (k v) = true /\ len u + fst (k v) <= fst (bt r s k).
Proof.
  assert (Or : forall a b (P : result -> Prop), (forall x y, fst x <= fst y -> P x -> P y) ->
    (snd a = true -> P a) -> (snd (b tt) = true -> P (b tt)) -> snd (orelse a b) = true -> P (orelse a b)).
  { intros a b P Mono Ha Hb. unfold orelse. destruct (snd a) eqn:E; cbn [snd]; [intros _; apply Ha; reflexivity|].
    intros H. apply (Mono (b tt)); [cbn; lia|]. apply Hb, H. }
  assert (Mono : forall s (k : str -> result) (x y : result), fst x <= fst y ->
    (exists u v, s = u ++ v /\ snd (k v) = true /\ len u + fst (k v) <= fst x) ->
    exists u v, s = u ++ v /\ snd (k v) = true /\ len u + fst (k v) <= fst y).
  { intros s k x y L (u & v & E & K & H). exists u, v. repeat split; [exact E|exact K|lia]. }
  induction r as [| |l|a IHa b IHb|a IHa b IHb|a IHa]; intros s k.
  - discriminate.
  - cbn [bt]. intros H. exists [], s. repeat split; [exact H|]. unfold len. cbn. lia.
  - cbn [bt]. destruct s as [|c t]; [discriminate|]. destruct (existsb (N.eqb c) l); [|discriminate].
    cbn [snd fst]. intros H. exists [c], t. repeat split; [exact H|]. unfold len. cbn [length]. lia.
  - cbn [bt]. intros H. apply IHa in H as (u & v & -> & K & L). apply IHb in K as (u' & v' & -> & K' & L').
    exists (u ++ u'), v'. split; [apply app_assoc|]. split; [exact K'|]. unfold len in *. rewrite app_length. lia.
  - cbn [bt]. apply (Or _ _ (fun x => exists u v, s = u ++ v /\ snd (k v) = true /\ len u + fst (k v) <= fst x)).
    + intros x y. apply Mono.
    + apply IHa.
    + apply IHb.
  - rewrite bt_star. generalize (S (length s)) as fuel, (@None nat) as last. intros fuel. revert s.
    assert (Now : forall s, snd (k s) = true -> exists u v, s = u ++ v /\ snd (k v) = true /\ len u + fst (k v) <= fst (k s)).
    { intros s H. exists [], s. repeat split; [exact H|]. unfold len. cbn. lia. }
    induction fuel as [|fuel IH]; intros s last; [apply Now|]. rewrite until_S.
    destruct (match last with Some n => (n =? length s)%nat | None => false end); [apply Now|].
    apply (Or _ _ (fun x => exists u v, s = u ++ v /\ snd (k v) = true /\ len u + fst (k v) <= fst x)).
    + intros x y. apply Mono.
    + intros H. apply IHa in H as (u & v & -> & K & L). apply IH in K as (u' & v' & -> & K' & L').
      exists (u ++ u'), v'. split; [apply app_assoc|]. split; [exact K'|]. unfold len in *. rewrite app_length. lia.
    + apply Now.
Qed.

(** A match of a text that ends with a hash tests the whole text. *)
Lemma search_lower r s : snd (search r (s ++ [35])) = true -> len (s ++ [35]) <= fst (search r (s ++ [35])).
Proof.
  unfold search. intros H. apply bt_lower in H as (u & v & E & K & L). cbn [at_end fst snd] in *.
  destruct v as [|c [|]]; [|exfalso|discriminate].
  - rewrite app_nil_r in E. rewrite E in *. lia.
  - apply N.eqb_eq in K as ->. apply app_inj_tail in E as [_ E]. discriminate.
Qed.

(** The pattern that accepts is among those tried. *)
Lemma classes_lower s cs : existsb (fun c => py_match (fst c) (s ++ [35])) cs = true -> len (s ++ [35]) <= class_cost cs (s ++ [35]).
Proof.
  induction cs as [|[r p] cs IH]; cbn [existsb class_cost fst]; [discriminate|].
  pose proof (search_spec r (s ++ [35])) as E. rewrite <- E. destruct (snd (search r (s ++ [35]))) eqn:M; cbn [orb].
  - intros _. apply search_lower in M. lia.
  - intros H. apply IH in H. lia.
Qed.

Definition is_generic (m : msg) : bool := match m with MGeneric _ => true | _ => false end.

Lemma dispatch_typed text tags m cs : dispatch cs text tags = Ok m -> is_generic m = false -> existsb (fun c => py_match (fst c) text) cs = true.
Proof.
  induction cs as [|[r p] cs IH]; cbn [dispatch existsb fst].
  - unfold parse_generic. destruct (forallb is_valid_tag tags); [|discriminate]. intros [= <-]. discriminate.
  - destruct (py_match r text); [reflexivity|]. exact IH.
Qed.

(** How often each character of a frame is tested at least: by the check of the
    whole, and by the pattern of its class if it has one. *)
Definition times (m : msg) : N := if is_generic m then 1 else 2.

Lemma parse_lower m : streamable m -> times m * len (msg_str m) <= parse_cost (msg_str m).
Proof.
  intros [W NE]. destruct (wf_body m W) as (b & E & _).
  pose proof (parse_white m [] W (Forall_nil _)) as P. cbn [app] in P.
  assert (St : strip (msg_str m) = msg_str m).
  { pose proof (strip_surround [] (msg_str m) []) as X. rewrite app_nil_r in X. apply X; [reflexivity|reflexivity|].
    rewrite E. split; [reflexivity|]. cbn [rev]. rewrite rev_app_distr. reflexivity. }
  unfold parse_message in P. unfold parse_cost. rewrite St in *.
  destruct (negb (count_hh (msg_str m) =? 1)%nat); [discriminate|].
  destruct (py_match R_generic (msg_str m)) eqn:G; [|discriminate]. cbn [negb] in P.
  rewrite <- search_spec in G. rewrite G.
  assert (Z : msg_str m = (42 :: b ++ [35]) ++ [35]) by (rewrite E; cbn [app]; rewrite <- app_assoc; reflexivity).
  pose proof G as L. rewrite Z in L. apply search_lower in L. rewrite <- Z in L.
  unfold times. destruct (is_generic m) eqn:Ty; [lia|].
  apply dispatch_typed in P; [|exact Ty]. rewrite Z in P. apply classes_lower in P. rewrite <- Z in P. lia.
Qed.

Fixpoint weight (ms : list msg) : N :=
  match ms with [] => 0 | m :: ms => times m * len (msg_str m) + weight ms end.

Lemma texts_lower ms : Forall streamable ms -> weight ms <= texts_cost (filter nonempty (map piece (map (pair []) ms))).
Proof.
  intros H. induction H as [|m ms Hm H IH]; cbn [weight map filter]; [cbn; lia|].
  assert (E : piece ([], m) ++ hh = msg_str m /\ nonempty (piece ([], m)) = true).
  { unfold piece. cbn [fst snd app]. destruct (streamable_body m Hm) as (b & E & _). rewrite E.
    change (42 :: b ++ [35; 35]) with ((42 :: b) ++ hh). rewrite removesuffix_app. split; reflexivity. }
  destruct E as [E1 E2]. rewrite E2. cbn [texts_cost]. rewrite E1.
  pose proof (parse_white m [] (proj1 Hm) (Forall_nil _)) as P. cbn [app] in P. rewrite P.
  pose proof (parse_lower m Hm). lia.
Qed.

Theorem packet_lower ms : Forall streamable ms -> weight ms <= packet_cost (concat (map msg_str ms)).
Proof.
  intros H. unfold packet_cost.
  assert (T : concat (map msg_str ms) = packet_text (map (pair []) ms) []).
  { unfold packet_text. rewrite app_nil_r, map_map. reflexivity. }
  assert (F : Forall (fun p => white (fst p) /\ streamable (snd p)) (map (pair []) ms)).
  { rewrite Forall_map. eapply Forall_impl; [|exact H]. intros m Hm. split; [constructor|exact Hm]. }
  rewrite decode_ascii_ok.
  2:{ apply Forall_concat. rewrite Forall_map. eapply Forall_impl; [|exact H]. intros m [W _]. apply msg_str_ascii, W. }
  rewrite T. destruct ms as [|m ms]; [cbn; lia|].
  inversion H as [|? ? Hm Hms]; subst. cbn [map].
  rewrite strip_packet; [|constructor|apply Hm| |constructor].
  2:{ rewrite Forall_map. eapply Forall_impl; [|exact Hms]. intros x [W _]. exact W. }
  change (([], m) :: map (pair []) ms) with (map (pair (@nil N)) (m :: ms)).
  rewrite packet_frames by (eapply Forall_impl; [|exact F]; intros p [_ X]; exact X).
  rewrite <- (app_nil_r (frames _)). rewrite split_hh_frames by (apply pieces_clean, F).
  cbn [split_hh]. rewrite filter_app. cbn [filter nonempty]. rewrite app_nil_r.
  apply texts_lower, H.
Qed.

Lemma weight_len ms : len (concat (map msg_str ms)) <= weight ms.
Proof.
  unfold len. induction ms as [|m ms IH]; cbn [weight map concat]; [cbn; lia|].
  rewrite app_length. unfold times, len. destruct (is_generic m); lia.
Qed.

Lemma weight_typed ms : Forall (fun m => is_generic m = false) ms -> weight ms = 2 * len (concat (map msg_str ms)).
Proof.
  unfold len. induction 1 as [|m ms Hm H IH]; cbn [weight map concat]; [reflexivity|].
  rewrite app_length. unfold times, len in *. rewrite Hm. lia.
Qed.
