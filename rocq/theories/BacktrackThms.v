(** * The cost of validation: consequences *)
From Coq Require Import String List NArith ZArith Bool Lia.
From Verif Require Import PyStr Regex Tags Messages MessageFacts Protocol SpecMsg SpecProto ProtoThms Backtrack.
Import ListNotations.
Open Scope N_scope.
Open Scope list_scope.

(** ** Accepting a frame is linear *)

Definition wins (n : N) (x : result) : Prop := snd x = true /\ fst x <= n.
Definition loses (n : N) (x : result) : Prop := snd x = false /\ fst x <= n.
Definition len (s : str) : N := N.of_nat (length s).

Lemma wins_le n m x : n <= m -> wins n x -> wins m x.
Proof. intros H [A B]. split; [exact A|lia]. Qed.
Lemma loses_le n m x : n <= m -> loses n x -> loses m x.
Proof. intros H [A B]. split; [exact A|lia]. Qed.
Lemma wins_first n a b : wins n a -> wins n (orelse a b).
Proof. intros [A B]. unfold orelse. rewrite A. split; assumption. Qed.
Lemma wins_second n m a b : loses n a -> wins m (b tt) -> wins (n + m) (orelse a b).
Proof. intros [A B] [C D]. unfold orelse. rewrite A. split; [exact C|cbn; lia]. Qed.
Lemma loses_both n m a b : loses n a -> loses m (b tt) -> loses (n + m) (orelse a b).
Proof. intros [A B] [C D]. unfold orelse. rewrite A. split; [exact C|cbn; lia]. Qed.

Definition begins (l : list N) (s : str) : Prop := match s with c :: _ => In c l | [] => False end.

Lemma cls_no l s k : ~ begins l s -> loses 1 (bt (Cls l) s k).
Proof.
  intros H. cbn [bt]. destruct s as [|c t]; [split; cbn; [reflexivity|lia]|]. cbn [begins] in H.
  replace (existsb (N.eqb c) l) with false; [split; cbn; [reflexivity|lia]|].
  symmetry. destruct (existsb (N.eqb c) l) eqn:E; [|reflexivity]. apply existsb_exists in E as (y & Hy & E). apply N.eqb_eq in E. subst. contradiction.
Qed.

Lemma cls_yes l c t k n : In c l -> wins n (k t) -> wins (1 + n) (bt (Cls l) (c :: t) k).
Proof.
  intros H [A B]. cbn [bt]. replace (existsb (N.eqb c) l) with true by (symmetry; apply existsb_exists; exists c; split; [exact H|apply N.eqb_refl]).
  split; cbn [fst snd]; [exact A|lia].
Qed.

Definition far (last : option nat) (s : str) : Prop := match last with Some n => (length s < n)%nat | None => True end.

Lemma until_far a k fuel last s : far last s -> until a k (S fuel) last s = orelse (bt a s (until a k fuel (Some (length s)))) (fun _ => k s).
Proof.
  intros H. rewrite until_S. replace (match last with Some n => (n =? length s)%nat | None => false end) with false; [reflexivity|].
  destruct last; [|reflexivity]. cbn in H. symmetry. apply Nat.eqb_neq. lia.
Qed.

Lemma digits_until k n rest : ~ begins digit_set rest -> wins n (k rest) ->
  forall d fuel last, Forall (fun c => In c digit_set) d -> (length (d ++ rest) < fuel)%nat -> far last (d ++ rest) ->
  wins (len d + 1 + n) (until (Cls digit_set) k fuel last (d ++ rest)).
Proof.
  intros R K d. induction d as [|c d IH]; intros fuel last D Hf Hl; (destruct fuel as [|fuel]; [lia|]); rewrite (until_far _ _ _ _ _ Hl); cbn [app] in *.
  - change (len [] + 1 + n) with (1 + n). apply wins_second; [apply cls_no; exact R|exact K].
  - apply wins_first. inversion D; subst. eapply wins_le; [|apply cls_yes; [assumption|apply IH; [assumption| |]]].
    + unfold len. cbn [length]. lia.
    + cbn [length] in Hf. lia.
    + cbn [far length]. lia.
Qed.

Lemma digits_wins d rest k n : Forall (fun c => In c digit_set) d -> ~ begins digit_set rest -> wins n (k rest) ->
  wins (len d + 1 + n) (bt R_digits (d ++ rest) k).
Proof. intros D R K. unfold R_digits. rewrite bt_star. apply digits_until; [assumption..|lia|exact I]. Qed.

(** Runs of digits each after a hash. *)
Inductive hashes : str -> Prop :=
| H_nil : hashes []
| H_more d h : Forall (fun c => In c digit_set) d -> hashes h -> hashes (35 :: d ++ h).

Lemma hashes_no_digit h rest : hashes h -> ~ begins digit_set rest -> ~ begins digit_set (h ++ rest).
Proof. intros [|d h' D H] R; [exact R|]. cbn [app begins]. intros X. apply digit_stops in X. destruct X. congruence. Qed.

Lemma hash_until k n rest : ~ begins digit_set rest ->
  (forall fuel last, (length rest < fuel)%nat -> far last rest -> wins n (until (Cat (Chr c_hash) R_digits) k fuel last rest)) ->
  forall h, hashes h -> forall fuel last, (length (h ++ rest) < fuel)%nat -> far last (h ++ rest) ->
  wins (2 * len h + n) (until (Cat (Chr c_hash) R_digits) k fuel last (h ++ rest)).
Proof.
  intros R K h H. induction H as [|d h D H IH]; intros fuel last Hf Hl.
  - change (2 * len [] + n) with n. apply K; assumption.
  - destruct fuel as [|fuel]; [lia|]. rewrite (until_far _ _ _ _ _ Hl). apply wins_first. cbn [bt]. unfold Chr.
    change ((35 :: d ++ h) ++ rest) with (35 :: (d ++ h) ++ rest) in *. rewrite <- app_assoc in *.
    eapply wins_le; [|apply cls_yes; [left; reflexivity|]; apply digits_wins; [exact D| |apply IH]].
    + unfold len. cbn [length]. rewrite app_length. lia.
    + apply hashes_no_digit; assumption.
    + cbn [length] in Hf. rewrite !app_length in *. lia.
    + cbn [far length]. rewrite !app_length. lia.
Qed.

Lemma hash_wins h rest k n : hashes h -> ~ begins digit_set rest ->
  (forall fuel last, (length rest < fuel)%nat -> far last rest -> wins n (until (Cat (Chr c_hash) R_digits) k fuel last rest)) ->
  wins (2 * len h + n) (bt R_hseg (h ++ rest) k).
Proof. intros H R K. unfold R_hseg. rewrite bt_star. apply hash_until; [assumption..|lia|exact I]. Qed.

(** One item ended by a star. *)
Lemma item_star d h t k n : Forall (fun c => In c digit_set) d -> hashes h -> wins n (k t) ->
  wins (2 * len (d ++ h) + 3 + n) (bt R_item (d ++ h ++ 42 :: t) k).
Proof.
  intros D H K.
  change (bt R_item (d ++ h ++ 42 :: t) k) with (bt R_digits (d ++ h ++ 42 :: t) (fun s => bt R_hseg s (fun s => bt (Opt (Chr c_star)) s k))).
  assert (R : ~ begins digit_set (42 :: t)) by (intros X; apply digit_stops in X; destruct X; congruence).
  eapply wins_le; [|apply digits_wins; [exact D|apply hashes_no_digit; assumption|apply (hash_wins h (42 :: t) _ (2 + n) H R)]].
  - unfold len. rewrite app_length. lia.
  - intros fuel last Hf Hl. destruct fuel as [|fuel]; [lia|]. rewrite (until_far _ _ _ _ _ Hl).
    change (2 + n) with (1 + 1 + n). rewrite <- N.add_assoc. apply wins_second.
    + cbn [bt]. unfold Chr. apply (cls_no [c_hash] (42 :: t)). intros [X|[]]. discriminate X.
    + change (wins (1 + n) (orelse (bt (Cls [c_star]) (42 :: t) k) (fun _ => k (42 :: t)))). apply wins_first. apply cls_yes; [left; reflexivity|exact K].
Qed.

(** The last item, before the two hashes: they are eaten and given back. *)
Lemma item_last d h k n0 n1 n2 : Forall (fun c => In c digit_set) d -> hashes h -> loses n0 (k []) -> loses n1 (k [35]) -> wins n2 (k hh) ->
  wins (2 * len (d ++ h) + n0 + n1 + n2 + 20) (bt R_item (d ++ h ++ hh) k).
Proof.
  intros D H K0 K1 K2.
  change (bt R_item (d ++ h ++ hh) k) with (bt R_digits (d ++ h ++ hh) (fun s => bt R_hseg s (fun s => bt (Opt (Chr c_star)) s k))).
  assert (R : ~ begins digit_set hh) by (intros X; apply digit_stops in X; destruct X as [X _]; apply X; reflexivity).
  eapply wins_le; [|apply digits_wins; [exact D|apply hashes_no_digit; assumption|apply (hash_wins h hh _ (n0 + n1 + n2 + 15) H R)]].
  - unfold len. rewrite app_length. lia.
  - intros fuel last Hf Hl. destruct K0 as [A0 B0], K1 as [A1 B1], K2 as [A2 B2].
    destruct fuel as [|[|[|fuel]]]; [cbn in Hf; lia..|]. rewrite (until_far _ _ _ _ _ Hl).
    destruct (k []) as [c0 r0] eqn:E0, (k [35]) as [c1 r1] eqn:E1, (k hh) as [c2 r2] eqn:E2. cbn [fst snd] in *. subst r0 r1 r2.
    change hh with [35; 35] in *.
    unfold R_digits. rewrite (eq_refl : digit_set = [48; 49; 50; 51; 52; 53; 54; 55; 56; 57]). cbn -[N.add]. rewrite ?E0, ?E1, ?E2. cbn -[N.add]. rewrite ?E0, ?E1, ?E2. cbn -[N.add].
    split; [reflexivity|]. cbn [fst]. lia.
Qed.

(** ** The rest of the loop *)

Definition kend (s : str) : result := bt (Lit hh) s at_end.

Lemma until_any a k fuel last s : until a k (S fuel) last s = k s \/ until a k (S fuel) last s = orelse (bt a s (until a k fuel (Some (length s)))) (fun _ => k s).
Proof. rewrite until_S. destruct (match last with Some n => (n =? length s)%nat | None => false end); auto. Qed.

Lemma loop_nil fuel last : loses 5 (until R_item kend fuel last []).
Proof.
  destruct fuel as [|fuel]; [cbn; split; [reflexivity|cbn; lia]|].
  destruct (until_any R_item kend fuel last []) as [->| ->]; [cbn; split; [reflexivity|cbn; lia]|].
  destruct fuel as [|fuel]; cbn; (split; [reflexivity|cbn; lia]).
Qed.

Lemma loop_hash fuel last : loses 30 (until R_item kend fuel last [35]).
Proof.
  destruct fuel as [|fuel]; [cbn; split; [reflexivity|cbn; lia]|].
  destruct (until_any R_item kend fuel last [35]) as [->| ->]; [cbn; split; [reflexivity|cbn; lia]|].
  destruct fuel as [|[|fuel]]; cbn; (split; [reflexivity|cbn; lia]).
Qed.

Lemma loop_hh fuel last : wins 60 (until R_item kend fuel last hh).
Proof.
  destruct fuel as [|fuel]; [cbn; split; [reflexivity|cbn; lia]|].
  destruct (until_any R_item kend fuel last hh) as [->| ->]; [cbn; split; [reflexivity|cbn; lia]|].
  destruct fuel as [|[|[|fuel]]]; cbn; (split; [reflexivity|cbn; lia]).
Qed.

(** ** Every accepted text *)

Definition frame_char (c : N) : Prop := In c digit_set \/ c = 35 \/ c = 42.

(** An item: digits, runs of digits after a hash, then the end or a star. *)
Lemma item_split w : Forall frame_char w -> exists d h r, w = d ++ h ++ r /\ Forall (fun c => In c digit_set) d /\ hashes h /\
  (r = [] \/ exists t, r = 42 :: t /\ Forall frame_char t).
Proof.
  induction w as [|c w IH]; intros F.
  - exists [], [], []. split; [reflexivity|]. split; [constructor|]. split; [constructor|]. left. reflexivity.
  - inversion F as [|? ? Fc Fw]; subst. destruct (IH Fw) as (d & h & r & -> & D & H & R). destruct Fc as [Fc|[->| ->]].
    + exists (c :: d), h, r. repeat split; [constructor; assumption|assumption..].
    + exists [], (35 :: d ++ h), r. cbn [app]. rewrite <- app_assoc. repeat split; [constructor|constructor; assumption|assumption].
    + exists [], [], (42 :: d ++ h ++ r). split; [reflexivity|]. split; [constructor|]. split; [constructor|]. right. eauto.
Qed.

Lemma loop_wins : forall n w fuel last, (length w < n)%nat -> Forall frame_char w -> (length (w ++ hh) < fuel)%nat -> far last (w ++ hh) ->
  wins (3 * len w + 115) (until R_item kend fuel last (w ++ hh)).
Proof.
  induction n as [|n IH]; intros w fuel last L F Hf Hl; [lia|]. destruct fuel as [|fuel]; [lia|]. rewrite (until_far _ _ _ _ _ Hl). apply wins_first.
  destruct (item_split w F) as (d & h & r & -> & D & H & [->|(t & -> & Ft)]).
  - rewrite app_nil_r, <- app_assoc. eapply wins_le; [|apply item_last; [exact D|exact H|apply loop_nil|apply loop_hash|apply loop_hh]]. unfold len. lia.
  - rewrite <- !app_assoc. cbn [app]. eapply wins_le; [|apply item_star; [exact D|exact H|apply (IH t)]].
    + unfold len. rewrite !app_length. cbn [length]. lia.
    + rewrite !app_length in L. cbn [length] in L. lia.
    + exact Ft.
    + rewrite !app_length in *. cbn [length] in *. lia.
    + cbn [far]. rewrite !app_length. cbn [length]. rewrite app_length. lia.
Qed.

(** Accepting a frame takes at most three tests a character and a constant. *)
Theorem accept_cost w : Forall frame_char w -> wins (3 * len w + 119) (search R_generic (42 :: w ++ hh)).
Proof.
  intros F. change (search R_generic (42 :: w ++ hh)) with
    (let x := bt R_item (w ++ hh) (fun s : str => until R_item kend (S (length s)) None s) in (1 + fst x, snd x)). cbv zeta.
  assert (B : wins (3 * len w + 118) (bt R_item (w ++ hh) (fun s : str => until R_item kend (S (length s)) None s))).
  { destruct (item_split w F) as (d & h & r & -> & D & H & [->|(t & -> & Ft)]).
    - rewrite app_nil_r, <- app_assoc. eapply wins_le; [|apply item_last; [exact D|exact H|apply loop_nil|apply loop_hash|apply loop_hh]]. unfold len. lia.
    - rewrite <- !app_assoc. cbn [app]. eapply wins_le; [|apply item_star; [exact D|exact H|apply (loop_wins (S (length t)) t)]].
      + unfold len. rewrite !app_length. cbn [length]. lia.
      + lia.
      + exact Ft.
      + lia.
      + exact I. }
  destruct B as [B1 B2]. split; [exact B1|]. cbn [fst]. lia.
Qed.

(** ** No polynomial bounds the cost of refusing *)

Lemma succ_le_pow q : q + 1 <= 2 ^ q.
Proof. induction q using N.peano_ind; [cbn; lia|]. rewrite N.pow_succ_r'. lia. Qed.

Lemma pow_beats_pow k m : 0 < k -> m ^ k <= k ^ k * 2 ^ m.
Proof.
  intros K. pose proof (N.div_mod' m k) as E. pose proof (N.mod_lt m k ltac:(lia)) as R. set (q := m / k) in *. set (r := m mod k) in *. clearbody q r.
  assert (A : m <= k * 2 ^ q) by (transitivity (k * (q + 1)); [lia|apply N.mul_le_mono_l, succ_le_pow]).
  transitivity ((k * 2 ^ q) ^ k); [apply N.pow_le_mono_l; exact A|]. rewrite N.pow_mul_l, <- N.pow_mul_r.
  apply N.mul_le_mono_l. apply N.pow_le_mono_r; [discriminate|]. rewrite E, N.mul_comm. lia.
Qed.

Lemma exceeds a k : exists n, a * (n + 4) ^ k < 2 ^ n.
Proof.
  exists (a * ((k + 1) ^ (k + 1) * 16)). set (c := (k + 1) ^ (k + 1) * 16). set (n := a * c).
  pose proof (pow_beats_pow (k + 1) (n + 4) ltac:(lia)) as P. rewrite (N.pow_add_r 2 n 4) in P. change (2 ^ 4) with 16 in P.
  replace ((k + 1) ^ (k + 1) * (2 ^ n * 16)) with (c * 2 ^ n) in P by (unfold c; lia).
  rewrite (N.pow_add_r (n + 4) k 1), N.pow_1_r in P.
  assert (C : 0 < c) by (unfold c; assert (0 < (k + 1) ^ (k + 1)) by (apply N.neq_0_lt_0, N.pow_nonzero; lia); lia).
  assert (X : 0 < (n + 4) ^ k) by (apply N.neq_0_lt_0, N.pow_nonzero; lia).
  set (p := (n + 4) ^ k) in *. set (e := 2 ^ n) in *. clearbody p e.
  apply (N.mul_lt_mono_pos_l c); [exact C|].
  replace (c * (a * p)) with (n * p) by (unfold n; lia). clearbody c n. nia.
Qed.

(** ** Packets *)

Lemma strip_len s : len (strip s) <= len s.
Proof.
  destruct (strip_spec s) as (w1 & w2 & E & _). assert (length s = length w1 + (length (strip s) + length w2))%nat by (rewrite E at 1; rewrite !app_length; reflexivity).
  unfold len. lia.
Qed.

Lemma body_frame_char c : body_char c = true -> frame_char c.
Proof.
  unfold body_char, is_tagc. intros H. apply orb_true_iff in H as [H|H]; [|apply N.eqb_eq in H; right; right; exact H].
  apply existsb_exists in H as (x & Hx & E). apply N.eqb_eq in E. subst x. cbn in Hx.
  repeat (destruct Hx as [<-|Hx]; [unfold frame_char; cbn; tauto|]). destruct Hx.
Qed.

Fixpoint total (ps : list str) : N := match ps with [] => 0 | p :: ps => len p + total ps end.

Lemma total_filter ps : total (filter nonempty ps) <= total ps.
Proof. induction ps as [|p ps IH]; cbn; [lia|]. destruct (nonempty p); cbn; lia. Qed.

Lemma total_cut s ps : SpecProto.cut s ps -> total ps <= len s.
Proof.
  intros H. induction H as [s H|p s ps Hp H IH]; cbn [total]; [lia|]. unfold len in *. rewrite !app_length. lia.
Qed.

(** A packet with a malformed frame. *)
Definition bad_char (c : N) : Prop := c < 128 /\ c <> 35 /\ c <> 42 /\ ~ (48 <= c <= 57).

Lemma digit_set_iff c : In c digit_set <-> 48 <= c <= 57.
Proof.
  split.
  - intros H. cbn in H. repeat (destruct H as [<-|H]; [lia|]). destruct H.
  - intros H. assert (X : c = 48 \/ c = 49 \/ c = 50 \/ c = 51 \/ c = 52 \/ c = 53 \/ c = 54 \/ c = 55 \/ c = 56 \/ c = 57) by lia.
    cbn. intuition.
Qed.

Theorem bad_frame_cost d c : Forall (fun x => 48 <= x <= 57) d -> bad_char c ->
  packet_messages (42 :: d ++ [c; 35; 35]) = Err InvalidMessage /\ 2 ^ len d <= packet_cost (42 :: d ++ [c; 35; 35]).
Proof.
  intros D (C1 & C2 & C3 & C4).
  assert (D' : Forall (fun c => In c digit_set) d) by (eapply Forall_impl; [|exact D]; intros x Hx; apply digit_set_iff, Hx).
  set (p := 42 :: d ++ [c]). replace (42 :: d ++ [c; 35; 35]) with (p ++ hh) by (unfold p; cbn [app]; rewrite <- app_assoc; reflexivity).
  assert (NH : ~ In 35 p).
  { unfold p. intros [X|X]; [discriminate|]. apply in_app_or in X as [X|[X|[]]]; [|congruence].
    rewrite Forall_forall in D. specialize (D 35 X). lia. }
  assert (A : decode_ascii (p ++ hh) = Ok (p ++ hh)).
  { apply decode_ascii_ok. apply Forall_app. split; [|repeat constructor]. unfold p. constructor; [lia|]. apply Forall_app. split; [|repeat constructor; exact C1].
    eapply Forall_impl; [|exact D]. cbn. intros; lia. }
  assert (S : strip (p ++ hh) = p ++ hh).
  { apply strip_id. split; [reflexivity|]. rewrite rev_app_distr. reflexivity. }
  assert (SP : filter nonempty (split_hh (p ++ hh)) = [p]).
  { change hh with ([35; 35] ++ []). rewrite split_hh_first; [reflexivity|].
    intros (u & v & E). assert (X : (count_occ N.eq_dec (p ++ [35%N]) 35%N <= 1)%nat).
    { rewrite count_occ_app, (proj1 (count_occ_not_In N.eq_dec p 35)) by exact NH. cbn. lia. }
    rewrite E in X. rewrite !count_occ_app in X. cbn in X. lia. }
  assert (CH : count_hh (p ++ hh) = 1%nat) by (rewrite count_hh_nohash_l by exact NH; reflexivity).
  destruct (generic_cost d c hh D' C2 C3) as [G1 G2]; [intros X; apply C4, digit_set_iff, X|].
  replace (42 :: d ++ c :: hh) with (p ++ hh) in * by (unfold p; cbn [app]; rewrite <- app_assoc; reflexivity).
  assert (P : parse_message (p ++ hh) = Err InvalidMessage).
  { unfold parse_message. rewrite CH. cbn [Nat.eqb negb]. rewrite S. rewrite search_spec in G1. cbv zeta. rewrite G1. reflexivity. }
  unfold packet_messages, packet_cost. rewrite A. cbn [bind]. rewrite S, SP. cbn [mapM texts_cost]. rewrite P. split; [reflexivity|].
  unfold parse_cost. rewrite CH. cbn [Nat.eqb negb]. rewrite S. unfold len. lia.
Qed.

Theorem no_polynomial a k : exists data, packet_messages data = Err InvalidMessage /\ a * len data ^ k < packet_cost data.
Proof.
  destruct (exceeds a k) as (n & H). exists (42 :: repeat 49 (N.to_nat n) ++ [120; 35; 35]).
  destruct (bad_frame_cost (repeat 49 (N.to_nat n)) 120) as [A B].
  - apply Forall_forall. intros x Hx. apply repeat_spec in Hx. lia.
  - unfold bad_char. lia.
  - split; [exact A|]. unfold len in *. cbn [length]. rewrite app_length. rewrite repeat_length in *. cbn [length].
    rewrite N2Nat.id in B. replace (N.of_nat (S (N.to_nat n + 3))) with (n + 4) by lia. lia.
Qed.
