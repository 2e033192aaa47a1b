(** * Theorems about energy items: the Stop&Go status *)
From Coq Require Import String List NArith ZArith Bool Lia.
From Verif Require Import PyStr PyDate PyFloat Tags Messages SpecMsg SpecTag MessageThms TagThms MessageThms3 IO Client SpecItem Items
  HandshakeThms ItemThms ItemThms2 LightThms2 Energy SpecEnergy EnergyThms EnergyThms2.
Import ListNotations.
Open Scope N_scope.
Open Scope list_scope.

Lemma land_pow n i : negb (Z.land (Z.of_N n) (2 ^ Z.of_N i) =? 0)%Z = N.testbit n i.
Proof.
  rewrite <- Z.testbit_of_N. destruct (Z.testbit (Z.of_N n) (Z.of_N i)) eqn:T.
  - apply negb_true_iff, Z.eqb_neq. intros E.
    assert (X : Z.testbit (Z.land (Z.of_N n) (2 ^ Z.of_N i)) (Z.of_N i) = true).
    { rewrite Z.land_spec, T, Z.pow2_bits_true by lia. reflexivity. }
    rewrite E, Z.bits_0 in X. discriminate.
  - apply negb_false_iff, Z.eqb_eq. apply Z.bits_inj'. intros j Hj. rewrite Z.land_spec, Z.bits_0.
    destruct (Z.eq_dec j (Z.of_N i)) as [->|Hne]; [rewrite T; reflexivity|].
    rewrite Z.pow2_bits_false by congruence. apply andb_false_r.
Qed.

(** What one update does to field [i]. *)
Definition field_step (d : str) (n : N) (i : N) (old : option bool) : option bool :=
  if str_eqb d (lit "250") then Some (N.testbit n i)
  else if str_eqb d (bit_dim i) then Some (negb (n =? 0)) else old.

Lemma below_13 i : i < 13 ->
  i = 0 \/ i = 1 \/ i = 2 \/ i = 3 \/ i = 4 \/ i = 5 \/ i = 6 \/ i = 7 \/ i = 8 \/ i = 9 \/ i = 10 \/ i = 11 \/ i = 12.
Proof. lia. Qed.

Lemma mask_field n i : i < 13 -> nth_error (mask_status (Z.of_N n)) (N.to_nat i) = Some (Some (N.testbit n i)).
Proof.
  intros H. rewrite <- land_pow. unfold mask_status.
  destruct (below_13 i H) as [->|[->|[->|[->|[->|[->|[->|[->|[->|[->|[->|[->| ->]]]]]]]]]]]]; reflexivity.
Qed.

Lemma set_field_length k b (s : stop_go_status) : (k < length s)%nat -> length (set_field k b s) = length s.
Proof. intros H. unfold set_field. rewrite app_length, firstn_length. cbn [length]. rewrite skipn_length. lia. Qed.

Lemma set_field_nth k b (s : stop_go_status) i : (k < length s)%nat ->
  nth_error (set_field k b s) i = if (i =? k)%nat then Some (Some b) else nth_error s i.
Proof.
  intros H. unfold set_field. revert s i H. induction k as [|k IH]; intros [|x s] i H; cbn [length] in H; try lia.
  - destruct i; reflexivity.
  - destruct i as [|i]; [reflexivity|]. cbn [firstn app skipn nth_error Nat.eqb]. apply IH. lia.
Qed.

Lemma update_bit j n (s : stop_go_status) : j < 13 ->
  status_update (bit_dim j) (Z.of_N n) s = Ok (set_field (N.to_nat j) (negb (n =? 0)) s).
Proof.
  intros H. assert (E : (Z.of_N n =? 0)%Z = (n =? 0)) by (destruct n; reflexivity).
  unfold status_update. rewrite E.
  destruct (below_13 j H) as [->|[->|[->|[->|[->|[->|[->|[->|[->|[->|[->|[->| ->]]]]]]]]]]]]; reflexivity.
Qed.

Lemma bit_dim_inj i j : bit_dim i = bit_dim j -> i = j.
Proof. intros E. apply dec_inj in E. lia. Qed.

Lemma bit_dim_250 j : bit_dim j <> lit "250".
Proof. change (lit "250") with (dec 250). intros E. apply dec_inj in E. lia. Qed.

Lemma update_known d n (s : stop_go_status) : known_dim d -> length s = 13%nat ->
  exists s', status_update d (Z.of_N n) s = Ok s' /\ length s' = 13%nat /\
    forall i, i < 13 -> exists old, nth_error s (N.to_nat i) = Some old /\ nth_error s' (N.to_nat i) = Some (field_step d n i old).
Proof.
  intros [->|(j & Hj & ->)] L.
  - exists (mask_status (Z.of_N n)). split; [reflexivity|]. split; [reflexivity|]. intros i Hi.
    destruct (nth_error s (N.to_nat i)) as [old|] eqn:E; [|apply nth_error_None in E; lia].
    exists old. split; [reflexivity|]. rewrite mask_field by exact Hi. reflexivity.
  - exists (set_field (N.to_nat j) (negb (n =? 0)) s). split; [apply update_bit, Hj|].
    split; [rewrite set_field_length by lia; exact L|]. intros i Hi.
    destruct (nth_error s (N.to_nat i)) as [old|] eqn:E; [|apply nth_error_None in E; lia].
    exists old. split; [reflexivity|]. rewrite set_field_nth by lia. unfold field_step.
    rewrite (proj2 (str_eqb_neq _ _) (bit_dim_250 j)). rewrite E.
    destruct (Nat.eqb_spec (N.to_nat i) (N.to_nat j)) as [X|X].
    + assert (i = j) as -> by lia. rewrite str_eqb_refl. reflexivity.
    + rewrite (proj2 (str_eqb_neq _ _)); [reflexivity|]. intros Y. apply bit_dim_inj in Y. congruence.
Qed.

Lemma known_of_update d z (s s' : stop_go_status) : status_update d z s = Ok s' -> known_dim d.
Proof.
  unfold status_update.
  repeat match goal with |- (if str_eqb ?a ?b then _ else _) = _ -> _ => destruct (str_eqb a b) eqn:?; [intros _|] end.
  all: try discriminate.
  all: match goal with H : str_eqb _ _ = true |- _ => apply str_eqb_spec in H; subst d end.
  - left. reflexivity.
  - right. exists 0. split; [lia|reflexivity].
  - right. exists 1. split; [lia|reflexivity].
  - right. exists 2. split; [lia|reflexivity].
  - right. exists 3. split; [lia|reflexivity].
  - right. exists 4. split; [lia|reflexivity].
  - right. exists 5. split; [lia|reflexivity].
  - right. exists 6. split; [lia|reflexivity].
  - right. exists 7. split; [lia|reflexivity].
  - right. exists 8. split; [lia|reflexivity].
  - right. exists 9. split; [lia|reflexivity].
  - right. exists 10. split; [lia|reflexivity].
  - right. exists 11. split; [lia|reflexivity].
  - right. exists 12. split; [lia|reflexivity].
Qed.

Lemma update_error d z (s : stop_go_status) : ~ known_dim d -> status_update d z s = Err InvalidMessage.
Proof.
  intros H. destruct (status_update d z s) as [s'|e] eqn:E; [exfalso; apply H; eapply known_of_update, E|].
  revert E. unfold status_update. repeat match goal with |- (if ?x then _ else _) = _ -> _ => destruct x; [discriminate|] end.
  congruence.
Qed.

Definition run_updates (us : list (str * Z)) : res stop_go_status :=
  fold_left (fun s u => do st <- s; status_update (fst u) (snd u) st) us (Ok fresh_status).

Definition zval (u : str * N) : str * Z := (fst u, Z.of_N (snd u)).

Theorem updates_spec us : Forall (fun u => known_dim (fst u)) us ->
  exists st, run_updates (map zval us) = Ok st /\ length st = 13%nat /\
    forall i, i < 13 -> exists b, nth_error st (N.to_nat i) = Some b /\ field_after i us b.
Proof.
  induction us as [|[d n] us IH] using rev_ind; intros H.
  - exists fresh_status. split; [reflexivity|]. split; [reflexivity|]. intros i Hi. exists None. split; [|constructor].
    destruct (below_13 i Hi) as [->|[->|[->|[->|[->|[->|[->|[->|[->|[->|[->|[->| ->]]]]]]]]]]]]; reflexivity.
  - apply Forall_app in H as [H1 H2]. inversion H2 as [|? ? Hd _]; subst. cbn [fst] in Hd.
    destruct (IH H1) as (st & E & L & F). destruct (update_known d n st Hd L) as (st' & E' & L' & F').
    exists st'. split; [|split; [exact L'|]].
    + unfold run_updates in *. rewrite map_app, fold_left_app, E. cbn [map fold_left bind zval fst snd]. exact E'.
    + intros i Hi. destruct (F i Hi) as (b & B1 & B2). destruct (F' i Hi) as (old & O1 & O2).
      rewrite B1 in O1. injection O1 as <-. eexists. split; [exact O2|]. unfold field_step.
      destruct Hd as [->|(j & Hj & ->)]; [constructor|].
      rewrite (proj2 (str_eqb_neq _ _) (bit_dim_250 j)).
      destruct (N.eq_dec j i) as [->|Hne]; [rewrite str_eqb_refl; constructor|].
      rewrite (proj2 (str_eqb_neq _ _)) by (intros Y; apply bit_dim_inj in Y; congruence).
      constructor; assumption.
Qed.

Lemma snoc_nonempty (us : list (str * N)) (u : str * N) : us ++ [u] <> [].
Proof. destruct us; discriminate. Qed.

(** The last update decides: the specification determines the field. *)
Theorem field_unique i us b b' : field_after i us b -> field_after i us b' -> b = b'.
Proof.
  intros H. revert b'. induction H as [|us n|us n|us j n b Hne Hj H IH]; intros b' H'.
  - remember [] as l eqn:E. destruct H' as [|us n|us n|us j n b' ? ? ?]; [reflexivity| | |]; exfalso; eapply snoc_nonempty, E.
  - remember (us ++ [(lit "250", n)]) as l eqn:E. destruct H' as [|us' n'|us' n'|us' j n' b' ? ? ?].
    + exfalso. symmetry in E. eapply snoc_nonempty, E.
    + apply app_inj_tail in E as [_ [= ->]]. reflexivity.
    + apply app_inj_tail in E as [_ E]. exfalso. apply (bit_dim_250 i). congruence.
    + apply app_inj_tail in E as [_ E]. exfalso. apply (bit_dim_250 j). congruence.
  - remember (us ++ [(bit_dim i, n)]) as l eqn:E. destruct H' as [|us' n'|us' n'|us' j n' b' ? ? ?].
    + exfalso. symmetry in E. eapply snoc_nonempty, E.
    + apply app_inj_tail in E as [_ E]. exfalso. apply (bit_dim_250 i). congruence.
    + apply app_inj_tail in E as [_ E]. assert (n' = n) as -> by congruence. reflexivity.
    + apply app_inj_tail in E as [_ E]. exfalso. assert (E' : bit_dim j = bit_dim i) by congruence. apply bit_dim_inj in E'. congruence.
  - remember (us ++ [(bit_dim j, n)]) as l eqn:E. destruct H' as [|us' n'|us' n'|us' j' n' b' ? ? H'].
    + exfalso. symmetry in E. eapply snoc_nonempty, E.
    + apply app_inj_tail in E as [_ E]. exfalso. apply (bit_dim_250 j). congruence.
    + apply app_inj_tail in E as [_ E]. exfalso. assert (E' : bit_dim i = bit_dim j) by congruence. apply bit_dim_inj in E'. congruence.
    + apply app_inj_tail in E as [-> _]. apply IH, H'.
Qed.

(** ** The request *)

(** A reply that updates the status by [u]. *)
Definition status_reply (m : msg) (u : str * N) : Prop :=
  exists w b v vs, m = MDimRes w b (fst u) (v :: vs) /\ number v (snd u) /\ known_dim (fst u).

Lemma step_ok m u : status_reply m u -> dimres m /\ status_step m = Ok [zval u].
Proof.
  intros (w & b & v & vs & -> & Hv & Hd). split; [repeat eexists|].
  unfold status_step. cbn [get_dimension get_values bind]. unfold int0. cbn [index nth_error bind].
  rewrite (number_int v _ Hv). cbn [bind].
  destruct (update_known (fst u) (snd u) fresh_status Hd eq_refl) as (s' & -> & _). reflexivity.
Qed.

Theorem request_status_ok {Y} it q rs us (rest : script) :
  ready it -> placed it -> Forall2 status_reply rs us ->
  exists st, got (Y:=Y) (request_status it q (map Some rs ++ Some MAck :: rest)) (frame_dimreq (it_who it) (it_where it) (de_str q)) rest (Ok st) /\
    length st = 13%nat /\ forall i, i < 13 -> exists b, nth_error st (N.to_nat i) = Some b /\ field_after i us b.
Proof.
  intros Hr Hp H.
  assert (K : Forall (fun u => known_dim (fst u)) us).
  { clear -H. induction H as [|m u rs us Hm _ IH]; constructor; [|exact IH]. destruct Hm as (w & b & v & vs & _ & _ & Hd). exact Hd. }
  destruct (updates_spec us K) as (st & E & L & F). exists st. split; [|auto].
  destruct (dimension_all it (de_str q) status_step rs (map (fun u => [zval u]) us) rest Hr Hp (de_tag q)) as (es & D & D1 & D2 & _).
  - clear -H. induction H as [|m u rs us Hm _ IH]; cbn [map]; constructor; [apply step_ok, Hm|exact IH].
  - assert (D2' : yields es = map zval us) by (rewrite D2; clear; induction us as [|u us IH]; [reflexivity|]; cbn [map concat app]; f_equal; exact IH).
    unfold request_status, andthen, collect. rewrite D, D2'. unfold lift. fold (run_updates (map zval us)). rewrite E.
    destruct (drop_yields_spec (Z:=Y) es) as (G & _ & _). split; [|split; reflexivity].
    cbn [evs_of fst snd]. rewrite sents_app, G, D1. reflexivity.
Qed.

(** A reply of another dimension, or without a number, ends the request. *)
Theorem request_status_bad {Y} it q rs us w b d v vs (rest : script) :
  ready it -> placed it -> Forall2 status_reply rs us ->
  ((exists n, number v n) /\ ~ known_dim d -> got (Y:=Y) (request_status it q (map Some rs ++ Some (MDimRes w b d (v :: vs)) :: rest))
     (frame_dimreq (it_who it) (it_where it) (de_str q)) rest (Err InvalidMessage)) /\
  (py_int v = Err ValueError -> got (Y:=Y) (request_status it q (map Some rs ++ Some (MDimRes w b d (v :: vs)) :: rest))
     (frame_dimreq (it_who it) (it_where it) (de_str q)) rest (Err ValueError)).
Proof.
  intros Hr Hp H.
  assert (G : forall e, status_step (MDimRes w b d (v :: vs)) = Err e ->
    got (Y:=Y) (request_status it q (map Some rs ++ Some (MDimRes w b d (v :: vs)) :: rest)) (frame_dimreq (it_who it) (it_where it) (de_str q)) rest (Err e)).
  { intros e He.
    destruct (replies_undecodable is_dimres dimres status_step rs (map (fun u => [zval u]) us) (MDimRes w b d (v :: vs)) e rest
      is_dimres_spec (proj1 not_dimres_ack) (proj2 not_dimres_ack)) as (es & E & E1 & E2).
    - clear -H. induction H as [|m u rs us Hm _ IH]; cbn [map]; constructor; [apply step_ok, Hm|exact IH].
    - repeat eexists.
    - exact He.
    - assert (S : send_dimension_request it (de_str q) status_step (map Some rs ++ Some (MDimRes w b d (v :: vs)) :: rest) =
        (Sent (frame_dimreq (it_who it) (it_where it) (de_str q)) :: es, rest, Err e)).
      { unfold send_dimension_request, create_dimension_request_message.
        rewrite (proj2 (mk_ok (de_str q)) (de_tag q)), andthen_lift.
        rewrite (andthen_ok _ _ _ _ _ _ (item_send_ok it _ _ _ Hr (dimreq_bytes _ _ _ Hp (de_tag q)))).
        unfold reply_loop. rewrite (proj2 Hr). cbn [negb]. rewrite E. reflexivity. }
      unfold request_status, andthen, collect. rewrite S.
      destruct (drop_yields_spec (Z:=Y) (Sent (frame_dimreq (it_who it) (it_where it) (de_str q)) :: es)) as (D & _ & _).
      split; [|split; reflexivity]. cbn [evs_of fst snd]. rewrite D. cbn [sents]. rewrite E2. reflexivity. }
  split.
  - intros [(n & Hn) Hd]. apply G. unfold status_step. cbn [get_dimension get_values bind]. unfold int0. cbn [index nth_error bind].
    rewrite (number_int v n Hn). cbn [bind]. rewrite (update_error d _ _ Hd). reflexivity.
  - intros Hv. apply G. unfold status_step. cbn [get_dimension get_values bind]. unfold int0. cbn [index nth_error bind].
    rewrite Hv. reflexivity.
Qed.

(** The documented answer to the general request: the mask, then every bit. *)
Definition all_bits (bs : list bool) : list (str * N) :=
  map (fun p => (bit_dim (fst p), if snd p : bool then 1 else 0)) (combine [0; 1; 2; 3; 4; 5; 6; 7; 8; 9; 10; 11; 12] bs).

Lemma after_all us0 bs i : length bs = 13%nat -> i < 13 ->
  field_after i (us0 ++ all_bits bs) (nth_error bs (N.to_nat i)).
Proof.
  intros L Hi.
  destruct bs as [|b0 [|b1 [|b2 [|b3 [|b4 [|b5 [|b6 [|b7 [|b8 [|b9 [|b10 [|b11 [|b12 [|]]]]]]]]]]]]]]; try discriminate L.
  assert (Own : forall us j (b : bool), field_after j (us ++ [(bit_dim j, if b then 1 else 0)]) (Some b)).
  { intros us j b. replace (Some b) with (Some (negb ((if b then 1 else 0) =? 0))) by (destruct b; reflexivity). constructor. }
  unfold all_bits. cbn [combine map fst snd].
  assert (A : forall (x : str * N) l, us0 ++ l ++ [x] = (us0 ++ l) ++ [x]) by (intros; apply app_assoc).
  destruct (below_13 i Hi) as [->|[->|[->|[->|[->|[->|[->|[->|[->|[->|[->|[->| ->]]]]]]]]]]]]; cbn [N.to_nat Pos.to_nat Pos.iter_op Nat.add nth_error];
  repeat first
   [ match goal with |- field_after _ (?u ++ [_; _; _; _; _; _; _; _; _; _; _; _; ?x]) _ => idtac end;
     fail
   | match goal with |- field_after ?i (?u ++ ?l) ?r =>
       let l' := eval cbn [removelast] in (removelast l) in
       let x := eval cbn [last] in (last l (lit "", 0)) in
       change (u ++ l) with (u ++ (l' ++ [x])); rewrite (app_assoc u l' [x])
     end;
     first [ apply Own | apply FA_other; [lia|lia|] ] ].
Qed.

(** ** The event decoder *)

Lemma mapM_chars (f : nat -> res (option bool)) (g : N -> option bool) k : forall (v : str) o,
  (forall i c, (i < k)%nat -> nth_error v i = Some c -> f (o + i)%nat = Ok (g c)) -> (k <= length v)%nat ->
  mapM f (seq o k) = Ok (map g (firstn k v)).
Proof.
  induction k as [|k IH]; intros v o H L; [reflexivity|]. destruct v as [|c v]; [cbn in L; lia|].
  cbn [seq mapM firstn map]. rewrite <- (Nat.add_0_r o) at 1. rewrite (H 0%nat c) by (reflexivity || lia). cbn [bind].
  rewrite (IH v (S o)); [reflexivity| |cbn in L; lia].
  intros i c' Hk Hi. rewrite <- (H (S i) c') by (exact Hi || lia). f_equal. lia.
Qed.

Lemma digits_firstn k s : digits s -> digits (firstn k s).
Proof. intros H. rewrite <- (firstn_skipn k s) in H. apply Forall_app in H. apply H. Qed.

Theorem event_status (v : str) more : digits (firstn 13 v) -> (13 <= length v)%nat ->
  status_of_event (v :: more) = Ok (map (fun c => Some (negb (c =? 48))) (firstn 13 v)).
Proof.
  intros D L. unfold status_of_event. change [0; 1; 2; 3; 4; 5; 6; 7; 8; 9; 10; 11; 12]%nat with (seq 0 13).
  apply mapM_chars; [|exact L]. intros i c Hk Hi. cbn [Nat.add]. unfold flag0.
  assert (Dc : digitchar c).
  { unfold digits in D. rewrite Forall_forall in D. apply D. rewrite <- (firstn_skipn 13 v) in Hi.
    rewrite nth_error_app1 in Hi by (rewrite firstn_length; lia). eapply nth_error_In, Hi. }
  rewrite (char_read (v :: more) v c i eq_refl Hi Dc). cbn [bind]. do 3 f_equal. unfold digitchar in Dc.
  destruct (N.eqb_spec c 48) as [->|Hn]; [reflexivity|]. apply Z.eqb_neq. lia.
Qed.

Lemma mapM_err {A B} (f : A -> res B) l1 x l2 e :
  (forall y, In y l1 -> exists z, f y = Ok z) -> f x = Err e -> mapM f (l1 ++ x :: l2) = Err e.
Proof.
  intros H E. induction l1 as [|y l1 IH]; cbn [app mapM].
  - rewrite E. reflexivity.
  - destruct (H y (or_introl eq_refl)) as (z & ->). cbn [bind]. rewrite IH; [reflexivity|]. intros; apply H; right; assumption.
Qed.

Theorem event_status_short (v : str) more : digits v -> (length v < 13)%nat ->
  status_of_event (v :: more) = Err IndexError.
Proof.
  intros D L. unfold status_of_event. change [0; 1; 2; 3; 4; 5; 6; 7; 8; 9; 10; 11; 12]%nat with (seq 0 13).
  replace 13%nat with (length v + S (12 - length v))%nat by lia. rewrite seq_app. cbn [seq].
  apply mapM_err.
  - intros y Hy. apply in_seq in Hy. destruct (nth_error v y) as [c|] eqn:E; [|apply nth_error_None in E; lia].
    assert (Dc : digitchar c) by (unfold digits in D; rewrite Forall_forall in D; apply D; eapply nth_error_In, E).
    unfold flag0. rewrite (char_read (v :: more) v c y eq_refl E Dc). cbn [bind]. eauto.
  - unfold flag0. rewrite (char_missing (v :: more) v _ eq_refl) by lia. reflexivity.
Qed.

(** The event decoder against the documentation: bit 13 comes first in the
    text, so the fields come out in reverse order. *)
Theorem event_documented (bs : list bool) : length bs = 13%nat ->
  (status_of_event [rev (map bit_char bs)] = Ok (map Some bs) <-> rev bs = bs).
Proof.
  intros L. rewrite event_status; [|apply digits_firstn|].
  - rewrite firstn_all2 by (rewrite rev_length, map_length; lia). rewrite <- map_rev, map_map.
    rewrite (map_ext (fun x => Some (negb (bit_char x =? 48))) Some) by (intros []; reflexivity).
    split; [|congruence]. intros [= E]. revert E. generalize (rev bs) as l. generalize bs. clear.
    intros l1 l2. revert l1. induction l2 as [|x l2 IH]; intros [|y l1] E; try discriminate; [reflexivity|].
    cbn [map] in E. f_equal; [congruence|]. apply IH. congruence.
  - apply Forall_rev, Forall_map, Forall_forall. intros [] _; unfold digitchar, bit_char; cbv; split; congruence.
  - rewrite rev_length, map_length, L. lia.
Qed.

(** The two decoders on the same text: complete enumeration of the 8192 texts. *)
Fixpoint all_texts (n : nat) : list str :=
  match n with O => [[]] | S n => map (cons 48) (all_texts n) ++ map (cons 49) (all_texts n) end.

Lemma all_texts_spec bs : In (map bit_char bs) (all_texts (length bs)).
Proof.
  induction bs as [|b bs IH]; [left; reflexivity|]. cbn [map length all_texts]. apply in_or_app.
  destruct b; [right|left]; apply in_map, IH.
Qed.

Fixpoint same_status (a b : stop_go_status) : bool :=
  match a, b with
  | [], [] => true
  | Some x :: a, Some y :: b => eqb x y && same_status a b
  | _, _ => false
  end.

Lemma same_status_spec a b : Forall (fun x => x <> None) a -> (same_status a b = true <-> a = b).
Proof.
  intros H. revert b. induction H as [|x a Hx _ IH]; intros [|y b]; cbn; try (split; congruence).
  - destruct x; split; congruence.
  - destruct x as [x|]; [|congruence]. destruct y as [y|]; [|split; congruence].
    rewrite andb_true_iff, eqb_true_iff, IH. split; [intros [-> ->]; reflexivity|intros [= -> ->]; auto].
Qed.

Definition agree (v : str) : bool :=
  same_status (mask_status (Z.of_N (value_of 0 v))) (map (fun c => Some (negb (c =? 48))) v).

Definition agreeing : list str := [lit "0000000000000"; lit "1000000000001"].

Lemma agree_all : forallb (fun v => eqb (agree v) (existsb (str_eqb v) agreeing)) (all_texts 13) = true.
Proof. vm_compute. reflexivity. Qed.

Theorem decoders_agree (bs : list bool) : length bs = 13%nat ->
  (status_of_event [map bit_char bs] = status_update (lit "250") (Z.of_N (value_of 0 (map bit_char bs))) fresh_status <->
   In (map bit_char bs) agreeing).
Proof.
  intros L. pose proof (all_texts_spec bs) as HI. rewrite L in HI.
  pose proof (proj1 (forallb_forall _ _) agree_all _ HI) as HA. apply eqb_prop in HA.
  assert (D : digits (map bit_char bs)).
  { apply Forall_map, Forall_forall. intros [] _; unfold digitchar, bit_char; cbv; split; congruence. }
  assert (L' : length (map bit_char bs) = 13%nat) by (rewrite map_length; exact L).
  rewrite event_status by (try apply digits_firstn, D; lia). rewrite firstn_all2 by lia.
  change (status_update (lit "250") ?z fresh_status) with (Ok (mask_status z)).
  assert (E : existsb (str_eqb (map bit_char bs)) agreeing = true <-> In (map bit_char bs) agreeing).
  { rewrite existsb_exists. split.
    - intros (x & Hx & Ex). apply str_eqb_spec in Ex as <-. exact Hx.
    - intros Hx. exists (map bit_char bs). split; [exact Hx|apply str_eqb_refl]. }
  rewrite <- E, <- HA. unfold agree. rewrite same_status_spec by (unfold mask_status; repeat constructor; discriminate).
  split; [intros [= X]; symmetry; exact X|intros X; rewrite X; reflexivity].
Qed.

(** ** The differential level *)

Theorem differential_read {Y} it v n more s rest :
  ready it -> placed it -> number v n -> answers (v :: more) s rest ->
  got (Y:=Y) (get_differential_current_level it s) (frame_dimreq (it_who it) (it_where it) (lit "73")) rest (Ok (Z.of_N n)).
Proof.
  intros Hr Hp Hv A. unfold get_differential_current_level.
  apply (asked_energy it (Ok (de_str DIFFERENTIAL_CURRENT_LEVEL)) _ _ (v :: more)); try assumption; try reflexivity; [apply (de_tag DIFFERENTIAL_CURRENT_LEVEL)|].
  unfold int0. cbn [index nth_error bind]. apply number_int, Hv.
Qed.
