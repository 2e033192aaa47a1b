(** * Proofs about overlapping start() calls: the door, and close() *)
From Coq Require Import String List NArith ZArith Bool Lia.
From Verif Require Import PyStr Tags Messages AuthOpen AuthHmac IO Client Queue QueueThms Starts SpecStarts StartsThms.
Import ListNotations.
Open Scope N_scope.
Open Scope list_scope.

Local Ltac got E := apply some_inj in E; match type of E with _ = ?v => subst v end.

Definition whole (c : sconn) : list msg := map snd (n_taken c) ++ n_unread c.
Definition yesno (m : msg) : Prop := m = MAck \/ m = MNack.
Definition acks (l : list msg) : nat := length (filter (fun m => mtype_eqb (msg_type m) T_ACK) l).
Definition acks_of (j : nat) (l : list (nat * msg)) : nat := acks (map snd (filter (fun p => Nat.eqb (fst p) j) l)).

Lemma acks_app a b : acks (a ++ b) = (acks a + acks b)%nat.
Proof. unfold acks. rewrite filter_app, app_length. reflexivity. Qed.
Lemma acks_of_app j a b : acks_of j (a ++ b) = (acks_of j a + acks_of j b)%nat.
Proof. unfold acks_of. rewrite filter_app, map_app, acks_app. reflexivity. Qed.
Lemma acks_of_own j : acks_of j [(j, MAck)] = 1%nat.
Proof. unfold acks_of. cbn. rewrite Nat.eqb_refl. reflexivity. Qed.

Lemma door_acks n : (acks (door n) <= 2)%nat.
Proof. destruct n; cbn; [lia|]. assert (acks (repeat MNack n) = 0%nat) as H by (induction n; cbn; auto). unfold acks in H. rewrite H. lia. Qed.
Lemma door_yesno n : Forall yesno (door n).
Proof. destruct n; cbn; repeat constructor. apply Forall_forall. intros m I. apply repeat_spec in I. right. exact I. Qed.

Lemma whole_pop t c : whole (pop t c) = whole c.
Proof. unfold whole, pop. destruct (n_unread c) as [|m q] eqn:U; [rewrite U; reflexivity|]. cbn. rewrite map_app, <- app_assoc. reflexivity. Qed.

Lemma list_sum_cons a l : list_sum (a :: l) = (a + list_sum l)%nat.
Proof. reflexivity. Qed.
Lemma list_sum_le {A} (f g : A -> nat) l : (forall x, In x l -> f x <= g x)%nat -> (list_sum (map f l) <= list_sum (map g l))%nat.
Proof. induction l as [|x l IH]; cbn [map]; rewrite ?list_sum_cons; intros H; [lia|]. specialize (H x (or_introl eq_refl)) as H1. assert (list_sum (map f l) <= list_sum (map g l))%nat by (apply IH; intros; apply H; right; assumption). lia. Qed.
Lemma list_sum_add {A} (f g : A -> nat) l : list_sum (map (fun x => f x + g x)%nat l) = (list_sum (map f l) + list_sum (map g l))%nat.
Proof. induction l; cbn [map]; rewrite ?list_sum_cons; [reflexivity|lia]. Qed.
Lemma one_owner (i n : nat) v : (list_sum (map (fun j => if Nat.eqb i j then v else 0) (seq 0 n)) <= v)%nat.
Proof.
  assert (H : forall k, (list_sum (map (fun j => if Nat.eqb i j then v else 0) (seq k n)) <= if (i <? k)%nat then 0 else v)%nat).
  { induction n as [|n IH]; intros k; cbn [seq map]; rewrite ?list_sum_cons; [cbn; destruct (i <? k)%nat; lia|]. specialize (IH (S k)).
    destruct (Nat.eqb_spec i k) as [->|D].
    - destruct (Nat.ltb_spec k (S k)); [|lia]. destruct (Nat.ltb_spec k k); lia.
    - destruct (Nat.ltb_spec i (S k)), (Nat.ltb_spec i k); lia. }
  specialize (H 0%nat). cbn in H. exact H.
Qed.

Lemma owners n l : (list_sum (map (fun j => acks_of j l) (seq 0 n)) <= acks (map snd l))%nat.
Proof.
  induction l as [|[i m] l IH].
  - assert (Z : forall l0 : list nat, list_sum (map (fun j => acks_of j []) l0) = 0%nat) by (induction l0 as [|x l0 IH]; cbn [map]; rewrite ?list_sum_cons, ?IH; reflexivity).
    rewrite (Z (seq 0 n)). lia.
  - cbn [map snd]. change (m :: map snd l) with ([m] ++ map snd l). rewrite acks_app.
    assert (E : list_sum (map (fun j => acks_of j ((i, m) :: l)) (seq 0 n)) = (list_sum (map (fun j => if Nat.eqb i j then acks [m] else 0) (seq 0 n)) + list_sum (map (fun j => acks_of j l) (seq 0 n)))%nat).
    { rewrite <- list_sum_add. f_equal. apply map_ext. intros j. change ((i, m) :: l) with ([(i, m)] ++ l). rewrite acks_of_app. f_equal. unfold acks_of. cbn. destruct (Nat.eqb i j); reflexivity. }
    rewrite E. pose proof (one_owner i n (acks [m])). lia.
Qed.

Lemma count_seq {A} (f : A -> bool) (l : list A) : length (filter f l) = list_sum (map (fun j => match nth_error l j with Some x => if f x then 1 else 0 | None => 0 end) (seq 0 (length l)))%nat.
Proof.
  induction l as [|x l IH]; cbn [length seq map filter nth_error]; [reflexivity|].
  rewrite list_sum_cons, <- seq_shift, map_map. cbn [nth_error].
  destruct (f x); cbn [length]; rewrite IH; reflexivity.
Qed.

Section Run.
Context (C : crypto) (ty : session) (pw : str) (rnd : nat -> list N).
Local Notation sstep := (sstep C ty pw rnd).
Local Notation srun := (srun C ty pw rnd).

(** The rest of start() after the request for a session, and after the greeting. *)
Definition answered (j : nat) (resp : msg) : prog :=
  if mtype_eqb (msg_type resp) T_ACK then PEnd (Ok tt)
  else if (List.length (msg_tags resp) =? 1)%nat then ptag resp 0 (fun nonce => open_prog pw nonce)
  else ptag resp 0 (fun t0 =>
    if str_eqb t0 (lit "98") then ptag resp 1 (fun tag => hmac_prog C pw tag (rnd j))
    else PEnd (Err InvalidAuthentication)).
Definition greeted (j : nat) (message : msg) : prog :=
  if negb (mtype_eqb (msg_type message) T_ACK) then PEnd (Err InvalidAuthentication)
  else plift (session_message ty) (fun sm => PSend sm (PRead (answered j))).
Lemma start_greeted j : start_prog C ty pw (rnd j) = PRead (greeted j).
Proof. reflexivity. Qed.

Lemma yes_answered j : answered j MAck = PEnd (Ok tt).
Proof. reflexivity. Qed.
Lemma no_answered j : answered j MNack = PEnd (Err InvalidAuthentication).
Proof. reflexivity. Qed.

(** Reading the answer on connection [i]. *)
Lemma go_answer j i cs c : nth_error cs i = Some c -> Forall yesno (whole c) ->
  (exists x, go j (Some i) (PRead (answered j)) cs = (cs, x) /\ x = TWaits i (answered j)) \/
  (exists x r, go j (Some i) (PRead (answered j)) cs = (on_conn (pop j) i cs, x) /\ x = TEnded r /\
     (forall u, r = Ok u -> n_taken (pop j c) = n_taken c ++ [(j, MAck)])).
Proof.
  intros N Y. cbn [go]. rewrite N. destruct (n_unread c) as [|m q] eqn:U; [left; eauto|]. right.
  assert (yesno m) as [-> | ->].
  { unfold whole in Y. rewrite U in Y. apply Forall_app in Y. destruct Y as [_ Y]. inversion Y; assumption. }
  - rewrite yes_answered. cbn [go]. eexists _, _. split; [reflexivity|]. split; [reflexivity|]. intros _ _. unfold pop. rewrite U. reflexivity.
  - rewrite no_answered. cbn [go]. eexists _, _. split; [reflexivity|]. split; [reflexivity|]. discriminate.
Qed.

(** Where task [j] is, when [t] made the last connection, [L]. *)
Definition stands (t L : nat) (tk : list (nat * msg)) (j : nat) (x : stask) : Prop :=
  match x with
  | TNew | TCancelled | TEnded (Err _) => True
  | TEnded (Ok _) => (if Nat.eqb j t then 2 else 1) <= acks_of j tk
  | TWaits i k => (k = greeted j /\ (i = L <-> j = t)) \/ (i = L /\ k = answered j /\ (j = t -> 1 <= acks_of j tk))
  end%nat.

Lemma stands_more t L tk tk' j x : stands t L tk j x -> stands t L (tk ++ tk') j x.
Proof. destruct x as [|i k|[u|e]|]; cbn; auto; rewrite acks_of_app; [intros [H|(A & B & D)]; [auto|right; repeat split; auto; intros E; specialize (D E); lia]|lia]. Qed.

Record door_inv (t L : nat) (s : starts) (cL : sconn) : Prop := {
  d_cur : s_current s = Some L;
  d_conn : nth_error (s_conns s) L = Some cL;
  d_tasks : forall j x, nth_error (s_calls s) j = Some x -> stands t L (n_taken cL) j x }.

Lemma set_task (P : nat -> stask -> Prop) l j x : (forall i y, nth_error l i = Some y -> P i y) -> P j x -> forall i y, nth_error (setnth j x l) i = Some y -> P i y.
Proof.
  intros A B i y H. destruct (Nat.eq_dec j i) as [->|D]; [|rewrite setnth_other in H by exact D; exact (A i y H)].
  assert (Lt : (i < length (setnth i x l))%nat) by (apply nth_error_Some; congruence). rewrite setnth_length in Lt. rewrite setnth_same in H by exact Lt. injection H as <-. exact B.
Qed.

Definition afterwards (a : sact) : Prop := match a with SConnect _ | SClose => False | _ => True end.

Lemma pop_taken t c : exists z, n_taken (pop t c) = n_taken c ++ z.
Proof. unfold pop. destruct (n_unread c); [exists []; rewrite app_nil_r; reflexivity|eexists; reflexivity]. Qed.
Lemma whole_give t b c : whole (give t b c) = whole c.
Proof. reflexivity. Qed.

(** What a task does that waits, once it is woken. *)
Lemma door_step t L s a s' cL : door_inv t L s cL -> Forall yesno (whole cL) -> afterwards a -> sstep s a = Some s' -> 
  exists cL' more, door_inv t L s' cL' /\ whole cL' = whole cL ++ more.
Proof.
  intros [Cu N Ts] Y A E.
  assert (SAME : forall j x, (match x with TCancelled | TEnded (Err _) => True | _ => False end) ->
    exists cL' more, door_inv t L (set_call s j (s_conns s, x)) cL' /\ whole cL' = whole cL ++ more).
  { intros j x X. exists cL, []. rewrite app_nil_r. split; [|reflexivity]. split; cbn [set_call s_conns s_current s_calls fst snd]; [exact Cu|exact N|].
    apply (set_task (stands t L (n_taken cL))); [exact Ts|]. destruct x as [|? ?|[]|]; cbn in *; auto; contradiction. }
  destruct a as [j|j|i ms|i|j|j|j|]; cbn [afterwards] in A; try contradiction; cbn [Starts.sstep] in E.
  - destruct (nth_error (s_calls s) j) as [[]|]; try discriminate. got E. apply SAME. exact I.
  - got E. destruct (Nat.eq_dec i L) as [->|D].
    + exists (hear ms cL), (if n_open cL then ms else []). split; [split; cbn [s_conns s_current s_calls]; [exact Cu|apply on_conn_same, N|]|].
      * intros j x H. specialize (Ts j x H). unfold hear. destruct (n_open cL); exact Ts.
      * unfold hear, whole. destruct (n_open cL); cbn; [rewrite app_assoc|rewrite app_nil_r]; reflexivity.
    + exists cL, []. rewrite app_nil_r. split; [|reflexivity]. split; cbn [s_conns s_current s_calls]; [exact Cu|rewrite on_conn_other by exact D; exact N|exact Ts].
  - got E. destruct (Nat.eq_dec i L) as [->|D].
    + exists (hang_up cL), []. rewrite app_nil_r. split; [|reflexivity]. split; cbn [s_conns s_current s_calls]; [exact Cu|apply on_conn_same, N|exact Ts].
    + exists cL, []. rewrite app_nil_r. split; [|reflexivity]. split; cbn [s_conns s_current s_calls]; [exact Cu|rewrite on_conn_other by exact D; exact N|exact Ts].
  - destruct (nth_error (s_calls s) j) as [x|] eqn:T; [|discriminate]. destruct x as [|i k| |]; try discriminate.
    destruct (nth_error (s_conns s) i) as [ci|] eqn:I; [|discriminate]. destruct (n_unread ci) as [|m q] eqn:U; [discriminate|]. got E. rewrite Cu.
    pose proof (Ts j _ T) as S0. cbn [stands] in S0.
    (* the connections after the message is taken *)
    set (cs := on_conn (pop j) i (s_conns s)).
    assert (exists c1 z, nth_error cs L = Some c1 /\ whole c1 = whole cL /\ n_taken c1 = n_taken cL ++ z /\ (i = L -> z = [(j, m)]) ) as (c1 & z & N1 & W1 & Tk1 & Z).
    { unfold cs. destruct (Nat.eq_dec i L) as [->|D].
      - rewrite N in I. injection I as <-. exists (pop j cL), [(j, m)]. rewrite (on_conn_same _ _ _ _ N). split; [reflexivity|]. split; [apply whole_pop|]. split; [|auto].
        unfold pop. rewrite U. reflexivity.
      - exists cL, []. rewrite on_conn_other by exact D. rewrite app_nil_r. repeat split; auto. contradiction. }
    assert (END : forall r, (match r with Ok _ => False | Err _ => True end) \/ stands t L (n_taken c1) j (TEnded r) ->
      exists cL' more, door_inv t L (set_call s j (cs, TEnded r)) cL' /\ whole cL' = whole cL ++ more).
    { intros r R. exists c1, []. rewrite app_nil_r. split; [|exact W1]. split; cbn [set_call s_conns s_current s_calls fst snd]; [exact Cu|exact N1|].
      apply (set_task (stands t L (n_taken c1))); [intros; rewrite Tk1; apply stands_more, Ts; assumption|]. destruct r; [destruct R as [[]|R]; exact R|exact Logic.I]. }
    destruct S0 as [(-> & IL)|(-> & -> & AT)].
    + unfold greeted at 1. destruct (mtype_eqb (msg_type m) T_ACK) eqn:MA; cbn [negb]; [|apply END; left; exact Logic.I].
      destruct (session_message ty) as [sm|e]; cbn [plift]; [|apply END; left; exact Logic.I].
      change (go j (Some L) (PSend sm (PRead (answered j))) cs) with
        (match msg_bytes sm with Err e => (cs, TEnded (Err e)) | Ok b => go j (Some L) (PRead (answered j)) (on_conn (give j b) L cs) end).
      destruct (msg_bytes sm) as [b|e]; [|apply END; left; exact Logic.I].
      assert (N2 : nth_error (on_conn (give j b) L cs) L = Some (give j b c1)) by (apply on_conn_same, N1).
      assert (J : j = t -> (1 <= acks_of j (n_taken c1))%nat).
      { intros Et. specialize (Z (proj2 IL Et)). rewrite Tk1, Z, acks_of_app. enough (acks_of j [(j, m)] = 1%nat) by lia. unfold acks_of, acks. cbn. rewrite Nat.eqb_refl. cbn. rewrite MA. reflexivity. }
      destruct (go_answer j L _ _ N2) as [(x & -> & ->)|(x & r & -> & -> & R)]; [rewrite whole_give, W1; exact Y| |].
      * exists (give j b c1), []. rewrite app_nil_r. split; [|exact W1]. split; cbn [set_call s_conns s_current s_calls fst snd]; [exact Cu|exact N2|].
        apply (set_task (stands t L (n_taken c1))); [intros; rewrite Tk1; apply stands_more, Ts; assumption|]. right. auto.
      * exists (pop j (give j b c1)), []. rewrite app_nil_r. split; [|rewrite whole_pop; exact W1]. split; cbn [set_call s_conns s_current s_calls fst snd]; [exact Cu|apply on_conn_same, N2|].
        destruct (pop_taken j (give j b c1)) as (z2 & Z2).
        apply (set_task (stands t L (n_taken (pop j (give j b c1))))); [intros; rewrite Z2; cbn [give n_taken]; rewrite Tk1; apply stands_more, stands_more, Ts; assumption|].
        destruct r as [u|e]; [|exact Logic.I]. cbn [stands]. rewrite (R u eq_refl). cbn [give n_taken]. rewrite acks_of_app, acks_of_own.
        destruct (Nat.eqb_spec j t) as [Et|_]; [specialize (J Et)|]; lia.
    + assert (yesno m) as M.
      { rewrite N in I. injection I as <-. unfold whole in Y. rewrite U in Y. apply Forall_app in Y. destruct Y as [_ Y]. inversion Y; assumption. }
      destruct M as [-> | ->]; [rewrite yes_answered|rewrite no_answered]; cbn [go]; apply END; [right|left; exact Logic.I].
      cbn [stands]. rewrite Tk1, (Z eq_refl), acks_of_app, acks_of_own. destruct (Nat.eqb_spec j t) as [Et|_]; [specialize (AT Et)|]; lia.
  - destruct (nth_error (s_calls s) j) as [[]|]; try discriminate. got E. apply SAME. exact I.
  - destruct (nth_error (s_calls s) j) as [[]|]; try discriminate; got E; apply SAME; exact I.
Qed.

(** The messages of a connection only grow. *)
Lemma go_whole t i p cs : forall j c, nth_error cs j = Some c -> exists c', nth_error (fst (go t i p cs)) j = Some c' /\ whole c' = whole c.
Proof.
  revert cs. induction p as [m k IH|k IH|r]; intros cs j c N; cbn [go].
  - destruct i as [i|]; [|eauto]. destruct (msg_bytes m) as [b|]; [|eauto].
    assert (exists c1, nth_error (on_conn (give t b) i cs) j = Some c1 /\ whole c1 = whole c) as (c1 & N1 & W1).
    { destruct (Nat.eq_dec i j) as [->|D]; [exists (give t b c); rewrite (on_conn_same _ _ _ _ N); auto|exists c; rewrite on_conn_other by exact D; auto]. }
    destruct (IH _ j c1 N1) as (c' & N' & W'). exists c'. split; [exact N'|congruence].
  - destruct i as [i|]; [|eauto]. destruct (nth_error cs i) as [ci|]; [|eauto]. destruct (n_unread ci) as [|m q]; [eauto|].
    assert (exists c1, nth_error (on_conn (pop t) i cs) j = Some c1 /\ whole c1 = whole c) as (c1 & N1 & W1).
    { destruct (Nat.eq_dec i j) as [->|D]; [exists (pop t c); rewrite (on_conn_same _ _ _ _ N); split; [reflexivity|apply whole_pop]|exists c; rewrite on_conn_other by exact D; auto]. }
    destruct (IH m _ j c1 N1) as (c' & N' & W'). exists c'. split; [exact N'|congruence].
  - eauto.
Qed.

Lemma whole_step s a s' j c : sstep s a = Some s' -> nth_error (s_conns s) j = Some c -> exists c' more, nth_error (s_conns s') j = Some c' /\ whole c' = whole c ++ more.
Proof.
  intros E N. assert (Lj : (j < length (s_conns s))%nat) by (apply nth_error_Some; congruence).
  assert (SAME : exists c' more, nth_error (s_conns s) j = Some c' /\ whole c' = whole c ++ more) by (exists c, []; rewrite app_nil_r; auto).
  destruct a as [t|t|i ms|i|t|t|t|]; cbn [Starts.sstep] in E.
  - destruct (nth_error (s_calls s) t) as [[]|]; try discriminate. got E. cbn [set_call s_conns fst].
    destruct (go_whole t (Some (length (s_conns s))) (start_prog C ty pw (rnd t)) (s_conns s ++ [new_conn]) j c) as (c' & N' & W'); [rewrite nth_error_app1 by exact Lj; exact N|].
    exists c', []. rewrite app_nil_r. auto.
  - destruct (nth_error (s_calls s) t) as [[]|]; try discriminate. got E. exact SAME.
  - got E. cbn [s_conns]. destruct (Nat.eq_dec i j) as [->|D].
    + exists (hear ms c), (if n_open c then ms else []). rewrite (on_conn_same _ _ _ _ N). split; [reflexivity|].
      unfold hear, whole. destruct (n_open c); cbn; [rewrite app_assoc|rewrite app_nil_r]; reflexivity.
    + rewrite on_conn_other by exact D. exact SAME.
  - got E. cbn [s_conns]. destruct (Nat.eq_dec i j) as [->|D].
    + exists (hang_up c), []. rewrite (on_conn_same _ _ _ _ N), app_nil_r. auto.
    + rewrite on_conn_other by exact D. exact SAME.
  - destruct (nth_error (s_calls s) t) as [x|]; [|discriminate]. destruct x as [|i k| |]; try discriminate.
    destruct (nth_error (s_conns s) i) as [ci|] eqn:I; [|discriminate]. destruct (n_unread ci) as [|m q]; [discriminate|]. got E. cbn [set_call s_conns fst].
    assert (exists c1, nth_error (on_conn (pop t) i (s_conns s)) j = Some c1 /\ whole c1 = whole c) as (c1 & N1 & W1).
    { destruct (Nat.eq_dec i j) as [->|D]; [exists (pop t c); rewrite (on_conn_same _ _ _ _ N); split; [reflexivity|apply whole_pop]|exists c; rewrite on_conn_other by exact D; auto]. }
    destruct (go_whole t (s_current s) (k m) _ j c1 N1) as (c' & N' & W'). exists c', []. rewrite app_nil_r. split; [exact N'|congruence].
  - destruct (nth_error (s_calls s) t) as [[]|]; try discriminate. got E. exact SAME.
  - destruct (nth_error (s_calls s) t) as [[]|]; try discriminate; got E; exact SAME.
  - got E. cbn [s_conns]. destruct (s_current s) as [i|]; [|exact SAME]. destruct (Nat.eq_dec i j) as [->|D].
    + exists (hang_up c), []. rewrite (on_conn_same _ _ _ _ N), app_nil_r. auto.
    + rewrite on_conn_other by exact D. exact SAME.
Qed.

Lemma whole_run l : forall s s' j c, srun s l = Some s' -> nth_error (s_conns s) j = Some c -> exists c' more, nth_error (s_conns s') j = Some c' /\ whole c' = whole c ++ more.
Proof.
  induction l as [|a l IH]; intros s s' j c R N; [injection R as <-; exists c, []; rewrite app_nil_r; auto|].
  cbn [Starts.srun] in R. destruct (sstep s a) as [s1|] eqn:E; [|discriminate]. destruct (whole_step s a s1 j c E N) as (c1 & m1 & N1 & W1).
  destruct (IH s1 s' j c1 R N1) as (c2 & m2 & N2 & W2). exists c2, (m1 ++ m2). split; [exact N2|]. rewrite W2, W1, app_assoc. reflexivity.
Qed.

Lemma door_run t L l : forall s s' cL, door_inv t L s cL -> Forall afterwards l -> srun s l = Some s' ->
  (forall c, nth_error (s_conns s') L = Some c -> Forall yesno (whole c)) -> exists cL', door_inv t L s' cL'.
Proof.
  induction l as [|a l IH]; intros s s' cL D F R Y; [injection R as <-; eauto|]. inversion F as [|? ? Fa Fl]; subst.
  destruct (whole_run (a :: l) s s' L cL R (d_conn _ _ _ _ D)) as (cf & mf & Nf & Wf). pose proof (Y cf Nf) as Yf. rewrite Wf in Yf. apply Forall_app in Yf. destruct Yf as [Yf _].
  cbn [Starts.srun] in R. destruct (sstep s a) as [s1|] eqn:E; [|discriminate].
  destruct (door_step t L s a s1 cL D Yf Fa E) as (c1 & m1 & D1 & _). exact (IH s1 s' c1 D1 Fl R Y).
Qed.

(** Before any task is woken every connected task waits for the greeting of its
    own connection. *)
Definition early (s : starts) : Prop :=
  (forall j x, nth_error (s_calls s) j = Some x ->
    match x with TNew | TCancelled | TEnded (Err _) => True | TEnded (Ok _) => False | TWaits i k => k = greeted j /\ (i < length (s_conns s))%nat end).
Definition nowake (a : sact) : Prop := match a with SWake _ | SClose => False | _ => True end.

Lemma connect_waits j cs : go j (Some (length cs)) (start_prog C ty pw (rnd j)) (cs ++ [new_conn]) = (cs ++ [new_conn], TWaits (length cs) (greeted j)).
Proof. rewrite start_greeted. cbn [go]. rewrite nth_error_app2, Nat.sub_diag by lia. reflexivity. Qed.

Lemma early_step s a s' : early s -> nowake a -> sstep s a = Some s' -> early s'.
Proof.
  intros H A E. unfold early in *.
  assert (SAME : forall j x, (match x with TCancelled | TEnded (Err _) => True | _ => False end) -> early (set_call s j (s_conns s, x))).
  { intros j x X. unfold early. cbn [set_call s_conns s_calls fst snd].
    refine (set_task (fun j x => match x with TNew | TCancelled | TEnded (Err _) => True | TEnded (Ok _) => False | TWaits i k => k = greeted j /\ (i < length (s_conns s))%nat end) _ _ _ H _).
    destruct x as [|? ?|[]|]; cbn in *; auto; contradiction. }
  destruct a as [t|t|i ms|i|t|t|t|]; cbn [nowake] in A; try contradiction; cbn [Starts.sstep] in E.
  - destruct (nth_error (s_calls s) t) as [[]|]; try discriminate. cbv zeta in E. rewrite connect_waits in E. got E. cbn [set_call s_conns s_calls fst snd].
    rewrite app_length. cbn [length].
    refine (set_task (fun j x => match x with TNew | TCancelled | TEnded (Err _) => True | TEnded (Ok _) => False | TWaits i k => k = greeted j /\ (i < length (s_conns s) + 1)%nat end) _ _ _ _ _); [|split; [reflexivity|lia]].
    intros j x Hj. specialize (H j x Hj). destruct x as [|? ?|[]|]; auto. destruct H. split; [assumption|lia].
  - destruct (nth_error (s_calls s) t) as [[]|]; try discriminate. got E. apply SAME, I.
  - got E. cbn [s_conns s_calls]. rewrite on_conn_length. exact H.
  - got E. cbn [s_conns s_calls]. rewrite on_conn_length. exact H.
  - destruct (nth_error (s_calls s) t) as [[]|]; try discriminate. got E. apply SAME, I.
  - destruct (nth_error (s_calls s) t) as [[]|]; try discriminate; got E; apply SAME, I.
Qed.

Lemma early_run l : forall s s', early s -> Forall nowake l -> srun s l = Some s' -> early s'.
Proof.
  induction l as [|a l IH]; intros s s' H F R; [injection R as <-; exact H|]. inversion F; subst. cbn [Starts.srun] in R.
  destruct (sstep s a) as [s1|] eqn:E; [|discriminate]. eapply (IH s1); eauto. eapply early_step; eauto.
Qed.

Lemma early_before n : early (before_starts n).
Proof. intros j x H. apply nth_error_In in H. cbn in H. apply repeat_spec in H. subst. exact I. Qed.

Lemma early_door t s s' : early s -> sstep s (SConnect t) = Some s' -> door_inv t (length (s_conns s)) s' new_conn.
Proof.
  intros H E. cbn [Starts.sstep] in E. destruct (nth_error (s_calls s) t) as [[]|]; try discriminate. cbv zeta in E. rewrite connect_waits in E. got E.
  split; cbn [set_call s_conns s_current s_calls fst snd]; [reflexivity|rewrite nth_error_app2, Nat.sub_diag by lia; reflexivity|].
  intros j x Hj. destruct (Nat.eq_dec t j) as [->|D].
  - assert (Lt : (j < length (setnth j (TWaits (length (s_conns s)) (greeted j)) (s_calls s)))%nat) by (apply nth_error_Some; congruence). rewrite setnth_length in Lt.
    rewrite setnth_same in Hj by exact Lt. injection Hj as <-. cbn. left. tauto.
  - rewrite setnth_other in Hj by exact D. specialize (H j x Hj). destruct x as [|i k|[u|e]|]; cbn; auto; [|contradiction]. destruct H as [-> Li]. left. split; [reflexivity|]. split; intros; [lia|congruence].
Qed.

Lemma door_count t L s cL : door_inv t L s cL -> (acks (whole cL) <= 2)%nat ->
  (length (filter returned (s_calls s)) + (match nth_error (s_calls s) t with Some x => if returned x then 1 else 0 | None => 0 end) <= 2)%nat.
Proof.
  intros [Cu N Ts] A. unfold whole in A. rewrite acks_app in A. pose proof (owners (length (s_calls s)) (n_taken cL)) as O.
  set (f := fun j => match nth_error (s_calls s) j with Some x => if returned x then 1 else 0 | None => 0 end%nat).
  fold (f t). rewrite count_seq. fold f.
  assert (B : (list_sum (map (fun j => f j + (if Nat.eqb t j then f t else 0)) (seq 0 (length (s_calls s)))) <= list_sum (map (fun j => acks_of j (n_taken cL)) (seq 0 (length (s_calls s)))))%nat).
  { apply list_sum_le. intros j _. unfold f at 1. destruct (nth_error (s_calls s) j) as [x|] eqn:J.
    - specialize (Ts j x J). destruct (Nat.eqb_spec t j) as [->|D].
      + unfold f. rewrite J. destruct x as [|? ?|[u|e]|]; cbn [returned]; try lia. cbn [stands] in Ts. rewrite Nat.eqb_refl in Ts. lia.
      + destruct x as [|? ?|[u|e]|]; cbn [returned]; try lia. cbn [stands] in Ts. destruct (Nat.eqb j t); lia.
    - destruct (Nat.eqb_spec t j) as [->|D]; [unfold f; rewrite J; lia|lia]. }
  rewrite list_sum_add in B.
  assert (E : (t < length (s_calls s))%nat -> list_sum (map (fun j => if Nat.eqb t j then f t else 0%nat) (seq 0 (length (s_calls s)))) = f t).
  { intros Lt. replace (length (s_calls s)) with (t + S (length (s_calls s) - S t))%nat by lia. rewrite seq_app, map_app, list_sum_app. cbn [plus seq map]. rewrite list_sum_cons. rewrite Nat.eqb_refl.
    assert (Z : forall k n, (t < k \/ k + n <= t)%nat -> list_sum (map (fun j => if Nat.eqb t j then f t else 0%nat) (seq k n)) = 0%nat).
    { intros k n. revert k. induction n as [|n IH]; intros k K; [reflexivity|]. cbn [seq map]. rewrite list_sum_cons. rewrite IH by lia. destruct (Nat.eqb_spec t k); lia. }
    rewrite !Z by lia. lia. }
  destruct (Nat.ltb_spec t (length (s_calls s))) as [Lt|Ge]; [rewrite (E Lt) in B; lia|].
  assert (f t = 0%nat) as ->; [|lia]. unfold f. rewrite (proj2 (nth_error_None _ _) Ge). reflexivity.
Qed.

Lemma at_door_whole s L c : at_door s -> nth_error (s_conns s) L = Some c -> Forall yesno (whole c) /\ (acks (whole c) <= 2)%nat.
Proof.
  intros D N. destruct (D L c N) as (later & E). rewrite app_assoc in E. fold (whole c) in E.
  pose proof (door_acks (length (n_given c))) as A. pose proof (door_yesno (length (n_given c))) as Y. rewrite E in A, Y. rewrite acks_app in A. apply Forall_app in Y. split; [apply Y|lia].
Qed.

(** ** close() *)

Lemma closed_step s a s' : s_current s = None -> connects a = false -> sstep s a = Some s' -> s_current s' = None /\
  forall t i k c, nth_error (s_calls s) t = Some (TWaits i k) -> nth_error (s_conns s) i = Some c -> n_unread c = [] -> n_open c = false ->
    (exists x, nth_error (s_calls s') t = Some x /\ (x = TWaits i k \/ x = TEnded (Err TimeoutError) \/ x = TCancelled)) /\
    exists c', nth_error (s_conns s') i = Some c' /\ n_unread c' = [] /\ n_open c' = false.
Proof.
  intros Cu A E.
  assert (SAME : forall j x, nth_error (s_calls s) j <> None -> (x = TEnded (Err TimeoutError) \/ x = TCancelled) -> s_current (set_call s j (s_conns s, x)) = None /\
    forall t i k c, nth_error (s_calls s) t = Some (TWaits i k) -> nth_error (s_conns s) i = Some c -> n_unread c = [] -> n_open c = false ->
    (exists y, nth_error (s_calls (set_call s j (s_conns s, x))) t = Some y /\ (y = TWaits i k \/ y = TEnded (Err TimeoutError) \/ y = TCancelled)) /\
    exists c', nth_error (s_conns (set_call s j (s_conns s, x))) i = Some c' /\ n_unread c' = [] /\ n_open c' = false).
  { intros j x J X. cbn [set_call s_conns s_current s_calls fst snd]. split; [exact Cu|]. intros t i k c T N U O. split; [|eauto].
    destruct (Nat.eq_dec j t) as [->|D]; [rewrite setnth_same by (apply nth_error_Some, J); eauto|rewrite setnth_other by exact D; eauto]. }
  assert (CONN : forall f i0, (forall c, n_open c = false -> n_unread c = [] -> n_open (f c) = false /\ n_unread (f c) = []) ->
    forall t i k c, nth_error (s_calls s) t = Some (TWaits i k) -> nth_error (s_conns s) i = Some c -> n_unread c = [] -> n_open c = false ->
    (exists y, nth_error (s_calls s) t = Some y /\ (y = TWaits i k \/ y = TEnded (Err TimeoutError) \/ y = TCancelled)) /\
    exists c', nth_error (on_conn f i0 (s_conns s)) i = Some c' /\ n_unread c' = [] /\ n_open c' = false).
  { intros f i0 F t i k c T N U O. split; [eauto|]. destruct (Nat.eq_dec i0 i) as [->|D].
    - exists (f c). rewrite (on_conn_same _ _ _ _ N). destruct (F c O U). auto.
    - exists c. rewrite on_conn_other by exact D. auto. }
  destruct a as [t|t|i ms|i|t|t|t|]; cbn [connects] in A; try discriminate; cbn [Starts.sstep] in E.
  - destruct (nth_error (s_calls s) t) as [[]|] eqn:T; try discriminate. got E. apply SAME; [congruence|auto].
  - got E. cbn [s_conns s_current s_calls]. split; [exact Cu|]. apply CONN. intros c O U. unfold hear. rewrite O. auto.
  - got E. cbn [s_conns s_current s_calls]. split; [exact Cu|]. apply CONN. intros c O U. auto.
  - destruct (nth_error (s_calls s) t) as [x|] eqn:T; [|discriminate]. destruct x as [|i k| |]; try discriminate.
    destruct (nth_error (s_conns s) i) as [ci|] eqn:I; [|discriminate]. destruct (n_unread ci) as [|m q] eqn:U; [discriminate|]. got E. rewrite Cu.
    destruct (go_none t (k m) (on_conn (pop t) i (s_conns s))) as (x & -> & _). cbn [set_call s_conns s_current s_calls fst snd]. split; [exact Cu|].
    intros t' i' k' c' T' N' U' O'. destruct (Nat.eq_dec t t') as [->|D]; [rewrite T in T'; injection T' as <- <-; congruence|]. rewrite setnth_other by exact D. split; [eauto|].
    destruct (Nat.eq_dec i i') as [->|D']; [congruence|]. exists c'. rewrite on_conn_other by exact D'. auto.
  - destruct (nth_error (s_calls s) t) as [[]|] eqn:T; try discriminate. got E. apply SAME; [congruence|auto].
  - destruct (nth_error (s_calls s) t) as [[]|] eqn:T; try discriminate; got E; (apply SAME; [congruence|auto]).
  - got E. cbn [s_conns s_current s_calls]. rewrite Cu. split; [reflexivity|]. eauto 10.
Qed.

Lemma ended_step s a s' t x : sstep s a = Some s' -> nth_error (s_calls s) t = Some x -> (forall i k, x <> TWaits i k) -> x <> TNew -> nth_error (s_calls s') t = Some x.
Proof.
  intros E T W B.
  assert (SET : forall s0 j y, s_calls s0 = s_calls s -> j <> t -> nth_error (s_calls (set_call s0 j y)) t = Some x).
  { intros s0 j y Eq D. cbn [set_call s_calls]. rewrite setnth_other by exact D. congruence. }
  destruct a as [j|j|i ms|i|j|j|j|]; cbn [Starts.sstep] in E; try (got E; exact T).
  - destruct (nth_error (s_calls s) j) as [[]|] eqn:J; try discriminate. cbv zeta in E. got E. apply SET; [reflexivity|]. intros ->. congruence.
  - destruct (nth_error (s_calls s) j) as [[]|] eqn:J; try discriminate. got E. apply SET; [reflexivity|]. intros ->. congruence.
  - destruct (nth_error (s_calls s) j) as [y|] eqn:J; [|discriminate]. destruct y as [|i k| |]; try discriminate.
    destruct (nth_error (s_conns s) i) as [ci|] eqn:I; [|discriminate]. destruct (n_unread ci) as [|m q] eqn:U; [discriminate|]. got E. apply SET; [reflexivity|]. intros ->. rewrite T in J. injection J as ->. eapply W. reflexivity.
  - destruct (nth_error (s_calls s) j) as [y|] eqn:J; [|discriminate]. destruct y as [|i k| |]; try discriminate. got E. apply SET; [reflexivity|]. intros ->. rewrite T in J. injection J as ->. eapply W. reflexivity.
  - destruct (nth_error (s_calls s) j) as [y|] eqn:J; [|discriminate]. destruct y as [|i k| |]; try discriminate; got E; (apply SET; [reflexivity|]); intros ->; rewrite T in J; injection J as ->; [congruence|eapply W; reflexivity].
Qed.

Lemma ended_run l : forall s s' t x, srun s l = Some s' -> nth_error (s_calls s) t = Some x -> (forall i k, x <> TWaits i k) -> x <> TNew -> nth_error (s_calls s') t = Some x.
Proof.
  induction l as [|a l IH]; intros s s' t x R T W B; [injection R as <-; exact T|]. cbn [Starts.srun] in R. destruct (sstep s a) as [s1|] eqn:E; [|discriminate].
  apply (IH s1); auto. eapply ended_step; eauto.
Qed.

Lemma closed_run l : forall s s' t i k c, s_current s = None -> Forall (fun a => connects a = false) l -> srun s l = Some s' ->
  nth_error (s_calls s) t = Some (TWaits i k) -> nth_error (s_conns s) i = Some c -> n_unread c = [] -> n_open c = false ->
  exists x, nth_error (s_calls s') t = Some x /\ (x = TWaits i k \/ x = TEnded (Err TimeoutError) \/ x = TCancelled).
Proof.
  induction l as [|a l IH]; intros s s' t i k c Cu F R T N U O; [injection R as <-; eauto|]. inversion F; subst. cbn [Starts.srun] in R.
  destruct (sstep s a) as [s1|] eqn:E; [|discriminate]. destruct (closed_step s a s1 Cu ltac:(assumption) E) as (Cu1 & H).
  destruct (H t i k c T N U O) as ((x & X & [-> | [-> | ->]]) & c1 & N1 & U1 & O1).
  - eapply (IH s1); eauto.
  - exists (TEnded (Err TimeoutError)). split; [|auto]. eapply ended_run; eauto; discriminate.
  - exists TCancelled. split; [|auto]. eapply ended_run; eauto; discriminate.
Qed.
End Run.
