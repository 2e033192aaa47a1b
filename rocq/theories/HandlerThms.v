(** * Lemmas for C133 *)
From Coq Require Import String List NArith ZArith Bool Lia.
From Verif Require Import PyStr Log Handler SpecHandler.
Import ListNotations.
Open Scope N_scope.
Open Scope list_scope.

Section Texts.
Variables (cb h fut : str).
Notation hrun := (hrun cb h fut).
Notation hstep := (hstep cb h fut).

Lemma hrun_app v a b : hrun v (a ++ b) = hrun (hrun v a) b.
Proof. apply fold_left_app. Qed.

Lemma step_slot v e : (forall k, e <> HSet k) -> e <> HNew -> v_slot (hstep v e) = v_slot v.
Proof.
  intros H1 H2. destruct e; cbn; try reflexivity; try (exfalso; eapply H1; reflexivity); try congruence;
  destruct (nth_error (v_clients v) i) as [c|]; try reflexivity; destruct (e_gone c); try reflexivity.
  - destruct (e_start c); reflexivity.
  - destruct (e_end c); reflexivity.
  - destruct (e_end c); reflexivity.
Qed.

Lemma run_slot l : forall v, untouched l -> v_slot (hrun v l) = v_slot v.
Proof.
  induction l as [|e l IH]; intros v [H1 H2]; [reflexivity|]. cbn.
  change (v_slot (hrun (hstep v e) l) = v_slot v). rewrite IH.
  - apply step_slot; [intros k E; subst; apply (H1 k); left; reflexivity|intros E; subst; apply H2; left; reflexivity].
  - split; [intros k I; apply (H1 k); right; exact I|intros I; apply H2; right; exact I].
Qed.

Lemma run_lib l : forall v, no_set l -> v_slot v = Library -> v_slot (hrun v l) = Library.
Proof.
  induction l as [|e l IH]; intros v H1 E; [exact E|]. cbn. apply IH; [intros k I; apply (H1 k); right; exact I|].
  destruct e; try (rewrite step_slot; [exact E|discriminate|discriminate]); [exfalso; apply (H1 k); left; reflexivity|reflexivity].
Qed.

Lemma slot_client v l : after_client l -> v_slot (hrun v l) = Library.
Proof. intros (a & b & -> & H). rewrite hrun_app. cbn. apply run_lib; [exact H|reflexivity]. Qed.

Lemma slot_app v k l : after_app k l -> v_slot (hrun v l) = match k with Some k => App k | None => Nobody end.
Proof. intros (a & b & -> & H). rewrite hrun_app. set (w := hrun v a). change (hrun w (HSet k :: b)) with (hrun (hstep w (HSet k)) b). rewrite run_slot; [reflexivity|exact H]. Qed.

Lemma three l : after_client l \/ (exists k, after_app k l) \/ untouched l.
Proof.
  induction l as [|e l IH] using rev_ind; [right; right; split; [intros k []|intros []]|].
  assert (D : (exists k, e = HSet k) \/ e = HNew \/ ((forall k, e <> HSet k) /\ e <> HNew)).
  { destruct e; eauto; right; right; split; try intros ?; discriminate. }
  destruct D as [[k ->]|[->|[N1 N2]]].
  - right; left. exists k. exists l, []. split; [reflexivity|]. split; [intros ? []|intros []].
  - left. exists l, []. split; [reflexivity|]. intros ? [].
  - destruct IH as [(a & b & -> & H)|[(k & a & b & -> & H1 & H2)|[H1 H2]]].
    + left. exists a, (b ++ [e]). rewrite <- app_assoc. split; [reflexivity|].
      intros k I. apply in_app_or in I. destruct I as [I|[I|[]]]; [apply (H k I)|apply (N1 k I)].
    + right; left. exists k, a, (b ++ [e]). rewrite <- app_assoc. split; [reflexivity|]. split.
      * intros k' I. apply in_app_or in I. destruct I as [I|[I|[]]]; [apply (H1 k' I)|apply (N1 k' I)].
      * intros I. apply in_app_or in I. destruct I as [I|[I|[]]]; [exact (H2 I)|exact (N2 I)].
    + right; right. split.
      * intros k' I. apply in_app_or in I. destruct I as [I|[I|[]]]; [apply (H1 k' I)|apply (N1 k' I)].
      * intros I. apply in_app_or in I. destruct I as [I|[I|[]]]; [exact (H2 I)|exact (N2 I)].
Qed.

Lemma report_out l x : v_out (hrun new_loop (l ++ [HReport x])) = v_out (hrun new_loop l) ++ call_handler (v_slot (hrun new_loop l)) x.
Proof. rewrite hrun_app. reflexivity. Qed.

Lemma handled_fun x : x_message x <> None -> handled x (exception_handler x).
Proof.
  intros M. destruct (x_message x) as [m|] eqn:Em; [|contradiction]. unfold exception_handler. rewrite Em. cbn [shown].
  destruct (x_exception x) as [e|] eqn:Ee; [|apply handled_none; exact Ee].
  destruct (x_task x) as [t|] eqn:Et; [eapply handled_task; eassumption|].
  destruct (x_protocol x) as [p|] eqn:Ep; [eapply handled_protocol; eassumption|].
  destruct (x_transport x) as [r|] eqn:Er; [eapply handled_transport; eassumption|eapply handled_plain; eassumption].
Qed.

(** *** One client *)

Definition one (s : bool) (d : ending) (o : list outcome) : evloop :=
  {| v_slot := Library; v_clients := [{| e_start := s; e_end := d; e_gone := false |}]; v_out := o |}.
Definition oops : outcome := line (lit "Exception occurred: Exception in callback " ++ cb ++ lit " (invalid state)").

Definition over (d : ending) : nat := match d with Waiting => 0 | _ => 1 end.
Definition began (s : bool) : nat := if s then 1 else 0.

Lemma say_one s d o : say (one s d o) (in_callback cb h) = one s d (o ++ [oops]).
Proof. unfold say, one. cbn [v_slot v_clients v_out call_handler]. unfold exception_handler, in_callback. cbn. unfold oops, line. cbn. repeat f_equal. Qed.

Lemma one_run l : Forall of_client l -> forall s d o, exists s' d' n,
  hrun (one s d o) l = one s' d' (o ++ repeat oops n) /\
  (n + began s' + over d' = began s + over d + made l + lost l)%nat /\
  (d <> Waiting -> d' = d) /\
  (d = Waiting -> d' = match lost l with O => Waiting | _ => match first_end l with None => Ended | Some e => EndedBy e end end).
Proof.
  induction 1 as [|e l E F IH]; intros s d o.
  - exists s, d, 0%nat. rewrite app_nil_r. cbn. repeat split; try lia; auto.
  - change (hrun (one s d o) (e :: l)) with (hrun (hstep (one s d o) e) l). inversion E; subst; clear E.
    + cbn [Handler.hstep one v_clients nth_error e_gone e_start]. destruct s.
      * fold (one true d o). rewrite say_one. destruct (IH true d (o ++ [oops])) as (s' & d' & n & R & C & K1 & K2).
        exists s', d', (Datatypes.S n). rewrite R. split; [f_equal; cbn; rewrite <- app_assoc; reflexivity|]. cbn in *. repeat split; try lia; auto.
      * destruct (IH true d o) as (s' & d' & n & R & C & K1 & K2). exists s', d', n. split; [exact R|]. cbn in *. repeat split; try lia; auto.
    + cbn [Handler.hstep one v_clients nth_error e_gone e_end]. destruct d as [| |e].
      * destruct (IH s (match why with None => Ended | Some e => EndedBy e end) o) as (s' & d' & n & R & C & K1 & K2).
        exists s', d', n. split; [exact R|]. cbn in *. repeat split.
        -- destruct why; cbn in *; lia.
        -- congruence.
        -- intros _. apply K1. destruct why; discriminate.
      * fold (one s Ended o). rewrite say_one. destruct (IH s Ended (o ++ [oops])) as (s' & d' & n & R & C & K1 & K2).
        exists s', d', (Datatypes.S n). rewrite R. split; [f_equal; cbn; rewrite <- app_assoc; reflexivity|]. cbn in *. repeat split; try lia; auto; try congruence.
      * fold (one s (EndedBy e) o). rewrite say_one. destruct (IH s (EndedBy e) (o ++ [oops])) as (s' & d' & n & R & C & K1 & K2).
        exists s', d', (Datatypes.S n). rewrite R. split; [f_equal; cbn; rewrite <- app_assoc; reflexivity|]. cbn in *. repeat split; try lia; auto; try congruence.
    + cbn [Handler.hstep]. destruct (IH s d o) as (s' & d' & n & R & C & K1 & K2). exists s', d', n. cbn in *. repeat split; auto.
Qed.

Lemma began_run l : Forall of_client l -> forall s d o, exists s' d' o', hrun (one s d o) l = one s' d' o' /\ (s' = true <-> s = true \/ (0 < made l)%nat).
Proof.
  induction 1 as [|e l E F IH]; intros s d o.
  - exists s, d, o. cbn. split; [reflexivity|]. split; [auto|intros [?|?]; [assumption|lia]].
  - change (hrun (one s d o) (e :: l)) with (hrun (hstep (one s d o) e) l). inversion E; subst; clear E.
    + cbn [Handler.hstep one v_clients nth_error e_gone e_start]. destruct s.
      * fold (one true d o). rewrite say_one. destruct (IH true d (o ++ [oops])) as (s' & d' & o' & R & K).
        exists s', d', o'. split; [exact R|]. rewrite K. cbn. split; auto.
      * destruct (IH true d o) as (s' & d' & o' & R & K). exists s', d', o'. split; [exact R|]. rewrite K. cbn. split; [intros _; right; lia|auto].
    + cbn [Handler.hstep one v_clients nth_error e_gone e_end]. destruct d as [| |e].
      * destruct (IH s (match why with None => Ended | Some e => EndedBy e end) o) as (s' & d' & o' & R & K). exists s', d', o'. split; [exact R|exact K].
      * fold (one s Ended o). rewrite say_one. destruct (IH s Ended (o ++ [oops])) as (s' & d' & o' & R & K). exists s', d', o'. split; [exact R|exact K].
      * fold (one s (EndedBy e) o). rewrite say_one. destruct (IH s (EndedBy e) (o ++ [oops])) as (s' & d' & o' & R & K). exists s', d', o'. split; [exact R|exact K].
    + cbn [Handler.hstep]. destruct (IH s d o) as (s' & d' & o' & R & K). exists s', d', o'. split; [exact R|exact K].
Qed.

Lemma client_life l : Forall of_client l ->
  hrun new_loop (HNew :: l) =
  one (Nat.ltb 0 (made l)) (match lost l with O => Waiting | _ => match first_end l with None => Ended | Some e => EndedBy e end end)
      (repeat oops ((made l - 1) + (lost l - 1))).
Proof.
  intros F. change (hrun new_loop (HNew :: l)) with (hrun (one false Waiting []) l).
  destruct (one_run l F false Waiting []) as (s' & d' & n & R & C & _ & K).
  destruct (began_run l F false Waiting []) as (s2 & d2 & o2 & R2 & K2).
  rewrite R in R2. injection R2 as <- <- _. rewrite R. specialize (K eq_refl). rewrite K in *. clear K R.
  assert (Hs : s' = Nat.ltb 0 (made l)).
  { destruct (Nat.ltb_spec 0 (made l)) as [L|L]; [apply K2; auto|]. destruct s'; [|reflexivity]. destruct K2 as [K2 _]. destruct (K2 eq_refl); [discriminate|lia]. }
  rewrite Hs in *. cbn [app]. f_equal. f_equal. cbn [began over] in C.
  assert (B : began (Nat.ltb 0 (made l)) = Nat.min 1 (made l)) by (destruct (Nat.ltb_spec 0 (made l)); unfold began; lia). rewrite B in C.
  destruct (lost l); cbn [over] in C; [lia|]. destruct (first_end l); cbn [over] in C; lia.
Qed.

(** ** Any number of clients *)

Lemma set_nth_length {A} (a : A) : forall l i, length (set_nth i a l) = length l.
Proof. induction l as [|b l IH]; intros [|i]; cbn; auto. Qed.
Lemma set_nth_same {A} (a b : A) : forall l i, nth_error l i = Some b -> nth_error (set_nth i a l) i = Some a.
Proof. induction l as [|c l IH]; intros [|i] H; try discriminate; cbn in *; auto. Qed.
Lemma set_nth_other {A} (a : A) : forall l i j, i <> j -> nth_error (set_nth i a l) j = nth_error l j.
Proof. induction l as [|c l IH]; intros [|i] [|j] N; cbn; try reflexivity; try congruence. apply IH. congruence. Qed.

Lemma step_clients v e : length (v_clients (hstep v e)) = (length (v_clients v) + created [e])%nat.
Proof.
  destruct e; cbn; try lia; [rewrite app_length; reflexivity| | |].
  all: destruct (nth_error (v_clients v) i) as [c|]; [|lia]; destruct (e_gone c); try lia.
  - destruct (e_start c); cbn; rewrite ?set_nth_length; lia.
  - destruct (e_end c); cbn; rewrite ?set_nth_length; lia.
  - destruct (e_end c); cbn; rewrite ?set_nth_length; lia.
Qed.
Lemma created_app a b : created (a ++ b) = (created a + created b)%nat.
Proof. induction a as [|[] a IH]; cbn; rewrite ?IH; reflexivity. Qed.
Lemma run_clients l : length (v_clients (hrun new_loop l)) = created l.
Proof.
  induction l as [|e l IH] using rev_ind; [reflexivity|]. rewrite hrun_app, created_app. cbn [Handler.hrun fold_left]. fold (hrun new_loop l). rewrite step_clients, IH. reflexivity.
Qed.

Definition ends_of (i : nat) (l : list hap) (c : ends) : Prop :=
  (e_start c = true <-> In (HMade i) l) /\ e_end c = match end_of i l with None => Waiting | Some None => Ended | Some (Some e) => EndedBy e end /\ e_gone c = false.

Lemma end_of_app i a b : end_of i (a ++ b) = match end_of i a with Some x => Some x | None => end_of i b end.
Proof. induction a as [|[] a IH]; cbn; auto. destruct (Nat.eqb i0 i); auto. Qed.

Lemma client_at i l b : since i l b -> exists c, nth_error (v_clients (hrun new_loop l)) i = Some c /\ ends_of i b c.
Proof.
  intros (a & -> & Ca & NG). induction b as [|e b IH] using rev_ind.
  - exists {| e_start := false; e_end := Waiting; e_gone := false |}. rewrite hrun_app. cbn [Handler.hrun fold_left Handler.hstep v_clients]. fold (hrun new_loop a).
    rewrite nth_error_app2 by (rewrite run_clients; lia). rewrite run_clients, Ca, Nat.sub_diag. split; [reflexivity|]. split; [cbn; split; [discriminate|intros []]|]. split; reflexivity.
  - destruct IH as (c & Nc & Es & Ee & Eg); [intros I; apply NG, in_or_app; left; exact I|].
    replace (a ++ HNew :: b ++ [e]) with ((a ++ HNew :: b) ++ [e]) by (rewrite <- app_assoc; reflexivity). rewrite hrun_app. cbn [Handler.hrun fold_left]. fold (hrun new_loop (a ++ HNew :: b)).
    set (v := hrun new_loop (a ++ HNew :: b)) in *.
    assert (Keep : nth_error (v_clients (hstep v e)) i = Some c -> ~ (e = HMade i) -> (forall why, e <> HLost i why) -> exists c, nth_error (v_clients (hstep v e)) i = Some c /\ ends_of i (b ++ [e]) c).
    { intros K N1 N2. exists c. split; [exact K|]. split; [|split; [|exact Eg]].
      - rewrite Es, in_app_iff. cbn. intuition congruence.
      - rewrite end_of_app, Ee. destruct (end_of i b); [reflexivity|]. destruct e; try reflexivity. cbn. destruct (Nat.eqb_spec i0 i) as [->|]; [destruct (N2 why eq_refl)|reflexivity]. }
    assert (Oth : forall j c', j <> i -> nth_error (v_clients (with_client v j c')) i = Some c) by (intros j c' N; cbn; rewrite set_nth_other by exact N; exact Nc).
    destruct e as [k| |j|j why|j|j|x].
    + apply Keep; [exact Nc|discriminate|discriminate].
    + apply Keep; [|discriminate|discriminate]. cbn. rewrite nth_error_app1 by (apply nth_error_Some; congruence). exact Nc.
    + destruct (Nat.eq_dec j i) as [->|N].
      * cbn [Handler.hstep]. rewrite Nc, Eg. destruct (e_start c) eqn:S.
        -- exists c. split; [exact Nc|]. split; [|split; [rewrite end_of_app, Ee; destruct (end_of i b); reflexivity|exact Eg]]. rewrite S, in_app_iff. cbn. tauto.
        -- eexists. split; [cbn; eapply set_nth_same, Nc|]. split; [|split; [cbn; rewrite end_of_app, Ee; destruct (end_of i b); reflexivity|reflexivity]]. cbn. rewrite in_app_iff. cbn. tauto.
      * apply Keep; [|congruence|discriminate]. cbn [Handler.hstep]. destruct (nth_error (v_clients v) j) as [c'|]; [|exact Nc]. destruct (e_gone c'); [exact Nc|]. destruct (e_start c'); [exact Nc|apply Oth, N].
    + destruct (Nat.eq_dec j i) as [->|N].
      * cbn [Handler.hstep]. rewrite Nc, Eg. assert (I1 : In (HMade i) (b ++ [HLost i why]) <-> In (HMade i) b) by (rewrite in_app_iff; cbn; intuition discriminate).
        destruct (end_of i b) as [w|] eqn:W.
        -- assert (X : (match e_end c with Waiting => with_client v i {| e_start := e_start c; e_end := match why with None => Ended | Some e => EndedBy e end; e_gone := false |} | _ => say v (in_callback cb h) end) = say v (in_callback cb h)) by (rewrite Ee; destruct w; reflexivity).
           rewrite X. exists c. split; [exact Nc|]. split; [rewrite I1; exact Es|]. split; [rewrite end_of_app, W; exact Ee|exact Eg].
        -- rewrite Ee. eexists. split; [cbn; eapply set_nth_same, Nc|]. split; [cbn; rewrite I1; exact Es|]. split; [|reflexivity]. rewrite end_of_app, W. cbn. rewrite Nat.eqb_refl. destruct why; reflexivity.
      * apply Keep; [|discriminate|congruence]. cbn [Handler.hstep]. destruct (nth_error (v_clients v) j) as [c'|]; [|exact Nc]. destruct (e_gone c'); [exact Nc|]. destruct (e_end c'); [apply Oth, N|exact Nc|exact Nc].
    + destruct (Nat.eq_dec j i) as [->|N]; [destruct NG; apply in_or_app; right; left; reflexivity|].
      apply Keep; [|discriminate|discriminate]. cbn [Handler.hstep]. destruct (nth_error (v_clients v) j) as [c'|]; [|exact Nc]. destruct (e_gone c'); [exact Nc|]. destruct (e_end c'); cbn; rewrite set_nth_other by exact N; exact Nc.
    + apply Keep; [exact Nc|discriminate|discriminate].
    + apply Keep; [exact Nc|discriminate|discriminate].
Qed.

Lemma report_step v x : v_out (hstep v (HReport x)) = v_out v ++ call_handler (v_slot v) x.
Proof. reflexivity. Qed.

Theorem each i l b : since i l b ->
  (In (HMade i) b -> v_out (hrun new_loop (l ++ [HMade i])) = v_out (hrun new_loop (l ++ [HReport (twice cb h)]))) /\
  (~ In (HMade i) b -> v_out (hrun new_loop (l ++ [HMade i])) = v_out (hrun new_loop l)) /\
  (forall why, end_of i b <> None -> v_out (hrun new_loop (l ++ [HLost i why])) = v_out (hrun new_loop (l ++ [HReport (twice cb h)]))) /\
  (forall why, end_of i b = None -> v_out (hrun new_loop (l ++ [HLost i why])) = v_out (hrun new_loop l)) /\
  (forall e, end_of i b = Some (Some e) -> v_out (hrun new_loop (l ++ [HGone i])) = v_out (hrun new_loop (l ++ [HReport (unasked e fut)]))) /\
  ((forall e, end_of i b <> Some (Some e)) -> v_out (hrun new_loop (l ++ [HGone i])) = v_out (hrun new_loop l)).
Proof.
  intros H. destruct (client_at i l b H) as (c & Nc & Es & Ee & Eg). rewrite !hrun_app. set (v := hrun new_loop l) in *. cbn [Handler.hrun fold_left Handler.hstep]. rewrite Nc, Eg, Ee.
  repeat split.
  - intros I. apply Es in I. rewrite I. reflexivity.
  - intros N. destruct (e_start c) eqn:S; [destruct (N (proj1 Es eq_refl))|reflexivity].
  - intros why N. rewrite !hrun_app. cbn [Handler.hrun fold_left Handler.hstep]. fold v. rewrite Nc, Eg, Ee. destruct (end_of i b) as [[e|]|]; [reflexivity|reflexivity|congruence].
  - intros why N. rewrite !hrun_app. cbn [Handler.hrun fold_left Handler.hstep]. fold v. rewrite Nc, Eg, Ee, N. reflexivity.
  - intros e E. rewrite !hrun_app. cbn [Handler.hrun fold_left Handler.hstep]. fold v. rewrite E. reflexivity.
  - intros N. destruct (end_of i b) as [[e|]|]; [destruct (N e eq_refl)|reflexivity|reflexivity].
Qed.

End Texts.
