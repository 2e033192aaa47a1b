(** * One client among others that do as they like: proofs *)
From Coq Require Import String List NArith ZArith Bool Lia.
From Verif Require Import PyStr Tags Messages MessageFacts SpecMsg SpecTag SpecProto ProtoThms Protocol Queue QueueThms Sender SenderThms IO Client SpecItem Items
  Conc SpecConc ConcThms SpecSerial SerialThms SpecHouse HouseThms HouseThms2 SpecTogether SerialThms2 TogetherThms Line SpecLine LineThms LineThms2 LineThms3 SpecCrowd CrowdThms Energy SpecMeter MeterThms MeterThms2
  SpecServer ServerThms ServerThms2 SpecThrong ThrongThms.
Import ListNotations.
Open Scope list_scope.

Lemma in_of_task {A} (key : A -> nat) i l x : In x (of_task key i l) -> In x l.
Proof. unfold of_task. intros H. apply filter_In in H. apply H. Qed.

Definition call_of (e : sevent) : list (nat * msg) := match e with ESend i m _ => [(i, m)] | _ => [] end.

Section water.
Variables high low : nat.

Lemma try_calls i k m d s : s_calls (try_write high i k m d s) = s_calls s.
Proof. unfold try_write. destruct (s_lock s); [reflexivity|]. destruct (write_same high k d s) as (_ & _ & E & _). cbn [finish s_calls]. exact E. Qed.

Lemma step_calls s e s' : sstep high low s e = Some s' -> s_calls s' = s_calls s ++ call_of e.
Proof.
  intros S. destruct e as [i m k|i k|i|k|]; cbn [Sender.sstep call_of] in *.
  - destruct (nth_error _ _) as [[|]|]; try discriminate. destruct (msg_bytes m); injection S as <-; [rewrite try_calls|]; reflexivity.
  - destruct (nth_error _ _) as [[|m d]|]; try discriminate. injection S as <-. rewrite try_calls, app_nil_r. reflexivity.
  - destruct (nth_error _ _) as [[|m d]|]; try discriminate. injection S as <-. rewrite app_nil_r. reflexivity.
  - destruct (s_lost s); [discriminate|]. destruct (s_buffer s) as [|b bs]; [discriminate|]. destruct (_ && _); [|discriminate]. injection S as <-.
    destruct (maybe_resume_same low (set_bytes (skipn k (b :: bs)) (s_wire s ++ firstn k (b :: bs)) s)) as (_ & _ & _ & _ & E & _). rewrite E, app_nil_r. reflexivity.
  - destruct (s_lost s); [discriminate|]. injection S as <-. rewrite app_nil_r. reflexivity.
Qed.

Lemma run_calls es : forall s s', srun high low s es = Some s' -> s_calls s' = s_calls s ++ concat (map call_of es).
Proof.
  induction es as [|e es IH]; intros s s' R; cbn [srun map concat] in *; [injection R as <-; rewrite app_nil_r; reflexivity|].
  destruct (sstep high low s e) as [s1|] eqn:E; [|discriminate]. rewrite (IH _ _ R), (step_calls _ _ _ E), app_assoc. reflexivity.
Qed.

Lemma sent_started es : forall i m, In (i, m) (concat (map call_of (sending es))) -> exists k, In k (started es) /\ frame_of k = msg_str m.
Proof.
  induction es as [|e es IH]; intros i m H; [destruct H|].
  destruct e as [i0 p0 m0 k0| | | | | | | ]; cbn [sending map concat call_of started app In] in *; try (apply (IH i m H)).
  destruct H as [H|H].
  - injection H as -> ->. eexists. split; [left; reflexivity|reflexivity].
  - destruct (IH i m H) as (k & I & E). exists k. split; [right; exact I|exact E].
Qed.

(** A frame that the transport took is that of a call, whatever happens to the
    calls. *)
Lemma written_started n es l b : lrun high low (linit n) es = Some l -> In b (frames_done (s_done (l_s l))) -> exists k, In k (started es) /\ frame_of k = b.
Proof.
  intros R H. destruct (sides high low n es l R) as (Sr & _). unfold frames_done in H. apply in_map_iff in H as ([[i m] o] & <- & H). apply filter_In in H as (H & _).
  pose proof (calls_reachable high low n _ _ Sr i) as C.
  assert (I : In (i, m) (s_calls (l_s l))).
  { apply (in_of_task fst i). rewrite C. apply in_or_app. left. apply (in_map fst _ (i, m, o)). unfold of_task. apply filter_In. split; [exact H|]. cbn. apply Nat.eqb_refl. }
  rewrite (run_calls _ _ _ Sr) in I. cbn [sinit s_calls app] in I. cbn [fst snd]. eapply sent_started, I.
Qed.
End water.

Definition whose (ks : list (nat * (pc * list N))) (b : list N) : nat * (pc * list N) :=
  match find (fun k => str_eqb (frame_of k) b) ks with Some k => k | None => (0%nat, (PIdle, b)) end.
Lemma whose_in ks b : (exists k, In k ks /\ frame_of k = b) -> In (whose ks b) ks /\ frame_of (whose ks b) = b.
Proof.
  intros (k & I & E). unfold whose. destruct (find (fun k => str_eqb (frame_of k) b) ks) as [k'|] eqn:F.
  - apply find_some in F as (I' & E'). split; [exact I'|]. apply str_eqb_spec, E'.
  - pose proof (find_none _ _ F k I) as X. cbn beta in X. rewrite E, str_eqb_refl in X. discriminate X.
Qed.

Theorem throng_isolated {State} (replies : State -> list N -> State -> list (list N) -> Prop) good kind high low ns es ord ls s s' inn out j : civil State replies good kind -> good s ->
  (forall i, Forall (fun k => kind (fst (snd k)) (snd (snd k))) (started (of_client i es))) ->
  locked high low (ns j) (of_client j es) -> undisturbed (of_client j es) ->
  throng State replies high low (fun j => linit (ns j)) s (fun _ => []) (fun _ => []) es ord ls s' inn out ->
  exists ks log, serially State replies s ks log s' /\ good s' /\ length ks = length ord /\ length log = length ord /\
    (forall i, Forall (fun k => In k (started (of_client i es))) (mine i ord ks)) /\
    mine j ord ks = firstn (count j ord) (started (of_client j es)) /\ informed es j ord (ls j) (inn j) (out j) (map fst log) (map snd log).
Proof.
  intros Cv G H Lk U C.
  destruct (throng_runs replies high low ns _ _ _ _ _ _ _ _ _ _ C (fun _ => []) (fun _ => eq_refl)) as (bs & ans & Sd & Lb & La & J). cbn [app] in J.
  assert (Frj : (count j ord <= length (started (of_client j es)))%nat /\ mine j ord bs = map frame_of (firstn (count j ord) (started (of_client j es)))).
  { destruct (J j) as (R & x & fss & D & I & _). cbn in D. subst x.
    destruct (client_frames high low (ns j) _ _ _ _ R Lk (proj1 (undisturbed_calm _ U)) I) as (L & E). rewrite (mine_length j ord bs Lb) in L, E. split; assumption. }
  set (f := fun i => if Nat.eqb i j then firstn (count j ord) (started (of_client j es)) else map (whose (started (of_client i es))) (mine i ord bs)).
  assert (Lf : forall i, length (f i) = count i ord).
  { intros i. unfold f. destruct (Nat.eqb_spec i j) as [->|N]; [rewrite firstn_length; lia|]. rewrite map_length. apply mine_length, Lb. }
  assert (Fi : forall i, Forall (fun k => In k (started (of_client i es))) (f i) /\ map frame_of (f i) = mine i ord bs).
  { intros i. unfold f. destruct (Nat.eqb_spec i j) as [->|N].
    - split; [|symmetry; apply Frj]. apply Forall_forall. intros k Hk. rewrite <- (firstn_skipn (count j ord)). apply in_or_app. left. exact Hk.
    - assert (W : Forall (fun b => In (whose (started (of_client i es)) b) (started (of_client i es)) /\ frame_of (whose (started (of_client i es)) b) = b) (mine i ord bs)).
      { apply Forall_forall. intros b Hb. apply whose_in. destruct (J i) as (R & x & fss & D & I & _). cbn in D. subst x.
        eapply (written_started high low (ns i)); [exact R|]. rewrite I. apply in_or_app. left. exact Hb. }
      induction W as [|b l (W1 & W2) W (IH1 & IH2)]; [split; constructor|]. cbn [map]. split; [constructor; assumption|]. rewrite W2, IH2. reflexivity. }
  destruct (deal_mine ord f) as (Ld & Md); [intros i; rewrite Lf; lia|].
  assert (Mf : forall i, mine i ord (deal ord f) = f i) by (intros i; rewrite Md, <- (Lf i); apply firstn_all).
  set (ks := deal ord f) in *.
  assert (Eb : bs = map frame_of ks).
  { apply (mine_ext ord); [exact Lb|rewrite map_length; exact Ld|]. intros i. rewrite mine_map, Mf. symmetry. apply Fi. }
  assert (Fk : Forall (fun k => kind (fst (snd k)) (snd (snd k))) ks).
  { apply deal_forall. intros i. destruct (Fi i) as (A & _). eapply Forall_impl; [|exact A]. intros k Hk. pose proof (H i) as X. rewrite Forall_forall in X. apply X, Hk. }
  destruct (runs_serially replies good kind Cv _ _ _ _ Sd ks G Fk Eb) as (log & Se & Di & Ea & Sm & G').
  assert (Lh : length log = length ord) by (rewrite <- La, Ea, map_length; reflexivity).
  exists ks, log. split; [exact Se|]. split; [exact G'|]. split; [exact Ld|]. split; [exact Lh|].
  split; [intros i; rewrite Mf; apply Fi|].
  assert (Mj : mine j ord ks = firstn (count j ord) (started (of_client j es))) by (rewrite Mf; unfold f; rewrite Nat.eqb_refl; reflexivity).
  split; [exact Mj|]. destruct (J j) as (R & x & fss & D & I & Pk & O). cbn in D. subst x.
  pose proof (mine_forall2 _ j ord _ _ Di) as Dj. rewrite Mj in Dj.
  assert (Lm : length (mine j ord bs) = count j ord) by (apply mine_length, Lb).
  destruct (any_side high low (ns j) _ _ (mine j ord bs) (inn j) fss (out j) (mine j ord log) R Lk U (started_busy high low _ _ _ R) I Pk) as (k & pend & read & K1 & K2 & K3 & K4 & K5 & K6).
  - rewrite Lm. exact Dj.
  - rewrite Ea, mine_map in O. cbn [app] in O. rewrite <- O, concat_map, map_map. reflexivity.
  - apply Forall_forall. intros m Hm. apply in_concat in Hm as (ms & Hms & Hm). apply in_map_iff in Hms as (y & <- & Hy). apply mine_in in Hy.
    rewrite Forall_forall in Sm. pose proof (Sm y Hy) as X. rewrite Forall_forall in X. apply X, Hm.
  - rewrite Lm in *. unfold informed. rewrite !mine_map. exists k, pend, read. auto 10.
Qed.
