(** * The addresses a client has met and the items it keeps *)
From Coq Require Import String List NArith ZArith Bool Lia Permutation.
From Verif Require Import PyStr Tags Messages SpecMsg SpecTag MessageThms MessageThms2 Protocol SpecProto ProtoThms LightThms FrameThms EnergyThms Energy SpecEnergy Dispatch SpecDispatch DispatchThms DispatchThms2 SpecKeep.
Import ListNotations.
Open Scope N_scope.
Open Scope list_scope.

Lemma usable_item k : usable k <-> has_item k.
Proof.
  destruct k as [w whr]. unfold usable, supported. cbn [fst snd]. split.
  - intros (I & E). cbn in I. destruct I as [<-|[<-|[<-|[<-|[]]]]]; try constructor. destruct (E eq_refl) as (t & T). econstructor; exact T.
  - intros H. inversion H; subst; cbn; (split; [tauto|]); try discriminate. eauto.
Qed.

(** Exactly the key asked for is added, if there is a class for it. *)
Lemma get_item_in its w whr its' x : tagtext whr -> sound its -> get_item its w whr = (its', x) ->
  forall k, In k its' <-> In k its \/ (k = (w, whr) /\ usable k).
Proof.
  intros T S H k. pose proof (get_item_sound _ _ _ _ _ T S H) as S'. destruct S as [N1 U]. destruct S' as [N2 U'].
  destruct (get_item_spec its w whr its' x N1 H) as (_ & (l & El) & Hx). unfold get_item in H.
  destruct (position (w, whr) its) as [n|] eqn:P.
  - injection H as <- <-. split; [auto|]. intros [I|(-> & _)]; [exact I|]. apply position_some in P. eapply nth_error_In, P.
  - destruct (item_types w) as [f|] eqn:F.
    + destruct (construct f whr) as [[]|e] eqn:C; injection H as <- <-.
      * rewrite in_app_iff. cbn [In]. split; intros [I|I]; auto.
        -- destruct I as [<-|[]]. right. split; [reflexivity|]. rewrite Forall_forall in U'. apply U'. apply in_or_app. right. left. reflexivity.
        -- right. left. symmetry. apply I.
      * split; [auto|]. intros [I|(-> & (_ & E))]; [exact I|]. exfalso. cbn [fst snd] in E.
        destruct w; try discriminate F; injection F as <-; try discriminate C. destruct (E eq_refl) as (t & Ht). cbn [construct] in C.
        apply (proj1 (type_spec whr T)) in Ht. rewrite Ht in C. discriminate.
    + injection H as <- <-. split; [auto|]. intros [I|(-> & (E & _))]; [exact I|]. apply item_types_none in F. contradiction.
Qed.

Lemma handle_in v r its m its' ts x : built m -> sound its -> ~ stray m -> handle v r its m = (its', ts, x) ->
  x = None /\ sound its' /\ forall k, In k its' <-> In k its \/ (exists w whr, msg_who m = Some w /\ msg_where m = Some whr /\ k = (w, whr)) /\ usable k.
Proof.
  intros B S NS H.
  assert (K : (msg_who m = None /\ handle v r its m = (its, [], None)) \/
              (exists w whr, msg_who m = Some w /\ msg_where m = Some whr /\ tagtext whr /\
                 handle v r its m = match get_item its w whr with
                   | (its', Ok n) => (its', dispatch v r subclasses n m, None)
                   | (its', Err KeyError) => (its', [], None)
                   | (its', Err e) => (its', [], Some e) end)).
  { destruct B as [B _]. destruct m; cbn [free_tags] in B.
    1,2,8: left; auto.
    all: right; do 2 eexists; split; [reflexivity|]; split; [reflexivity|]; split; [|reflexivity].
    all: repeat match goal with H : Forall _ (_ :: _) |- _ => inversion H; subst; clear H end; assumption. }
  destruct K as [(Wn & E)|(w & whr & Wm & Wh & T & E)]; rewrite E in H; clear E.
  - injection H as <- <- <-. split; [reflexivity|]. split; [exact S|]. intros k. split; [auto|]. intros [I|((w & whr & X & _) & _)]; [exact I|congruence].
  - destruct (get_item its w whr) as [its1 y] eqn:G. pose proof (get_item_in its w whr its1 y T S G) as I. pose proof (get_item_sound _ _ _ _ _ T S G) as S1.
    assert (Z : x = None /\ its' = its1).
    { destruct y as [n|e]; [injection H as <- _ <-; auto|].
      assert (G' : snd (get_item its w whr) = Err e) by (rewrite G; reflexivity).
      apply (get_item_error its w whr e ltac:(constructor; [exact T|constructor]) (proj1 S)) in G' as (_ & [(-> & _)|(-> & A & _)]); [injection H as <- _ <-; auto|].
      exfalso. apply NS. split; [exact Wm|eauto]. }
    destruct Z as (-> & ->). split; [reflexivity|]. split; [exact S1|]. intros k. rewrite I. split.
    + intros [X|(X & Y)]; [auto|]. right. split; [eauto|exact Y].
    + intros [X|((w' & whr' & A & A' & X) & Y)]; [auto|]. right. split; [|exact Y]. rewrite Wm in A. rewrite Wh in A'. injection A as <-. injection A' as <-. exact X.
Qed.

Lemma drain_in v r q : forall its ts, Forall built q -> sound its -> Forall (fun m => ~ stray m) q ->
  exists its' ts', drain v r (Some false) q its ts = ([], its', ts', Waiting) /\ sound its' /\
    forall k, In k its' <-> In k its \/ (exists m w whr, In m q /\ msg_who m = Some w /\ msg_where m = Some whr /\ k = (w, whr)) /\ usable k.
Proof.
  induction q as [|m q IH]; intros its ts B S NS; cbn [drain].
  - exists its, ts. split; [reflexivity|]. split; [exact S|]. intros k. split; [auto|]. intros [I|((m & w & whr & [] & _) & _)]. exact I.
  - inversion B as [|? ? Bm Bq]; subst. inversion NS as [|? ? Nm Nq]; subst.
    destruct (handle v r its m) as [[its1 ts1] x] eqn:H. destruct (handle_in v r its m its1 ts1 x Bm S Nm H) as (-> & S1 & I1).
    destruct (IH its1 (ts ++ ts1) Bq S1 Nq) as (its2 & ts2 & E & S2 & I2). exists its2, ts2. rewrite E. split; [reflexivity|]. split; [exact S2|].
    intros k. rewrite I2, I1. split.
    + intros [[I|((w & whr & X) & U)]|((m' & w & whr & J & X) & U)]; [auto| |]; right; (split; [|exact U]).
      * exists m, w, whr. split; [left; reflexivity|exact X].
      * exists m', w, whr. split; [right; exact J|exact X].
    + intros [I|((m' & w & whr & [<-|J] & X) & U)]; [auto| |].
      * left. right. split; [eauto|exact U].
      * right. split; [|exact U]. eauto.
Qed.

Theorem keeps v r acts evs q : observed r acts evs q -> Forall (fun ev => ~ stray (snd ev)) evs ->
  let s := run v (enter v (connected r)) acts in
  st_loop s = Waiting /\ st_trans s = Some false /\ st_queue s = q /\ NoDup (st_items s) /\
  forall k, In k (st_items s) <-> met acts evs k /\ has_item k.
Proof.
  intros O NS. cbv zeta.
  assert (X : Forall built q /\ exists its ts, run v (enter v (connected r)) acts = open_state r acts q its ts /\ sound its /\
    forall k, In k its <-> met acts evs k /\ usable k).
  { revert NS. induction O as [|acts evs q data ms O IH P|acts evs q k c O IH|acts evs q w whr O IH T|acts evs q O IH]; intros NS.
    - split; [constructor|]. exists [], []. split; [reflexivity|]. split; [split; constructor|]. intros k. split; [intros []|].
      intros (M & _). destruct M as [? ? ? ? []|? ? []].
    - destruct (IH NS) as (B & its & ts & E & S & I). split; [apply Forall_app; split; [exact B|eapply packet_built, P]|].
      exists its, ts. rewrite run_snoc, E. split; [|split; [exact S|]].
      + unfold step, open_state. cbn [st_trans st_queue]. rewrite (received _ _ _ P). rewrite registered_other by discriminate. reflexivity.
      + intros k. rewrite I. split; intros (M & U); (split; [|exact U]); destruct M as [r0 m w whr J Hw Hh|w whr J]; [eapply Met_event; eassumption|apply Met_lookup, in_or_app; auto|eapply Met_event; eassumption|].
        apply Met_lookup. apply in_app_or in J as [J|[J|[]]]; [exact J|discriminate J].
    - destruct (IH NS) as (B & its & ts & E & S & I). split; [exact B|].
      exists its, ts. rewrite run_snoc, E. split; [|split; [exact S|]].
      + unfold open_state. rewrite registered_snoc. reflexivity.
      + intros k0. rewrite I. split; intros (M & U); (split; [|exact U]); destruct M as [r0 m w whr J Hw Hh|w whr J]; [eapply Met_event; eassumption|apply Met_lookup, in_or_app; auto|eapply Met_event; eassumption|].
        apply Met_lookup. apply in_app_or in J as [J|[J|[]]]; [exact J|discriminate J].
    - destruct (IH NS) as (B & its & ts & E & S & I). split; [exact B|].
      destruct (get_item its w whr) as [its' x] eqn:G. exists its', ts. rewrite run_snoc, E. split; [|split].
      + unfold step, open_state. cbn [st_items]. rewrite G. cbn [fst]. rewrite registered_other by discriminate. reflexivity.
      + eapply get_item_sound; eassumption.
      + intros k. rewrite (get_item_in its w whr its' x T S G), I. split.
        * intros [(M & U)|(-> & U)]; (split; [|exact U]).
          -- destruct M as [r0 m w0 whr0 J Hw Hh|w0 whr0 J]; [eapply Met_event; eassumption|apply Met_lookup, in_or_app; auto].
          -- apply Met_lookup, in_or_app. right. left. reflexivity.
        * intros (M & U). destruct M as [r0 m w0 whr0 J Hw Hh|w0 whr0 J]; [left; split; [eapply Met_event; eassumption|exact U]|].
          apply in_app_or in J as [J|[J|[]]]; [left; split; [apply Met_lookup, J|exact U]|]. injection J as <- <-. auto.
    - apply Forall_app in NS as [NS1 NS2]. destruct (IH NS1) as (B & its & ts & E & S & I). split; [constructor|]. rewrite run_snoc, E.
      assert (NQ : Forall (fun m => ~ stray m) q).
      { clear - NS2. induction q; cbn in NS2; constructor; inversion NS2; auto. }
      assert (D : exists its' ts', step v (open_state r acts q its ts) Wake = open_state r (acts ++ [Wake]) [] its' ts' /\ sound its' /\
        forall k, In k its' <-> In k its \/ (exists m w whr, In m q /\ msg_who m = Some w /\ msg_where m = Some whr /\ k = (w, whr)) /\ usable k).
      { destruct (drain_in v (registered r acts) q its ts B S NQ) as (its' & ts' & D & S' & I').
        exists its', ts'. split; [|auto]. destruct q as [|m q].
        - cbn in D. injection D as <- <-. unfold step, open_state. cbn [st_loop st_queue]. rewrite registered_other by discriminate. reflexivity.
        - unfold step, open_state. cbn [st_loop st_queue]. unfold drained. cbn [st_reg st_trans st_queue st_items st_started st_session].
          rewrite D. rewrite registered_other by discriminate. reflexivity. }
      destruct D as (its' & ts' & D & S' & I'). exists its', ts'. split; [exact D|]. split; [exact S'|]. intros k. rewrite I', I. split.
      + intros [(M & U)|((m & w & whr & J & Hw & Hh & ->) & U)]; (split; [|exact U]).
        * destruct M as [r0 m w whr J Hw Hh|w whr J]; [eapply Met_event; [apply in_or_app; left; exact J|exact Hw|exact Hh]|apply Met_lookup, in_or_app; auto].
        * eapply Met_event; [apply in_or_app; right; apply (in_map (fun m => (registered r acts, m))), J|exact Hw|exact Hh].
      + intros (M & U). destruct M as [r0 m w whr J Hw Hh|w whr J].
        * apply in_app_or in J as [J|J]; [left; split; [eapply Met_event; eassumption|exact U]|].
          apply in_map_iff in J as (m' & X & J). injection X as <- <-. right. split; [|exact U]. exists m', w, whr. auto.
        * left. split; [|exact U]. apply Met_lookup. apply in_app_or in J as [J|[J|[]]]; [exact J|discriminate J]. }
  destruct X as (_ & its & ts & E & S & I). rewrite E. cbn [open_state st_loop st_trans st_queue st_items].
  do 3 (split; [reflexivity|]). split; [exact (proj1 S)|]. intros k. rewrite I, usable_item. reflexivity.
Qed.

Lemma counts_unique {A} (P : A -> Prop) n m : counts P n -> counts P m -> n = m.
Proof.
  intros (l & N & I & <-) (l' & N' & I' & <-).
  apply Nat.le_antisymm; apply NoDup_incl_length; auto; intros x Hx; [apply I', I, Hx|apply I, I', Hx].
Qed.

(** ** Growth *)

Definition lamp_event (i : nat) : msg := MNormal LIGHTING (lit "1") (dec (N.of_nat i)).
Definition wake_each (i : nat) : list act := [Packet (msg_str (lamp_event i)); Wake].

Lemma lamp_streamable i : streamable (lamp_event i).
Proof.
  pose proof (FrameThms.digits_wire _ (proj2 (MessageThms.digits_all _) (dec_digits (N.of_nat i)))) as W.
  split.
  - split; [|exact I]. cbn [free_tags lamp_event]. constructor; [|constructor; [exact W|constructor]]. apply FrameThms.digits_wire, MessageThms.digits_all. reflexivity.
  - intros (u & E). unfold lamp_event in E.
    assert (X : msg_str (MNormal LIGHTING (lit "1") (dec (N.of_nat i))) = lit "*1*1*" ++ dec (N.of_nat i) ++ [35; 35]) by reflexivity.
    rewrite X in E. destruct (exists_last (dec_not_nil (N.of_nat i))) as (d & c & Ed).
    rewrite Ed in E. change (u ++ [35; 35; 35]) with (u ++ [35] ++ [35; 35]) in E. rewrite !app_assoc in E. apply app_inv_tail in E. apply app_inj_tail in E as (_ & ->).
    pose proof (proj2 (MessageThms.digits_all _) (dec_digits (N.of_nat i))) as D. rewrite Ed in D. apply Forall_app in D as (_ & D).
    inversion D as [|? ? H _]. unfold digitchar in H. lia.
Qed.

Lemma lamp_packet i : packet_messages (msg_str (lamp_event i)) = Ok [lamp_event i].
Proof.
  pose proof (texts_ok [lamp_event i]) as P. unfold texts in P. cbn [map concat] in P. rewrite app_nil_r in P. apply P.
  constructor; [apply lamp_streamable|constructor].
Qed.

Lemma lamps_seen r n : exists evs, observed r (concat (map wake_each (seq 0 n))) evs [] /\
  map snd evs = map lamp_event (seq 0 n).
Proof.
  induction n as [|n (evs & O & E)]; [exists []; split; [constructor|reflexivity]|].
  rewrite seq_S, !map_app, concat_app. cbn [map concat Nat.add]. rewrite app_nil_r. unfold wake_each at 2.
  eexists. split.
  - change [Packet (msg_str (lamp_event n)); Wake] with ([Packet (msg_str (lamp_event n))] ++ [Wake]). rewrite app_assoc.
    apply O_wake. eapply O_packet; [exact O|apply lamp_packet].
  - rewrite map_app, E. reflexivity.
Qed.

Lemma not_lookup n w whr : ~ In (Lookup w whr) (concat (map wake_each (seq 0 n))).
Proof.
  intros I. apply in_concat in I as (l & I & J). apply in_map_iff in I as (i & <- & _). cbn in J. destruct J as [J|[J|[]]]; discriminate J.
Qed.

Theorem grows v r n : let s := run v (enter v (connected r)) (concat (map wake_each (seq 0 n))) in
  st_loop s = Waiting /\ st_queue s = [] /\ length (st_items s) = n.
Proof.
  destruct (lamps_seen r n) as (evs & O & E).
  assert (NS : Forall (fun ev => ~ stray (snd ev)) evs).
  { apply Forall_forall. intros [r0 m] I. apply (in_map snd) in I. rewrite E in I. apply in_map_iff in I as (i & X & _). cbn [snd] in *. subst m. intros (X & _). discriminate X. }
  destruct (keeps v r _ _ _ O NS) as (L & _ & Q & N & K). cbv zeta. split; [exact L|]. split; [exact Q|].
  eapply counts_unique with (P := fun k => In k (st_items (run v (enter v (connected r)) (concat (map wake_each (seq 0 n)))))).
  - exists (st_items (run v (enter v (connected r)) (concat (map wake_each (seq 0 n))))). split; [exact N|]. split; [reflexivity|reflexivity].
  - exists (map (fun i => (LIGHTING, dec (N.of_nat i))) (seq 0 n)). split; [|split].
    + apply FinFun.Injective_map_NoDup; [|apply seq_NoDup]. intros i j H. injection H as H. apply dec_inj in H. lia.
    + intros k. rewrite K. rewrite in_map_iff. split.
      * intros (i & <- & I). split; [|constructor].
        assert (J : In (lamp_event i) (map snd evs)) by (rewrite E; apply in_map, I). apply in_map_iff in J as ([r0 m] & X & J). cbn [snd] in X. subst m.
        eapply Met_event; [exact J|reflexivity|reflexivity].
      * intros (M & _). destruct M as [r0 m w whr J Hw Hh|w whr J]; [|apply not_lookup in J; contradiction].
        apply (in_map snd) in J. rewrite E in J. apply in_map_iff in J as (i & X & I). cbn [snd] in X. subst m. injection Hw as <-. injection Hh as <-. eauto.
    + rewrite map_length, seq_length. reflexivity.
Qed.

(** Without a loop nothing is taken from the queue. *)
Theorem unread v r n : length (st_queue (run v (connected r) (map (fun i => Packet (msg_str (lamp_event i))) (seq 0 n)))) = n.
Proof.
  assert (X : forall l s, st_trans s = Some false ->
    st_queue (run v s (map (fun i => Packet (msg_str (lamp_event i))) l)) = st_queue s ++ map lamp_event l).
  { induction l as [|i l IH]; intros s T; [cbn; rewrite app_nil_r; reflexivity|]. cbn [map run fold_left]. unfold run in IH. rewrite IH.
    - cbn [step]. rewrite T, (received _ _ _ (lamp_packet i)). cbn [with_conn st_queue]. rewrite <- app_assoc. reflexivity.
    - cbn [step]. rewrite T, (received _ _ _ (lamp_packet i)). reflexivity. }
  rewrite X by reflexivity. cbn [connected st_queue app]. rewrite map_length, seq_length. reflexivity.
Qed.
