(** * What an item can say and what the documentation has it say *)
From Coq Require Import String List NArith ZArith Bool Lia.
From Verif Require Import PyStr Tags Messages MessageFacts SpecMsg MessageThms MessageThms2 SpecTag TagThms MessageThms3
  IO Client SpecClient HandshakeThms Items SpecItem ItemThms Lighting LightThms PyDate SpecGateway CalendarThms Gateway GatewayThms PyFloat Energy
  SpecEnergy EnergyThms2 SpecFrames FrameThms MeterThms SpecSay SayThms.
Import ListNotations.
Open Scope N_scope.
Open Scope list_scope.

Lemma wire_inj l l' : l <> [] -> l' <> [] -> Forall tagtext l -> Forall tagtext l' -> wire l = wire l' -> l = l'.
Proof.
  intros N1 N2 H1 H2 E. rewrite !wire_frame in E by assumption. apply frame_inj in E; try assumption.
  - eapply Forall_impl; [|exact H1]. intros t. apply tagtext_valid.
  - eapply Forall_impl; [|exact H2]. intros t. apply tagtext_valid.
Qed.

Lemma dec_hash n a b : dec n <> a ++ 35 :: b.
Proof.
  intros E. assert (D : digits (dec n)) by (apply LightThms2.digits_all, dec_digits). rewrite E in D.
  apply Forall_app in D as [_ D]. inversion D as [|? ? H _]; subst. unfold digitchar in H. lia.
Qed.
Lemma small_shown n : n < 100000 -> shown n (dec n).
Proof. intros H. split; [apply numeral_dec; reflexivity|]. apply small_len, H. Qed.

Lemma app_tag a b : tagtext a -> tagtext b -> tagtext (a ++ b).
Proof. intros Ha Hb. apply Forall_app. auto. Qed.
Ltac lits := repeat match goal with
  | |- tagtext (lit _) => apply tagtext_valid; reflexivity
  | |- tagtext (dec _) => apply dec_tagtext
  | |- tagtext (_ ++ _) => apply app_tag
  | |- tagtext [] => apply Forall_nil
  | |- Forall tagtext [] => apply Forall_nil
  | |- Forall tagtext (_ :: _) => apply Forall_cons
  end.

Lemma fixed_tag k s n : fixed k s n -> tagtext s.
Proof. intros ((D & _) & _). apply digits_tag, D. Qed.
Lemma clock_tags h m s : clock h m s -> tagtext h /\ tagtext m /\ tagtext s.
Proof. intros (nh & nm & ns & F1 & F2 & F3 & _). repeat split; eapply fixed_tag; eassumption. Qed.
Lemma day_tags w d m y : day_fields w d m y -> tagtext w /\ tagtext d /\ tagtext m /\ tagtext y.
Proof.
  intros (nw & nd & nm & ny & _ & _ & F1 & F2 & F3 & (D & _)). repeat split; try (eapply fixed_tag; eassumption). apply digits_tag, D.
Qed.
Lemma zone4_tag z : zone4 z -> tagtext z.
Proof.
  intros [c s h Hc F _]. apply Forall_cons; [left; unfold digitchar; lia|]. eapply fixed_tag, F.
Qed.
Lemma zone_tag z k : zone z k -> tagtext z.
Proof. intros [s h F|s h F]; (apply Forall_cons; [left; unfold digitchar; lia|eapply fixed_tag, F]). Qed.

Ltac tags := repeat match goal with
  | H : clock _ _ _ |- _ => apply clock_tags in H as (? & ? & ?)
  | H : day_fields _ _ _ _ |- _ => apply day_tags in H as (? & ? & ? & ?)
  | H : zone4 _ |- _ => apply zone4_tag in H
  | H : zone _ _ |- _ => apply zone_tag in H
  | H : shown _ _ |- _ => apply shown_tag in H
  | H : fixed _ _ _ |- _ => apply fixed_tag in H
  | H : digits _ |- _ => apply digits_tag in H
  end; lits; try assumption.

Lemma says_tags W whr ts : tagtext whr -> says W whr ts -> Forall tagtext ts /\ ts <> [].
Proof. intros T H. split; [|destruct H; discriminate]. destruct H; tags. Qed.

Lemma command_tags W whr can ts : tagtext whr -> command W whr can ts -> Forall tagtext ts /\ ts <> [].
Proof.
  intros T H. split; [|destruct H; discriminate]. destruct H; tags; destruct H as [->| ->]; lits.
Qed.

Lemma command_says W whr ts : command W whr true ts -> says W whr ts.
Proof.
  intros H. inversion H; subst; try (constructor; assumption); try (constructor; lia).
  - apply S_brightness; apply dec_tagtext.
  - apply S_camera. auto.
  - apply (S_daily whr m d); apply small_shown; lia.
  - apply (S_meter_number whr n m); [|apply small_shown; lia].
    match goal with I : In n _ |- _ => cbn in I; cbn; tauto end.
  - apply (S_meter_number whr 73 t); [cbn; tauto|apply small_shown; lia].
  - apply (S_meter_number whr 75 n); [cbn; tauto|apply small_shown; lia].
  - apply S_meter_ask. apply in_or_app. auto.
  - apply (S_power whr t 1 (dec t) (dec 1)); apply small_shown; lia.
  - match goal with E : true = true <-> _, F : fixed 2 _ _ |- _ => apply proj1 in E; specialize (E eq_refl); destruct F as ((D & _ & Q & V) & L) end.
    assert (Sh : shown (Z.to_N ny) y).
    { split.
      - split; [exact D|]. split; [exact Q|]. split; [|lia].
        intros r ->. destruct r as [|c [|? ?]]; [reflexivity| |discriminate L]. exfalso.
        inversion D as [|? ? _ D1]; subst. inversion D1 as [|? ? D2 _]; subst. unfold digitchar in D2. cbn [value_of] in *. lia.
      - rewrite L. cbn. lia. }
    apply (S_per_month whr (Z.to_N ny) m); [exact Sh|apply small_shown; lia].
  - apply (S_totalizers whr n); apply small_shown; lia.
Qed.

Lemma zone_lengths z k : zone z k -> zone4 z -> False.
Proof.
  intros H4 H. assert (length z = 4%nat) by (destruct H as [c s h _ [_ L] _]; cbn; lia).
  assert (length z = 3%nat) by (destruct H4 as [s h [_ L]|s h [_ L]]; cbn; lia). lia.
Qed.

Lemma command_mute W whr whr' ts : command W whr false ts -> ~ says W whr' ts.
Proof.
  intros H S. inversion H; subst; inversion S; subst; try discriminate.
  - match goal with E : dec ?n = _ |- _ => exact (dec_hash n (lit "1000") _ E) end.
  - match goal with E : dec ?n = dec ?m ++ _ |- _ => exact (dec_hash n (dec m) _ E) end.
  - match goal with E : dec ?n = dec ?m ++ _ |- _ => exact (dec_hash n (dec m) _ E) end.
  - match goal with E : dec _ = dec h, Q : false = true <-> _ |- _ => apply dec_inj in E as ->; destruct Q as [_ Q]; discriminate Q; assumption end.
  - match goal with E : dec _ = dec d |- _ => apply dec_inj in E as -> end.
    match goal with I : In d _, Q : d = 8 \/ d = 9 |- _ => cbn in I; lia end.
  - match goal with E : dec ?n = _ |- _ => exact (dec_hash n (lit "10") _ E) end.
  - match goal with E : dec ?n = dec ?m ++ _ |- _ => exact (dec_hash n (dec m) _ E) end.
  - eapply zone_lengths; eassumption.
  - match goal with Q : mark = [] \/ _ |- _ => destruct Q as [->| ->]; discriminate end.
  - match goal with E : dec ?n = _ |- _ => exact (dec_hash n (lit "52") _ E) end.
  - match goal with E : a ++ 35 :: b = _, F : fixed 2 _ _, Sa : shown x a |- _ =>
      destruct Sa as ((Da & _ & Za & _) & _); pose proof F as ((Dy & _ & _ & V) & L);
      apply hash_split in E as [-> _]; [|exact (digits_nohash' _ Da)|exact (digits_nohash' _ Dy)] end.
    match goal with Q : false = true <-> _ |- _ => destruct Q as [_ Q]; assert (ny < 10)%Z by (destruct (Z.lt_ge_cases ny 10) as [?|G]; [assumption|specialize (Q G); discriminate]) end.
    destruct y as [|c [|c' [|? ?]]]; try discriminate L.
    inversion Dy as [|? ? D1 D2]; subst. inversion D2 as [|? ? D3 _]; subst. unfold digitchar in *. cbn [value_of] in *.
    assert (c = 48) as -> by lia. discriminate (Za _ eq_refl).
Qed.

Lemma unlisted_says W whr ts : unlisted W whr ts -> says W whr ts.
Proof.
  intros []; try (constructor; assumption).
  - apply (S_camera _ 9). auto.
  - eapply S_set_datetime; eassumption.
  - apply S_meter_ask, in_or_app. auto.
Qed.

Lemma camera_command W whr can ts t : command W whr can ts -> ts = [lit "7"; t] -> exists n, 120 <= n /\ t = dec n.
Proof.
  intros H. destruct H; try discriminate; intros E; injection E as <-.
  - exists n. split; [|reflexivity]. match goal with I : In n _ |- _ => cbn in I; lia end.
  - exists (300 + 10 * x + y). split; [lia|reflexivity].
Qed.

Lemma unlisted_command W whr whr' can ts : unlisted W whr ts -> ~ command W whr' can ts.
Proof.
  intros H S. destruct H as [whr t Ht|whr|h m s z Hc Hz|h n s z w d m y Hc Hz Hd|whr d Hd].
  - inversion S.
  - destruct (camera_command _ _ _ _ _ S eq_refl) as (n & Hn & E). change (lit "9") with (dec 9) in E. apply dec_inj in E. lia.
  - inversion S; subst.
    + eapply zone_lengths; eassumption.
  - inversion S; subst.
  - inversion S; subst.
    + match goal with E : dec _ = dec d |- _ => apply dec_inj in E as -> end.
      match goal with I : In d meter_dims |- _ => cbn in I, Hd; lia end.
    + match goal with E : _ = dec ?n |- _ => exact (dec_hash n (lit "52") _ (eq_sym E)) end.
    + match goal with E : _ = dec ?n |- _ => exact (dec_hash n (lit "72") _ (eq_sym E)) end.
Qed.

(** ** Frames *)

Theorem vocabulary it b : ready it -> placed it ->
  ((exists Y A (x : io Y A) s, named it (it_who it) Y A x /\ In b (sents (evs_of (x s)))) <->
   exists ts, says (it_who it) (it_where it) ts /\ b = wire ts).
Proof.
  intros Hr Hp. split.
  - intros (Y & A & x & s & M & I). destruct (named_says it _ Y A x eq_refl M s b I) as (m & Sm & B).
    exists (ptags m). split; [exact Sm|apply bytes_inv, B].
  - intros (ts & St & ->). exact (says_sayable it Hr Hp ts St).
Qed.

Theorem command_mute_frame it W whr ts Y A (x : io Y A) s : command W whr false ts -> tagtext whr ->
  it_who it = W -> placed it -> named it W Y A x -> ~ In (wire ts) (sents (evs_of (x s))).
Proof.
  intros C T HW Hp M I. destruct (named_says it _ Y A x HW M s _ I) as (m & Sm & B). apply bytes_inv in B.
  unfold said in Sm. rewrite HW in Sm.
  destruct (command_tags _ _ _ _ T C) as [T1 N1]. destruct (says_tags _ _ _ Hp Sm) as [T2 N2].
  apply wire_inj in B; try assumption. rewrite <- B in Sm. exact (command_mute _ _ _ _ C Sm).
Qed.

Theorem unlisted_frame W whr ts whr' can ts' : unlisted W whr ts -> tagtext whr -> tagtext whr' -> command W whr' can ts' ->
  wire ts' <> wire ts.
Proof.
  intros U T T' C B.
  destruct (command_tags _ _ _ _ T' C) as [T1 N1]. destruct (says_tags _ _ _ T (unlisted_says _ _ _ U)) as [T2 N2].
  apply wire_inj in B; try assumption. subst ts'. exact (unlisted_command _ _ _ _ _ U C).
Qed.
