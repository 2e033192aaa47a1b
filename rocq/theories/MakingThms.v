(** * Items made by the user: proofs *)
From Coq Require Import String List NArith ZArith Bool Lia.
From Verif Require Import PyStr Tags Messages MessageFacts SpecMsg SpecTag TagThms IO Client Items SpecItem ItemThms Energy SpecEnergy EnergyThms SpecObjects Making SpecMaking.
Import ListNotations.
Open Scope N_scope.
Open Scope list_scope.

Lemma asks_fun u o1 o2 : asks_who u o1 -> asks_who u o2 -> o1 = o2.
Proof.
  intros H1 H2. destruct H1; inversion H2; subst; try reflexivity.
  match goal with H : who_str _ = who_str _ |- _ => apply who_str_inj in H; congruence end.
Qed.

(** The WHO of the new item. *)
Lemma init_who_spec k u : (exists o, asks_who u o /\ init_who k u = Ok (match o with Some w => w | None => says_who k end)) \/
  ((forall o, ~ asks_who u o) /\ init_who k u = Err ValueError).
Proof.
  destruct u as [| |s|w]; cbn [init_who].
  - left. exists None. split; [constructor|]. destruct k; reflexivity.
  - left. exists None. split; [constructor|]. destruct k; reflexivity.
  - destruct (who_of s) as [w|e] eqn:E.
    + left. apply who_of_ok in E as ->. exists (Some w). split; [constructor|reflexivity].
    + right. destruct (who_of_err _ _ E) as (-> & N). split; [|reflexivity]. intros o H. inversion H; subst. eapply N. reflexivity.
  - left. exists (Some w). split; [constructor|]. rewrite who_of_str. reflexivity.
Qed.

Lemma init_where_spec a : checked a -> (tagtext (asked_where a) /\ init_where a = Ok (asked_where a)) \/ (~ tagtext (asked_where a) /\ init_where a = Err InvalidTag).
Proof.
  destruct a as [s|s]; cbn; intros H; [|left; auto]. destruct (mk_cases s) as [(E & T)|(E & T)]; [left|right]; auto.
Qed.

Lemma address_tag k s : address k s -> tagtext s.
Proof. destruct k; cbn; try (intros H; exact H); [intros (t & H)|intros H]; eapply class_tag, H. Qed.

Lemma seven s : tagtext s -> forall r, s = 55 :: r -> (digits r <-> nohash r).
Proof. intros Ht r ->. split; [apply digits_nohash'|]. apply tag_nohash_digits. inversion Ht; assumption. Qed.

(** What get_type makes of it. *)
Lemma type_cases s : tagtext s -> (exists t, energy_class s t /\ get_type s = Ok t) \/
  ((forall t, ~ energy_class s t) /\ get_type s = Err (match s with c :: r => if (c =? 55) && all_digits r then IndexError else InvalidTag | [] => InvalidTag end)).
Proof.
  intros Ht. destruct (type_spec s Ht) as (T1 & T2 & T3). destruct (get_type s) as [t|e] eqn:E.
  - left. exists t. split; [apply T1|]; reflexivity.
  - right. assert (N : forall t, ~ energy_class s t) by (intros t H; apply T1 in H; discriminate). split; [exact N|]. rewrite <- E in *.
    assert (D : (exists r, s = 55 :: r /\ digits r) \/ ~ (exists r, s = 55 :: r /\ digits r)).
    { destruct s as [|c r]; [right; intros (r & X & _); discriminate|]. destruct (N.eq_dec c 55) as [->|Nc]; [|right; intros (r' & X & _); congruence].
      destruct (all_digits r) eqn:A; [left; exists r; split; [reflexivity|apply MessageThms.digits_all, A]|right; intros (r' & X & Dg); injection X as <-; apply MessageThms.digits_all in Dg; congruence]. }
    destruct D as [(r & -> & Dg)|D].
    + rewrite T2; [|exists r; split; [reflexivity|apply (seven _ Ht r eq_refl), Dg]]. apply MessageThms.digits_all in Dg. rewrite Dg. reflexivity.
    + rewrite T3; [|exact N|intros (r & -> & Hn); apply D; exists r; split; [reflexivity|apply (seven _ Ht r eq_refl), Hn]].
      destruct s as [|c r]; [reflexivity|]. destruct (N.eqb_spec c 55) as [->|Nc]; [|reflexivity]. destruct (all_digits r) eqn:A; [|reflexivity]. exfalso. apply D. exists r. split; [reflexivity|apply MessageThms.digits_all, A].
Qed.

Lemma type_fun s t1 t2 : energy_class s t1 -> energy_class s t2 -> t1 = t2.
Proof. intros H1 H2. pose proof (class_tag _ _ H1) as Ht. destruct (type_spec s Ht) as (T & _). apply T in H1, H2. congruence. Qed.

(** What becomes of a construction, other than of a gateway. *)
Theorem made_cases k c a u : k <> I_BaseLight -> k <> I_Gateway -> checked a ->
  (exists it, as_asked k c a u it /\ make_item k c a u = Ok it) \/
  (~ tagtext (asked_where a) /\ make_item k c a u = Err InvalidTag) \/
  (tagtext (asked_where a) /\ (forall o, ~ asks_who u o) /\ make_item k c a u = Err ValueError) \/
  (tagtext (asked_where a) /\ ~ address k (asked_where a) /\ (exists o, asks_who u o) /\
   make_item k c a u = Err (match asked_where a with x :: r => if (x =? 55) && all_digits r then IndexError else InvalidTag | [] => InvalidTag end)).
Proof.
  intros N1 N2 Ck. destruct (init_where_spec a Ck) as [(T & Ew)|(T & Ew)].
  2:{ right. left. split; [exact T|]. destruct k; try congruence; cbn [make_item]; unfold base_init; rewrite Ew; reflexivity. }
  destruct (init_who_spec k u) as [(o & Ao & Eo)|(Ao & Eo)].
  2:{ right. right. left. split; [exact T|]. split; [exact Ao|]. destruct k; try congruence; cbn [make_item]; unfold base_init; rewrite Ew; cbn [bind]; rewrite Eo; reflexivity. }
  set (it := {| it_client := c; it_who := match o with Some w => w | None => says_who k end; it_where := asked_where a |}).
  assert (B : base_init k c a u = Ok it) by (unfold base_init; rewrite Ew; cbn [bind]; rewrite Eo; reflexivity).
  assert (Good : address k (asked_where a) -> as_asked k c a u it) by (intros A; split; [exact N1|]; split; [exact N2|]; split; [exact A|]; exists o; split; [exact Ao|reflexivity]).
  destruct k; try congruence; cbn [make_item]; try (left; exists it; split; [apply Good; exact T|exact B]).
  - rewrite B. cbn [bind it it_where]. destruct (type_cases _ T) as [(t & Ht & E)|(Hn & E)]; rewrite E.
    + left. exists it. split; [apply Good; exists t; exact Ht|reflexivity].
    + right. right. right. split; [exact T|]. split; [intros (t & Ht); eapply Hn, Ht|]. split; [eauto|reflexivity].
  - rewrite B. cbn [bind it it_where]. destruct (type_cases _ T) as [(t & Ht & E)|(Hn & E)]; rewrite E; cbn [bind it it_where].
    + rewrite E. cbn [bind]. destruct t; [| |left; exists it; split; [apply Good; exact Ht|reflexivity]];
      (right; right; right; split; [exact T|]; split; [intros X; pose proof (type_fun _ _ _ Ht X); discriminate|]; split; [eauto|]);
      (destruct (asked_where a) as [|x r] eqn:Ea; [reflexivity|]; destruct (N.eqb_spec x 55) as [->|Nx]; [|reflexivity]; destruct (all_digits r) eqn:A; [|reflexivity]; exfalso;
       destruct (type_spec _ T) as (_ & T2 & _); rewrite T2 in E; [discriminate|]; exists r; split; [reflexivity|]; apply digits_nohash', MessageThms.digits_all, A).
    + right. right. right. split; [exact T|]. split; [intros Ht; eapply Hn, Ht|]. split; [eauto|reflexivity].
Qed.

Theorem made_iff k c a u it : k <> I_Gateway -> checked a -> (make_item k c a u = Ok it <-> as_asked k c a u it).
Proof.
  intros N2 Ck. destruct k eqn:Ek; try congruence.
  2:{ cbn. split; [discriminate|]. intros (X & _). congruence. }
  all: rewrite <- Ek in *; assert (N1 : k <> I_BaseLight) by congruence; clear Ek;
    destruct (made_cases k c a u N1 N2 Ck) as [(it' & As & E)|[(T & E)|[(T & Ao & E)|(T & Na & _ & E)]]]; rewrite E; (split; [intros X|]).
  all: try discriminate X.
  all: try (injection X as <-; exact As).
  all: try (intros (_ & _ & A & o & Ho & ->)).
  all: try (destruct As as (_ & _ & _ & o' & Ho' & ->); pose proof (asks_fun _ _ _ Ho Ho') as Eo; rewrite Eo; reflexivity).
  all: exfalso; try (apply T; eapply address_tag, A); try (eapply Ao, Ho); try (apply Na, A).
Qed.

Lemma item_sends it : ready it -> placed it -> sends it (it_who it) (it_where it).
Proof.
  intros R P. split; [|split; [|split]]; intros.
  - apply command_answered; assumption.
  - apply writing_answered; assumption.
  - apply status_requested; assumption.
  - apply dimension_requested; assumption.
Qed.

(** ** Names *)

Lemma split_at (x : N) a1 : forall b1 a2 b2, Forall (fun c => c <> x) a1 -> Forall (fun c => c <> x) a2 -> a1 ++ x :: b1 = a2 ++ x :: b2 -> a1 = a2 /\ b1 = b2.
Proof.
  induction a1 as [|c a1 IH]; intros b1 [|c2 a2] b2 F1 F2 E; cbn in E.
  - injection E as E. auto.
  - injection E as E1 E2. inversion F2; subst. congruence.
  - injection E as E1 E2. inversion F1; subst. congruence.
  - injection E as -> E2. inversion F1; inversion F2; subst. destruct (IH b1 a2 b2) as (-> & ->); auto.
Qed.
Lemma iname_free k : Forall (fun c => c <> 40) (iname k) /\ Forall (fun c => c <> 32) (iname k).
Proof. destruct k; split; repeat (constructor; [discriminate|]); constructor. Qed.
Lemma iname_inj k1 k2 : iname k1 = iname k2 -> k1 = k2.
Proof. destruct k1, k2; intros E; try reflexivity; discriminate E. Qed.

Lemma repr_inj k1 it1 k2 it2 : item_repr k1 it1 = item_repr k2 it2 -> k1 = k2 /\ it_where it1 = it_where it2.
Proof.
  unfold item_repr. intros E. change (lit "(where=") with (40 :: lit "where=") in E. cbn [app] in E.
  destruct (split_at 40 _ _ _ _ (proj1 (iname_free k1)) (proj1 (iname_free k2)) E) as (En & E2). split; [apply iname_inj, En|].
  apply app_inv_head in E2. change (lit ")") with [41] in E2. apply app_inj_tail in E2 as (E2 & _). exact E2.
Qed.
Lemma str_inj k1 it1 k2 it2 : item_str k1 it1 = item_str k2 it2 -> k1 = k2 /\ it_where it1 = it_where it2.
Proof.
  unfold item_str. intros E. change (lit " at ") with (32 :: lit "at ") in E. cbn [app] in E.
  destruct (split_at 32 _ _ _ _ (proj2 (iname_free k1)) (proj2 (iname_free k2)) E) as (En & E2). split; [apply iname_inj, En|].
  apply app_inv_head in E2. exact E2.
Qed.

Theorem raises k c a u : k <> I_BaseLight -> k <> I_Gateway -> checked a ->
  (~ tagtext (asked_where a) -> make_item k c a u = Err InvalidTag) /\
  (tagtext (asked_where a) -> (forall o, ~ asks_who u o) -> make_item k c a u = Err ValueError) /\
  (tagtext (asked_where a) -> (exists o, asks_who u o) -> ~ address k (asked_where a) ->
   (forall r, asked_where a = 55 :: r -> digits r -> make_item k c a u = Err IndexError) /\
   ((forall r, asked_where a = 55 :: r -> ~ digits r) -> make_item k c a u = Err InvalidTag)).
Proof.
  intros N1 N2 Ck. destruct (made_cases k c a u N1 N2 Ck) as [(it & (_ & _ & A & o & Ho & _) & E)|[(T & E)|[(T & Ao & E)|(T & Na & (o & Ho) & E)]]]; rewrite E.
  - pose proof (address_tag _ _ A) as T. split; [intros X; destruct (X T)|]. split; [intros _ X; destruct (X _ Ho)|intros _ _ X; destruct (X A)].
  - split; [reflexivity|]. split; [intros X; destruct (T X)|intros X; destruct (T X)].
  - split; [intros X; destruct (X T)|]. split; [reflexivity|intros _ (o & Ho); destruct (Ao _ Ho)].
  - split; [intros X; destruct (X T)|]. split; [intros _ X; destruct (X _ Ho)|]. intros _ _ _. split.
    + intros r -> D. apply MessageThms.digits_all in D. rewrite D. reflexivity.
    + intros X. destruct (asked_where a) as [|x r]; [reflexivity|]. destruct (N.eqb_spec x 55) as [->|Nx]; [|reflexivity].
      destruct (all_digits r) eqn:D; [|reflexivity]. destruct (X r eq_refl). apply MessageThms.digits_all, D.
Qed.

Lemma can_send c : commanding c -> cl_session c <> Event /\ cl_proto c = true.
Proof. intros ([H|H] & P); (split; [rewrite H; discriminate|exact P]). Qed.

Theorem made_sends k c a u it o : k <> I_Gateway -> checked a -> commanding c ->
  make_item k c a u = Ok it -> asks_who u o ->
  sends it (match o with Some w => w | None => says_who k end) (asked_where a) /\ item_where it = asked_where a /\ it_client it = c.
Proof.
  intros N Ck R H Ho. apply (made_iff k c a u it N Ck) in H. destruct H as (_ & _ & A & o' & Ho' & ->). assert (o' = o) as -> by (eapply asks_fun; eassumption).
  split; [|split; reflexivity].
  match goal with |- sends ?i _ _ => apply (item_sends i) end; [exact (can_send _ R)|]. exact (address_tag _ _ A).
Qed.

Theorem gateway_made c a u it :
  (make_item I_Gateway c a u = Ok it <-> u = WhoLeft /\ it = {| it_client := c; it_who := GATEWAY; it_where := [] |}) /\
  (u <> WhoLeft -> make_item I_Gateway c a u = Err TypeError).
Proof.
  destruct u; cbn; (split; [split; [intros H; try discriminate; injection H as <-; auto|intros (X & ->); try discriminate; reflexivity]|intros X; congruence]).
Qed.

Lemma says_iwho k : says_who k = iwho k.
Proof. destruct k; reflexivity. Qed.

Theorem who_plain v k c a u it : v < 13 -> checked a -> commanding c -> u = WhoLeft \/ u = WhoNone ->
  make_item k c a u = Ok it -> exists w, item_who v k it = Some w /\ sends it w (item_where it).
Proof.
  intros Hv Ck R Hu H. assert (Ho : asks_who u None) by (destruct Hu as [-> | ->]; constructor). exists (says_who k).
  split; [unfold item_who; apply N.ltb_lt in Hv; rewrite Hv; f_equal; symmetry; apply says_iwho|].
  assert (D : k = I_Gateway \/ k <> I_Gateway) by (destruct k; auto; right; discriminate). destruct D as [->|N].
  - apply (proj1 (gateway_made c a u it)) in H as (_ & ->). match goal with |- sends ?i _ _ => apply (item_sends i) end; [exact (can_send _ R)|constructor].
  - destruct (made_sends k c a u it None N Ck R H Ho) as (S & E & _). rewrite E. exact S.
Qed.

Lemma who_given k c a w it : make_item k c a (WhoIs w) = Ok it -> it_who it = w.
Proof.
  assert (B : forall k' it', base_init k' c a (WhoIs w) = Ok it' -> it_who it' = w).
  { intros k' it'. unfold base_init. destruct (init_where a); cbn [bind]; [|discriminate]. cbn [init_who]. rewrite who_of_str. cbn [bind]. intros H. injection H as <-. reflexivity. }
  destruct k; cbn [make_item]; intros H; try discriminate H; try (exact (B _ _ H)).
  - destruct (base_init I_Energy c a (WhoIs w)) as [i|] eqn:E; [|discriminate H]. cbn [bind] in H. destruct (get_type (it_where i)); [|discriminate H]. injection H as <-. exact (B _ _ E).
  - destruct (base_init I_StopGo c a (WhoIs w)) as [i|] eqn:E; [|discriminate H]. cbn [bind] in H. destruct (get_type (it_where i)) as [t|] eqn:Et; [|discriminate H]. cbn [bind] in H.
    rewrite Et in H. cbn [bind] in H. destruct t; try discriminate H. injection H as <-. exact (B _ _ E).
Qed.

Theorem who_wrong :
  (forall v k c a w it, v < 13 -> make_item k c a (WhoIs w) = Ok it -> item_who v k it = Some (says_who k) /\ it_who it = w) /\
  (exists k c a w it, commanding c /\ checked a /\ make_item k c a (WhoIs w) = Ok it /\ sends it w (item_where it) /\ forall v, item_who v k it <> Some w) /\
  (forall v k it, 13 <= v -> item_who v k it = None).
Proof.
  split; [|split].
  - intros v k c a w it Hv H. split; [unfold item_who; apply N.ltb_lt in Hv; rewrite Hv; f_equal; symmetry; apply says_iwho|exact (who_given _ _ _ _ _ H)].
  - set (c := {| cl_session := Command; cl_proto := true |}). exists I_Light, c, (WText (lit "12")), AUTOMATION, {| it_client := c; it_who := AUTOMATION; it_where := lit "12" |}.
    assert (R : commanding c) by (split; [left|]; reflexivity).
    assert (E : make_item I_Light c (WText (lit "12")) (WhoIs AUTOMATION) = Ok {| it_client := c; it_who := AUTOMATION; it_where := lit "12" |}) by reflexivity.
    split; [exact R|]. split; [exact I|]. split; [exact E|]. split.
    + assert (Nk : I_Light <> I_Gateway) by discriminate.
      destruct (made_sends I_Light c (WText (lit "12")) (WhoIs AUTOMATION) _ (Some AUTOMATION) Nk I R E (As_who _)) as (S & _). exact S.
    + intros v. unfold item_who. destruct (v <? 13); discriminate.
  - intros v k it Hv. unfold item_who. apply N.ltb_ge in Hv. rewrite Hv. reflexivity.
Qed.

Theorem names_blind k c a w1 w2 it1 it2 : make_item k c a (WhoIs w1) = Ok it1 -> make_item k c a (WhoIs w2) = Ok it2 ->
  item_repr k it1 = item_repr k it2 /\ item_str k it1 = item_str k it2 /\ (forall v, item_who v k it1 = item_who v k it2) /\ (w1 <> w2 -> it1 <> it2).
Proof.
  intros H1 H2. assert (E : it_where it1 = it_where it2).
  { assert (B : forall w it, make_item k c a (WhoIs w) = Ok it -> init_where a = Ok (it_where it)).
    { clear. intros w it. assert (B : forall k' it', base_init k' c a (WhoIs w) = Ok it' -> init_where a = Ok (it_where it')).
      { intros k' it'. unfold base_init. destruct (init_where a); cbn [bind]; [|discriminate]. cbn [init_who]. rewrite who_of_str. cbn [bind]. intros H. injection H as <-. reflexivity. }
      destruct k; cbn [make_item]; intros H; try discriminate H; try (exact (B _ _ H)).
      - destruct (base_init I_Energy c a (WhoIs w)) as [i|] eqn:E; [|discriminate H]. cbn [bind] in H. destruct (get_type (it_where i)); [|discriminate H]. injection H as <-. exact (B _ _ E).
      - destruct (base_init I_StopGo c a (WhoIs w)) as [i|] eqn:E; [|discriminate H]. cbn [bind] in H. destruct (get_type (it_where i)) as [t|] eqn:Et; [|discriminate H]. cbn [bind] in H.
        rewrite Et in H. cbn [bind] in H. destruct t; try discriminate H. injection H as <-. exact (B _ _ E). }
    apply B in H1, H2. congruence. }
  unfold item_repr, item_str. rewrite E. split; [reflexivity|]. split; [reflexivity|]. split; [reflexivity|].
  intros N X. apply N. rewrite <- (who_given _ _ _ _ _ H1), <- (who_given _ _ _ _ _ H2), X. reflexivity.
Qed.
