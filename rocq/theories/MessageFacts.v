(** * Facts about the message parser and printers *)
From Coq Require Import String List NArith ZArith Bool Lia.
From Verif Require Import PyStr Regex Tags Messages.
Import ListNotations.
Open Scope N_scope.
Open Scope list_scope.

(** ** The terminator count *)

Lemma count_hh_cons2 c d r :
  count_hh (c :: d :: r) = if (c =? c_hash) && (d =? c_hash) then S (count_hh r) else count_hh (d :: r).
Proof. reflexivity. Qed.

Lemma list_len_ind (P : list N -> Prop) :
  (forall s : list N, (forall t : list N, (length t < length s)%nat -> P t) -> P s) -> forall s : list N, P s.
Proof.
  intros H s.
  assert (G : forall n s, (length s <= n)%nat -> P s).
  { induction n; intros t Ht; apply H; intros u Hu; [lia|]. apply IHn. lia. }
  apply (G (length s)). lia.
Qed.

Lemma count_hh_nohash_l w t : ~ In c_hash w -> count_hh (w ++ t) = count_hh t.
Proof.
  induction w as [|c w IH]; cbn [app]; intros H; [reflexivity|].
  assert (Hc : c =? c_hash = false) by (apply N.eqb_neq; intros ->; apply H; left; reflexivity).
  assert (Hw : ~ In c_hash w) by (intros X; apply H; right; exact X).
  specialize (IH Hw). destruct (w ++ t) as [|d r] eqn:E.
  - rewrite <- IH. reflexivity.
  - rewrite count_hh_cons2, Hc. cbn [andb]. exact IH.
Qed.

(** A non-hash character separates the counts. *)
Lemma count_hh_sep x c y : c <> c_hash -> count_hh (x ++ c :: y) = (count_hh x + count_hh y)%nat.
Proof.
  intros Hc. pose proof (proj2 (N.eqb_neq c c_hash) Hc) as Ec.
  induction x as [x IH] using list_len_ind.
  destruct x as [|a [|b r]].
  - cbn [app]. change (c :: y) with ([c] ++ y). rewrite count_hh_nohash_l; [reflexivity|].
    intros [E|[]]; congruence.
  - cbn [app]. rewrite count_hh_cons2, Ec, andb_false_r.
    change (c :: y) with ([c] ++ y). rewrite count_hh_nohash_l; [reflexivity|].
    intros [E|[]]; congruence.
  - cbn [app]. rewrite !count_hh_cons2. destruct ((a =? c_hash) && (b =? c_hash)).
    + rewrite IH by (cbn; lia). reflexivity.
    + change (b :: r ++ c :: y) with ((b :: r) ++ c :: y). rewrite IH by (cbn; lia). reflexivity.
Qed.

Lemma count_hh_nohash_r x w : ~ In c_hash w -> count_hh (x ++ w) = count_hh x.
Proof.
  destruct w as [|c w]; intros H; [rewrite app_nil_r; reflexivity|].
  rewrite count_hh_sep by (intros ->; apply H; left; reflexivity).
  replace (count_hh w) with O; [lia|].
  rewrite <- (app_nil_r w), count_hh_nohash_l; [reflexivity|].
  intros X; apply H; right; exact X.
Qed.

Lemma count_hh_suffix x : count_hh (x ++ hh) = S (count_hh x).
Proof.
  induction x as [x IH] using list_len_ind.
  destruct x as [|a [|b r]].
  - reflexivity.
  - cbn [app]. unfold hh. rewrite count_hh_cons2. destruct (a =? c_hash) eqn:Ea; reflexivity.
  - cbn [app]. rewrite !count_hh_cons2. destruct ((a =? c_hash) && (b =? c_hash)).
    + rewrite IH by (cbn; lia). reflexivity.
    + change (b :: r ++ hh) with ((b :: r) ++ hh). rewrite IH by (cbn; lia). reflexivity.
Qed.

Lemma count_hh_zero_iff s : count_hh s = 0%nat <-> ~ exists u v, s = u ++ hh ++ v.
Proof.
  induction s as [s IH] using list_len_ind.
  destruct s as [|a [|b r]].
  - split; [|reflexivity]. intros _ (u & v & E). destruct u; discriminate.
  - split; [|reflexivity]. intros _ (u & v & E). destruct u as [|? [|? ?]]; discriminate.
  - rewrite count_hh_cons2. destruct ((a =? c_hash) && (b =? c_hash)) eqn:E.
    + apply andb_true_iff in E as [Ea Eb]. apply N.eqb_eq in Ea, Eb. subst.
      split; [discriminate|]. intros H. exfalso. apply H. exists [], r. reflexivity.
    + rewrite IH by (cbn; lia). split; intros H (u & v & X); apply H.
      * destruct u as [|x u].
        -- cbn in X. injection X as -> -> ->. rewrite !N.eqb_refl in E. discriminate.
        -- cbn in X. injection X as -> X. exists u, v. exact X.
      * exists (a :: u), v. cbn. rewrite X. reflexivity.
Qed.

Lemma count_hh_strip s : count_hh (strip s) = count_hh s.
Proof.
  destruct (strip_spec s) as (w1 & w2 & E & H1 & H2 & _).
  rewrite E at 2.
  assert (NS : forall w, forallb is_space w = true -> ~ In c_hash w).
  { intros w Hw Hin. rewrite forallb_forall in Hw. apply Hw in Hin. discriminate. }
  rewrite count_hh_nohash_l by auto. rewrite count_hh_nohash_r by auto. reflexivity.
Qed.

(** ** Frames *)

(** The frame with the given tags. *)
Definition frame (l : list str) : str := c_star :: join c_star l ++ hh.

Definition valid_tags (l : list str) : Prop := Forall (fun t => is_valid_tag t = true) l.

Lemma valid_tags_nostar l : valid_tags l -> Forall (fun x => ~ In c_star x) l.
Proof. intros H. eapply Forall_impl; [|exact H]. cbn. intros a Ha. apply valid_nostar, Ha. Qed.

Lemma frame_inj l1 l2 :
  l1 <> [] -> l2 <> [] -> valid_tags l1 -> valid_tags l2 -> frame l1 = frame l2 -> l1 = l2.
Proof.
  intros N1 N2 V1 V2 E. unfold frame in E. injection E as E.
  apply app_inv_tail in E. eapply join_inj; eauto using valid_tags_nostar.
Qed.

Lemma frame_tags l :
  l <> [] -> valid_tags l ->
  split c_star (removesuffix hh (removeprefix [c_star] (frame l))) = l.
Proof.
  intros N V. unfold frame. change (c_star :: join c_star l ++ hh) with ([c_star] ++ (join c_star l ++ hh)).
  rewrite removeprefix_app, removesuffix_app. apply split_join; auto using valid_tags_nostar.
Qed.

Lemma frame_stripped l : stripped (frame l).
Proof.
  unfold stripped, frame. split.
  - reflexivity.
  - cbn [rev]. rewrite rev_app_distr. reflexivity.
Qed.

Lemma count_hh_join l :
  l <> [] -> (count_hh (join c_star l) = 0%nat <-> Forall (fun t => count_hh t = 0%nat) l).
Proof.
  induction l as [|x l IH]; [congruence|]. intros _.
  destruct l as [|y l].
  - cbn [join]. split; [intros H; constructor; auto|intros H; inversion H; auto].
  - rewrite join_cons by discriminate. rewrite count_hh_sep by discriminate.
    specialize (IH ltac:(discriminate)). split.
    + intros H. constructor; [lia|]. apply IH. lia.
    + intros H. inversion H as [|? ? Hx Hl]; subst. apply IH in Hl. lia.
Qed.

Lemma count_hh_frame l :
  l <> [] -> (count_hh (frame l) = 1%nat <-> Forall (fun t => count_hh t = 0%nat) l).
Proof.
  intros N. unfold frame.
  change (c_star :: join c_star l ++ hh) with ([c_star] ++ (join c_star l ++ hh)).
  rewrite count_hh_nohash_l by (intros [E|[]]; discriminate).
  rewrite count_hh_suffix, <- count_hh_join by exact N. lia.
Qed.

(** ** The languages of the patterns *)

Lemma lang_digits s : lang R_digits s <-> all_digits s = true.
Proof.
  unfold R_digits. rewrite lang_Star_Cls. unfold all_digits. rewrite forallb_forall, Forall_forall.
  split; intros H c Hc; specialize (H c Hc).
  - unfold digit_set in H. cbn in H. apply is_digit_range.
    repeat (destruct H as [<-|H]; [lia|]). destruct H.
  - apply is_digit_range in H. unfold digit_set. cbn.
    assert (c = 48 \/ c = 49 \/ c = 50 \/ c = 51 \/ c = 52 \/ c = 53 \/ c = 54 \/ c = 55 \/ c = 56 \/ c = 57) by lia.
    intuition auto.
Qed.

Lemma in_digith c : In c digith_set <-> is_tagc c = true.
Proof.
  unfold is_tagc. split.
  - intros H. apply existsb_exists. exists c. split; [exact H|apply N.eqb_refl].
  - intros H. apply existsb_exists in H as (x & Hx & E). apply N.eqb_eq in E. subst. exact Hx.
Qed.

Lemma lang_digith s : lang (Star (Cls digith_set)) s <-> is_valid_tag s = true.
Proof.
  rewrite lang_Star_Cls. unfold is_valid_tag. rewrite forallb_forall, Forall_forall.
  split; intros H c Hc; apply in_digith, H, Hc.
Qed.

Lemma lang_who s : lang R_who s <-> is_valid_tag s = true /\ s <> [].
Proof.
  unfold R_who. rewrite lang_Plus. split.
  - intros (u & v & -> & Hu & Hv). apply lang_Cls in Hu as (c & -> & Hc). split; [|discriminate].
    unfold is_valid_tag. rewrite forallb_app. apply andb_true_iff. split; [|apply lang_digith, Hv].
    cbn [forallb]. apply in_digith in Hc. rewrite Hc. reflexivity.
  - intros [H N]. destruct s as [|c s]; [congruence|].
    change (c :: s) with ([c] ++ s) in *. rewrite valid_app in H. apply andb_true_iff in H as [Hc Hs].
    exists [c], s. split; [reflexivity|]. split.
    + apply lang_Cls. exists c. split; [reflexivity|]. apply in_digith.
      unfold is_valid_tag in Hc. cbn [forallb] in Hc. rewrite andb_true_r in Hc. exact Hc.
    + apply lang_digith, Hs.
Qed.

(** [[0-9]*(?:#[0-9]* )*] is the set of valid tags. *)
Lemma lang_hseg s :
  lang R_hseg s <-> s = [] \/ exists d r, s = c_hash :: d ++ r /\ all_digits d = true /\ lang R_hseg r.
Proof.
  unfold R_hseg. split.
  - intros H. inversion H as [| | | | | |? u v Hu Hv]; subst; [left; reflexivity|].
    apply lang_Cat in Hu as (a & b & -> & Ha & Hb). apply lang_Chr in Ha. subst.
    right. exists b, v. split; [reflexivity|]. split; [apply lang_digits, Hb|exact Hv].
  - intros [-> | (d & r & -> & Hd & Hr)]; [constructor|].
    change (c_hash :: d ++ r) with (([c_hash] ++ d) ++ r).
    constructor; [|exact Hr]. apply lang_Cat. exists [c_hash], d.
    repeat split; [apply lang_Chr; reflexivity|apply lang_digits, Hd].
Qed.

Lemma lang_seg s : lang R_seg s <-> is_valid_tag s = true.
Proof.
  unfold R_seg. rewrite lang_Cat. split.
  - intros (u & v & -> & Hu & Hv). apply lang_digits in Hu.
    rewrite valid_app, (all_digits_valid _ Hu). cbn. clear u Hu.
    induction v as [v IH] using list_len_ind. apply lang_hseg in Hv as [-> | (d & r & -> & Hd & Hr)]; [reflexivity|].
    change (c_hash :: d ++ r) with ([c_hash] ++ (d ++ r)). rewrite !valid_app, (all_digits_valid _ Hd).
    cbn. apply IH; [cbn; rewrite app_length; lia|exact Hr].
  - induction s as [|c s IH]; intros H.
    + exists [], []. repeat split; [apply lang_digits; reflexivity|]. apply lang_hseg. left. reflexivity.
    + unfold is_valid_tag in H. cbn [forallb] in H. apply andb_true_iff in H as [Hc Hs]. destruct (IH Hs) as (u & v & E & Hu & Hv).
      rewrite is_tagc_cases in Hc. apply orb_true_iff in Hc as [Hc|Hc].
      * exists (c :: u), v. rewrite E. repeat split; [|exact Hv]. apply lang_digits.
        unfold all_digits. cbn [forallb]. rewrite Hc. apply lang_digits in Hu. exact Hu.
      * apply N.eqb_eq in Hc. subst c. exists [], (c_hash :: s). repeat split.
        -- apply lang_digits; reflexivity.
        -- apply lang_hseg. right. exists u, v. rewrite E. repeat split; [|exact Hv]. apply lang_digits, Hu.
Qed.

Lemma lang_vals s : lang R_vals s <-> exists vs, valid_tags vs /\ s = concat (map (cons c_star) vs).
Proof.
  unfold R_vals. split.
  - induction s as [s IH] using list_len_ind. intros H. inversion H as [| | | | | |? u v Hu Hv]; subst.
    + exists []. split; [constructor|reflexivity].
    + apply lang_Cat in Hu as (a & b & -> & Ha & Hb). apply lang_Chr in Ha. subst a.
      destruct (IH v) as (vs & V & ->); [cbn; rewrite app_length; lia|exact Hv|].
      exists (b :: vs). split; [constructor; [apply lang_seg, Hb|exact V]|reflexivity].
  - intros (vs & V & ->). induction V as [|b vs Hb V IH]; [constructor|].
    cbn. change (c_star :: b ++ concat (map (cons c_star) vs)) with (([c_star] ++ b) ++ concat (map (cons c_star) vs)).
    constructor; [|exact IH]. apply lang_Cat. exists [c_star], b.
    repeat split; [apply lang_Chr; reflexivity|apply lang_seg, Hb].
Qed.

Definition body_char (c : N) : bool := is_tagc c || (c =? c_star).

Lemma body_tags b : forallb body_char b = true <-> valid_tags (split c_star b).
Proof.
  unfold valid_tags. split.
  - intros H. apply Forall_forall. intros t Ht. unfold is_valid_tag. apply forallb_forall. intros c Hc.
    pose proof (split_no_sep_in c_star b) as NS. rewrite Forall_forall in NS. specialize (NS t Ht).
    pose proof (in_split_in _ _ _ _ Ht Hc) as Hin. rewrite forallb_forall in H. specialize (H c Hin).
    apply orb_true_iff in H as [H|H]; [exact H|]. apply N.eqb_eq in H. subst. contradiction.
  - intros H. rewrite <- (join_split c_star b). apply forallb_forall. intros c Hc.
    unfold body_char. apply in_join in Hc as [-> | (x & Hx & Hc)].
    + rewrite N.eqb_refl. apply orb_true_r.
    + rewrite Forall_forall in H. specialize (H x Hx). unfold is_valid_tag in H.
      rewrite forallb_forall in H. rewrite (H c Hc). reflexivity.
Qed.

(** The generic pattern: a star, tag characters and stars, "##". *)
Lemma lang_generic_body s :
  lang R_generic s <-> exists b, forallb body_char b = true /\ s = c_star :: b ++ hh.
Proof.
  unfold R_generic, Seq. rewrite lang_Cat. split.
  - intros (u & v & -> & Hu & Hv). apply lang_Chr in Hu. subst u.
    apply lang_Cat in Hv as (p & q & -> & Hp & Hq). apply lang_Lit in Hq. subst q.
    exists p. split; [|reflexivity].
    assert (IT : forall x, lang (Cat R_digits (Cat R_hseg (Opt (Chr c_star)))) x -> forallb body_char x = true).
    { intros x Hx. apply lang_Cat in Hx as (a & y & -> & Ha & Hy).
      apply lang_Cat in Hy as (b & c & -> & Hb & Hc).
      rewrite app_assoc, forallb_app. apply andb_true_iff. split.
      - assert (Hab : is_valid_tag (a ++ b) = true)
          by (apply lang_seg; apply lang_Cat; exists a, b; auto).
        apply forallb_forall. intros z Hz. unfold is_valid_tag in Hab. rewrite forallb_forall in Hab.
        unfold body_char. rewrite (Hab z Hz). reflexivity.
      - unfold Opt in Hc. apply lang_Alt in Hc as [Hc|Hc].
        + apply lang_Chr in Hc. subst. reflexivity.
        + apply lang_Eps in Hc. subst. reflexivity. }
    apply lang_Plus in Hp as (x & y & -> & Hx & Hy). rewrite forallb_app, (IT x Hx). cbn [andb].
    clear x Hx. induction y as [y IH] using list_len_ind.
    destruct y as [|c y]; [reflexivity|]. apply star_cons in Hy as (u & v & -> & Hu & Hv).
    change (c :: u ++ v) with ((c :: u) ++ v). rewrite forallb_app, (IT _ Hu). cbn [andb].
    apply IH; [cbn; rewrite app_length; lia|exact Hv].
  - intros (b & Hb & ->). exists [c_star], (b ++ hh). split; [reflexivity|]. split; [apply lang_Chr; reflexivity|].
    apply lang_Cat. exists b, hh. split; [reflexivity|]. split; [|apply lang_Lit; reflexivity].
    (* every body is one or more "tag, optional star" items *)
    assert (IT : forall t (o : bool), is_valid_tag t = true ->
              lang (Cat R_digits (Cat R_hseg (Opt (Chr c_star)))) (t ++ if o then [c_star] else [])).
    { intros t o Ht. apply lang_seg in Ht. apply lang_Cat in Ht as (d & h & -> & Hd & Hh).
      apply lang_Cat. exists d, (h ++ if o then [c_star] else []). rewrite app_assoc.
      repeat split; [exact Hd|]. apply lang_Cat. exists h, (if o then [c_star] else []).
      repeat split; [exact Hh|]. apply lang_Alt. destruct o; [left; apply lang_Chr; reflexivity|right; apply lang_Eps; reflexivity]. }
    apply body_tags in Hb. rewrite <- (join_split c_star b).
    pose proof (split_not_nil c_star b) as NE. revert Hb NE. generalize (split c_star b). clear b.
    induction l as [|t l IH]; [congruence|]. intros V _. inversion V as [|? ? Ht Vl]; subst.
    apply lang_Plus. destruct l as [|t' l].
    + exists t, []. cbn [join]. rewrite app_nil_r. repeat split; [|constructor].
      specialize (IT t false Ht). rewrite app_nil_r in IT. exact IT.
    + rewrite join_cons by discriminate. exists (t ++ [c_star]), (join c_star (t' :: l)).
      rewrite <- app_assoc. repeat split; [apply (IT t true Ht)|].
      specialize (IH Vl ltac:(discriminate)). apply lang_Plus in IH as (x & y & E & Hx & Hy).
      rewrite E. constructor; assumption.
Qed.

Lemma lang_generic s : lang R_generic s <-> exists l, l <> [] /\ valid_tags l /\ s = frame l.
Proof.
  rewrite lang_generic_body. split.
  - intros (b & Hb & ->). exists (split c_star b). split; [apply split_not_nil|].
    split; [apply body_tags, Hb|]. unfold frame. rewrite join_split. reflexivity.
  - intros (l & N & V & ->). exists (join c_star l). split; [|reflexivity].
    apply body_tags. rewrite split_join; auto using valid_tags_nostar.
Qed.

(** ** Which pattern matches which tag list *)

(** '#' followed by at least one character *)
Definition hashed (t : str) : bool :=
  match t with c :: _ :: _ => c =? c_hash | _ => false end.

Definition hash_digits (t : str) : bool :=
  match t with c :: r => (c =? c_hash) && all_digits r | [] => false end.

Lemma hashed_spec t : hashed t = true <-> exists w, t = c_hash :: w /\ w <> [].
Proof.
  split.
  - destruct t as [|c [|d r]]; try discriminate. cbn. intros H. apply N.eqb_eq in H. subst.
    exists (d :: r). split; [reflexivity|discriminate].
  - intros (w & -> & N). destruct w; [congruence|]. apply N.eqb_refl.
Qed.

Lemma hash_digits_spec t : hash_digits t = true <-> exists d, t = c_hash :: d /\ all_digits d = true.
Proof.
  split.
  - destruct t as [|c r]; try discriminate. cbn. intros H. apply andb_true_iff in H as [H1 H2].
    apply N.eqb_eq in H1. subst. exists r. auto.
  - intros (d & -> & H). cbn. exact H.
Qed.

Lemma valid_hash_cons w : is_valid_tag (c_hash :: w) = is_valid_tag w.
Proof. reflexivity. Qed.

Lemma frame_cons2 a b l : frame (a :: b :: l) = c_star :: a ++ c_star :: b ++ concat (map (cons c_star) l) ++ hh.
Proof.
  unfold frame. rewrite join_concat. cbn [map concat]. rewrite <- ?app_assoc. cbn [app].
  rewrite <- ?app_assoc. reflexivity.
Qed.

Lemma frame_2 a b : frame [a; b] = c_star :: a ++ c_star :: b ++ hh.
Proof. apply frame_cons2. Qed.

Lemma frame_3 a b d l :
  frame (a :: b :: d :: l) = c_star :: a ++ c_star :: b ++ c_star :: d ++ concat (map (cons c_star) l) ++ hh.
Proof. rewrite frame_cons2. cbn [map concat app]. rewrite <- ?app_assoc. reflexivity. Qed.

Ltac inv_lang :=
  repeat match goal with
  | H : exists _, _ |- _ => destruct H
  | H : _ /\ _ |- _ => destruct H
  | H : lang (Cat _ _) _ |- _ => apply lang_Cat in H
  | H : lang (Chr _) _ |- _ => apply lang_Chr in H
  | H : lang (Lit _) _ |- _ => apply lang_Lit in H
  | H : lang R_who _ |- _ => apply lang_who in H
  | H : lang R_seg _ |- _ => apply lang_seg in H
  | H : lang R_digits _ |- _ => apply lang_digits in H
  | H : lang R_vals _ |- _ => apply lang_vals in H
  end; subst.

Ltac cat a := apply lang_Cat; exists a; eexists; split; [reflexivity|split].

Ltac lsolve :=
  first [ apply lang_Lit; reflexivity | apply lang_Chr; reflexivity
        | apply lang_who; split; assumption | apply lang_seg; assumption
        | apply lang_digits; assumption ].

Definition sp_dimreq (l : list str) : Prop :=
  exists w a d, l = [c_hash :: w; a; d] /\ w <> [] /\ all_digits d = true.
Definition sp_dimwri (l : list str) : Prop :=
  exists w a d vs, l = (c_hash :: w) :: a :: (c_hash :: d) :: vs /\ w <> [] /\ all_digits d = true.
Definition sp_dimres (l : list str) : Prop :=
  exists w a d vs, l = (c_hash :: w) :: a :: d :: vs /\ w <> [].
Definition sp_normal (l : list str) : Prop :=
  exists w a b, l = [w; a; b] /\ w <> [].
Definition sp_status (l : list str) : Prop :=
  exists w a, l = [c_hash :: w; a] /\ w <> [].

Section PerClass.
  Variable l : list str.
  Hypothesis NE : l <> [].
  Hypothesis V : valid_tags l.

  Lemma lang_frame_ack : lang R_ack (frame l) <-> l = [lit "#"; lit "1"].
  Proof.
    unfold R_ack. rewrite lang_Lit. change (lit "*#*1##") with (frame [lit "#"; lit "1"]). split.
    - intros E. apply frame_inj in E; auto; [discriminate|repeat constructor].
    - intros ->. reflexivity.
  Qed.

  Lemma lang_frame_nack : lang R_nack (frame l) <-> l = [lit "#"; lit "0"].
  Proof.
    unfold R_nack. rewrite lang_Lit. change (lit "*#*0##") with (frame [lit "#"; lit "0"]). split.
    - intros E. apply frame_inj in E; auto; [discriminate|repeat constructor].
    - intros ->. reflexivity.
  Qed.

  Ltac finish E :=
    apply frame_inj in E; [|exact NE|discriminate|exact V|
      repeat (first [assumption|constructor]); auto using all_digits_valid].

  Lemma lang_frame_dimreq : lang R_dimreq (frame l) <-> sp_dimreq l.
  Proof.
    unfold R_dimreq, Seq, sp_dimreq. split.
    - intros H. inv_lang.
      match goal with E : frame l = _ ++ ?w ++ _ ++ ?a ++ _ ++ ?d ++ _ |- _ =>
        assert (E' : frame l = frame [c_hash :: w; a; d])
          by (rewrite E, frame_3; cbn [map concat app lit]; rewrite ?app_nil_r; reflexivity);
        finish E'; exists w, a, d; auto end.
    - intros (w & a & d & -> & N & D). inversion V as [|? ? V0 V1]; subst. inversion V1; subst.
      rewrite valid_hash_cons in V0. rewrite frame_3. cbn [map concat app].
      change (c_star :: c_hash :: w ++ c_star :: a ++ c_star :: d ++ hh)
        with (lit "*#" ++ w ++ [c_star] ++ a ++ [c_star] ++ d ++ hh).
      cat (lit "*#"); [lsolve|]. cat w; [lsolve|]. cat [c_star]; [lsolve|]. cat a; [lsolve|].
      cat [c_star]; [lsolve|]. cat d; lsolve.
  Qed.

  Lemma lang_frame_dimwri : lang R_dimwri (frame l) <-> sp_dimwri l.
  Proof.
    unfold R_dimwri, Seq, sp_dimwri. split.
    - intros H. inv_lang.
      match goal with E : frame l = _ ++ ?w ++ _ ++ ?a ++ _ ++ ?d ++ concat (map _ ?vs) ++ _ |- _ =>
        assert (E' : frame l = frame ((c_hash :: w) :: a :: (c_hash :: d) :: vs))
          by (rewrite E, frame_3; reflexivity);
        apply frame_inj in E'; [|exact NE|discriminate|exact V|];
        [exists w, a, d, vs; auto|]
      end.
      repeat constructor; auto. rewrite valid_hash_cons. auto using all_digits_valid.
    - intros (w & a & d & vs & -> & N & D). inversion V as [|? ? V0 V1]; subst.
      inversion V1 as [|? ? V2 V3]; subst. inversion V3 as [|? ? V4 V5]; subst.
      rewrite valid_hash_cons in V0. rewrite frame_3.
      change (c_star :: (c_hash :: w) ++ c_star :: a ++ c_star :: (c_hash :: d) ++ concat (map (cons c_star) vs) ++ hh)
        with (lit "*#" ++ w ++ [c_star] ++ a ++ lit "*#" ++ d ++ concat (map (cons c_star) vs) ++ hh).
      cat (lit "*#"); [lsolve|]. cat w; [lsolve|]. cat [c_star]; [lsolve|]. cat a; [lsolve|].
      cat (lit "*#"); [lsolve|]. cat d; [lsolve|]. cat (concat (map (cons c_star) vs)); [|lsolve].
      apply lang_vals. exists vs. auto.
  Qed.

  Lemma lang_frame_dimres : lang R_dimres (frame l) <-> sp_dimres l.
  Proof.
    unfold R_dimres, Seq, sp_dimres. split.
    - intros H. inv_lang.
      match goal with E : frame l = _ ++ ?w ++ _ ++ ?a ++ _ ++ ?d ++ concat (map _ ?vs) ++ _ |- _ =>
        assert (E' : frame l = frame ((c_hash :: w) :: a :: d :: vs))
          by (rewrite E, frame_3; reflexivity);
        apply frame_inj in E'; [|exact NE|discriminate|exact V|];
        [exists w, a, d, vs; auto|]
      end.
      repeat constructor; auto.
    - intros (w & a & d & vs & -> & N). inversion V as [|? ? V0 V1]; subst.
      inversion V1 as [|? ? V2 V3]; subst. inversion V3 as [|? ? V4 V5]; subst.
      rewrite valid_hash_cons in V0. rewrite frame_3.
      change (c_star :: (c_hash :: w) ++ c_star :: a ++ c_star :: d ++ concat (map (cons c_star) vs) ++ hh)
        with (lit "*#" ++ w ++ [c_star] ++ a ++ [c_star] ++ d ++ concat (map (cons c_star) vs) ++ hh).
      cat (lit "*#"); [lsolve|]. cat w; [lsolve|]. cat [c_star]; [lsolve|]. cat a; [lsolve|].
      cat [c_star]; [lsolve|]. cat d; [lsolve|]. cat (concat (map (cons c_star) vs)); [|lsolve].
      apply lang_vals. exists vs. auto.
  Qed.

  Lemma lang_frame_normal : lang R_normal (frame l) <-> sp_normal l.
  Proof.
    unfold R_normal, Seq, sp_normal. split.
    - intros H. inv_lang.
      match goal with E : frame l = _ ++ ?w ++ _ ++ ?a ++ _ ++ ?d ++ _ |- _ =>
        assert (E' : frame l = frame [w; a; d])
          by (rewrite E, frame_3; reflexivity);
        apply frame_inj in E'; [|exact NE|discriminate|exact V|];
        [exists w, a, d; auto|]
      end.
      repeat constructor; auto.
    - intros (w & a & d & -> & N). inversion V as [|? ? V0 V1]; subst.
      inversion V1 as [|? ? V2 V3]; subst. inversion V3 as [|? ? V4 V5]; subst.
      rewrite frame_3. cbn [map concat app].
      change (c_star :: w ++ c_star :: a ++ c_star :: d ++ hh)
        with ([c_star] ++ w ++ [c_star] ++ a ++ [c_star] ++ d ++ hh).
      cat [c_star]; [lsolve|]. cat w; [lsolve|]. cat [c_star]; [lsolve|]. cat a; [lsolve|].
      cat [c_star]; [lsolve|]. cat d; lsolve.
  Qed.

  Lemma lang_frame_status : lang R_status (frame l) <-> sp_status l.
  Proof.
    unfold R_status, Seq, sp_status. split.
    - intros H. inv_lang.
      match goal with E : frame l = _ ++ ?w ++ _ ++ ?a ++ _ |- _ =>
        assert (E' : frame l = frame [c_hash :: w; a])
          by (rewrite E, frame_2; reflexivity);
        apply frame_inj in E'; [|exact NE|discriminate|exact V|];
        [exists w, a; auto|]
      end.
      repeat constructor; auto.
    - intros (w & a & -> & N). inversion V as [|? ? V0 V1]; subst.
      inversion V1 as [|? ? V2 V3]; subst. rewrite valid_hash_cons in V0.
      rewrite frame_2.
      change (c_star :: (c_hash :: w) ++ c_star :: a ++ hh)
        with (lit "*#" ++ w ++ [c_star] ++ a ++ hh).
      cat (lit "*#"); [lsolve|]. cat w; [lsolve|]. cat [c_star]; [lsolve|]. cat a; lsolve.
  Qed.
End PerClass.
