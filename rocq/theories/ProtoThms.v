(** * Theorems about the receiving side *)
From Coq Require Import String List NArith ZArith Bool Lia.
From Verif Require Import PyStr Regex Tags Messages MessageFacts SpecMsg MessageThms MessageThms2 MessageThms3 Protocol SpecProto.
Import ListNotations.
Open Scope N_scope.
Open Scope list_scope.

(** ** Splitting on the terminator *)

Lemma split_hh_cons2 c d r :
  split_hh (c :: d :: r) =
  if (c =? c_hash) && (d =? c_hash) then [] :: split_hh r else cons_hd c (split_hh (d :: r)).
Proof. reflexivity. Qed.

Lemma split_hh_not_nil s : split_hh s <> [].
Proof.
  induction s as [s IH] using list_len_ind. destruct s as [|c [|d r]]; try discriminate.
  rewrite split_hh_cons2. destruct (_ && _); [discriminate|].
  specialize (IH (d :: r) ltac:(cbn; lia)). destruct (split_hh (d :: r)); [congruence|discriminate].
Qed.

Lemma clean_tail c p : clean (c :: p) -> p <> [] -> clean p.
Proof.
  intros [H1 H2] N. split.
  - intros (u & v & ->). apply H1. exists (c :: u), v. reflexivity.
  - intros (u & ->). apply H2. exists (c :: u). reflexivity.
Qed.

Lemma split_hh_clean p z : clean p -> split_hh (p ++ [35; 35] ++ z) = p :: split_hh z.
Proof.
  induction p as [|c p IH]; intros C.
  - reflexivity.
  - destruct p as [|d p].
    + cbn [app]. rewrite split_hh_cons2.
      destruct (c =? c_hash) eqn:E.
      * exfalso. apply N.eqb_eq in E. subst. apply (proj2 C). exists []. reflexivity.
      * reflexivity.
    + cbn [app]. rewrite split_hh_cons2.
      assert (E : (c =? c_hash) && (d =? c_hash) = false).
      { destruct (_ && _) eqn:E; [|reflexivity]. exfalso. apply andb_true_iff in E as [E1 E2].
        apply N.eqb_eq in E1, E2. subst. apply (proj1 C). exists [], p. reflexivity. }
      rewrite E. specialize (IH (clean_tail _ _ C ltac:(discriminate))).
      cbn [app] in IH. rewrite IH. reflexivity.
Qed.

Lemma split_hh_frames ps z : Forall clean ps -> split_hh (frames ps ++ z) = ps ++ split_hh z.
Proof.
  intros H. induction H as [|p ps Hp H IH]; [reflexivity|].
  unfold frames in *. cbn [map concat]. rewrite <- !app_assoc. rewrite split_hh_clean by exact Hp.
  cbn [app]. rewrite IH. reflexivity.
Qed.

Lemma split_hh_nohh s : ~ has_hh s -> split_hh s = [s].
Proof.
  induction s as [s IH] using list_len_ind. intros H. destruct s as [|c [|d r]]; try reflexivity.
  rewrite split_hh_cons2.
  assert (E : (c =? c_hash) && (d =? c_hash) = false).
  { destruct (_ && _) eqn:E; [|reflexivity]. exfalso. apply andb_true_iff in E as [E1 E2].
    apply N.eqb_eq in E1, E2. subst. apply H. exists [], r. reflexivity. }
  rewrite E, IH; [reflexivity|cbn; lia|]. intros (u & v & X). apply H. exists (c :: u), v. rewrite X. reflexivity.
Qed.

(** ** Bodies of messages *)

Lemma wf_body m :
  wellformed m -> exists b, msg_str m = 42 :: b ++ [35; 35] /\ Forall wirechar b /\ ~ has_hh b.
Proof.
  intros W. pose proof (wf_ptags m W) as P. apply wiretags in P as [V C].
  pose proof (ptags_not_nil m) as N.
  exists (join c_star (ptags m)). rewrite msg_str_frame. split; [reflexivity|]. split.
  - apply Forall_forall. intros c Hc. apply wirechar_body.
    pose proof (proj2 (body_tags (join c_star (ptags m)))) as B.
    rewrite split_join in B by auto using valid_tags_nostar.
    specialize (B V). rewrite forallb_forall in B. apply B, Hc.
  - apply has_hh_count. apply count_hh_join; auto.
Qed.

Lemma star_nohh b : ~ has_hh b -> ~ has_hh (42 :: b).
Proof.
  intros H (u & v & E). destruct u as [|x u]; [discriminate|]. injection E as _ E. apply H. exists u, v. exact E.
Qed.

Lemma streamable_body m :
  streamable m -> exists b, msg_str m = 42 :: b ++ [35; 35] /\ Forall wirechar b /\ clean (42 :: b).
Proof.
  intros [W NE]. destruct (wf_body m W) as (b & E & B & H). exists b. split; [exact E|]. split; [exact B|].
  split; [apply star_nohh, H|]. intros (u & X). apply NE. exists u. rewrite E.
  change (42 :: b ++ [35; 35]) with ((42 :: b) ++ [35; 35]). rewrite X, <- app_assoc. reflexivity.
Qed.

Lemma white_app_clean w p : white w -> (exists c q, p = c :: q) -> clean p -> clean (w ++ p).
Proof.
  intros Hw (c & q & ->) [H1 H2]. split.
  - rewrite has_hh_count in *. rewrite count_hh_nohash_l; [exact H1|].
    intros X. unfold white in Hw. rewrite Forall_forall in Hw. apply Hw in X. discriminate.
  - intros (u & E). apply H2. destruct (exists_last (l := c :: q) ltac:(discriminate)) as (q' & a & Eq).
    rewrite Eq in *. rewrite app_assoc in E. apply app_inj_tail in E as [_ ->]. exists q'. reflexivity.
Qed.

(** ** One packet *)

Lemma decode_ascii_ok s : Forall (fun c => c < 128) s -> decode_ascii s = Ok s.
Proof.
  intros H. unfold decode_ascii. replace (forallb (fun c => c <? 128) s) with true; [reflexivity|].
  symmetry. apply forallb_forall. intros c Hc. rewrite Forall_forall in H. apply N.ltb_lt, H, Hc.
Qed.

Lemma wirechar_ascii s : Forall wirechar s -> Forall (fun c => c < 128) s.
Proof. intros H. eapply Forall_impl; [|exact H]. intros c Hc. unfold wirechar, tagchar in Hc. lia. Qed.

Lemma msg_str_ascii m : wellformed m -> Forall (fun c => c < 128) (msg_str m).
Proof. intros W. apply wirechar_ascii. apply bytes_ok. apply wf_built, W. Qed.

Lemma parse_white m w : wellformed m -> white w -> parse_message (w ++ msg_str m) = Ok m.
Proof.
  intros W Hw. apply parse_ok_iff. exists (ptags m). split; [|apply wf_denotes, W].
  split; [apply ptags_not_nil|]. split; [apply wf_ptags, W|].
  exists w, []. repeat split; [exact Hw|constructor|]. rewrite app_nil_r, msg_str_wire. reflexivity.
Qed.

(** Stripping the text of a packet. *)
Lemma strip_packet w m l tail :
  white w -> wellformed m -> Forall (fun p => wellformed (snd p)) l -> white tail ->
  strip (packet_text ((w, m) :: l) tail) = packet_text (([], m) :: l) [].
Proof.
  intros Hw Wm Wl Ht. unfold packet_text. cbn [map concat fst snd app].
  rewrite app_nil_r. rewrite <- !app_assoc.
  rewrite app_assoc with (l := msg_str m). apply strip_surround.
  - apply white_space, Hw.
  - apply white_space, Ht.
  - destruct (wf_body m Wm) as (b & E & _). unfold stripped. rewrite E. split; [reflexivity|].
    assert (X : exists z, (42 :: b ++ [35; 35]) ++ concat (map (fun p => fst p ++ msg_str (snd p)) l) = z ++ [35]).
    { clear -Wl. induction l as [|[w' m'] l _] using rev_ind.
      - exists (42 :: b ++ [35]). cbn [map concat]. rewrite app_nil_r. cbn [app]. rewrite <- app_assoc. reflexivity.
      - rewrite map_app, concat_app. cbn [map concat fst snd]. rewrite app_nil_r.
        assert (W' : wellformed m') by (rewrite Forall_app in Wl; destruct Wl as [_ Wl]; inversion Wl; assumption).
        destruct (wf_body m' W') as (b' & -> & _).
        exists ((42 :: b ++ [35; 35]) ++ concat (map (fun p => fst p ++ msg_str (snd p)) l) ++ w' ++ 42 :: b' ++ [35]).
        rewrite <- !app_assoc. cbn [app]. rewrite <- !app_assoc. cbn [app]. rewrite <- ?app_assoc. reflexivity. }
    destruct X as (z & ->). rewrite rev_app_distr. reflexivity.
Qed.

Definition piece (p : str * msg) : str := fst p ++ removesuffix hh (msg_str (snd p)).

Lemma packet_frames l :
  Forall (fun p => streamable (snd p)) l -> packet_text l [] = frames (map piece l).
Proof.
  intros H. unfold packet_text. rewrite app_nil_r. unfold frames. f_equal. rewrite map_map.
  induction H as [|[w m] l Hm H IH]; [reflexivity|]. cbn [map]. f_equal; [|exact IH].
  unfold piece. cbn [fst snd]. destruct (streamable_body m Hm) as (b & E & _). cbn [snd] in Hm. rewrite E.
  change (42 :: b ++ [35; 35]) with ((42 :: b) ++ hh). rewrite removesuffix_app, <- app_assoc. reflexivity.
Qed.

Lemma pieces_clean l :
  Forall (fun p => white (fst p) /\ streamable (snd p)) l -> Forall clean (map piece l).
Proof.
  intros H. induction H as [|[w m] l [Hw Hm] H IH]; [constructor|]. cbn [map]. constructor; [|exact IH].
  cbn [fst snd] in *. unfold piece. cbn [fst snd]. destruct (streamable_body m Hm) as (b & E & B & C). rewrite E.
  change (42 :: b ++ [35; 35]) with ((42 :: b) ++ hh). rewrite removesuffix_app.
  apply white_app_clean; eauto.
Qed.

Lemma pieces_parse l :
  Forall (fun p => white (fst p) /\ streamable (snd p)) l ->
  mapM (fun p => parse_message (p ++ hh)) (filter nonempty (map piece l)) = Ok (map snd l).
Proof.
  intros H. induction H as [|[w m] l [Hw Hm] H IH]; [reflexivity|]. cbn [map filter].
  assert (E : piece (w, m) ++ hh = w ++ msg_str m /\ nonempty (piece (w, m)) = true).
  { unfold piece. cbn [fst snd]. destruct (streamable_body m Hm) as (b & E & _). cbn [snd] in Hm. rewrite E.
    change (42 :: b ++ [35; 35]) with ((42 :: b) ++ hh). rewrite removesuffix_app, <- app_assoc.
    split; [reflexivity|]. destruct w; reflexivity. }
  destruct E as [E1 E2]. rewrite E2. cbn [mapM]. rewrite E1, parse_white; [|apply Hm|exact Hw].
  cbn [bind]. rewrite IH. reflexivity.
Qed.

Theorem packet_ok l tail :
  Forall (fun p => ascii_white (fst p) /\ streamable (snd p)) l -> ascii_white tail ->
  packet_messages (packet_text l tail) = Ok (map snd l).
Proof.
  intros H [Ht Ha]. unfold packet_messages.
  assert (A : Forall (fun c => c < 128) (packet_text l tail)).
  { unfold packet_text. apply Forall_app. split; [|exact Ha].
    induction H as [|[w m] l [[_ Hw] Hm] H IH]; [constructor|]. cbn [map concat fst snd].
    apply Forall_app. split; [|exact IH]. apply Forall_app. split; [exact Hw|]. apply msg_str_ascii, Hm. }
  rewrite decode_ascii_ok by exact A. cbn [bind].
  assert (H' : Forall (fun p => white (fst p) /\ streamable (snd p)) l).
  { eapply Forall_impl; [|exact H]. intros p [[X _] Y]. auto. }
  destruct l as [|[w m] l].
  - unfold packet_text. cbn [map concat app].
    assert (E : strip tail = []).
    { pose proof (strip_surround tail [] []) as S. rewrite !app_nil_r in S. apply S.
      - apply white_space, Ht.
      - reflexivity.
      - split; exact I. }
    rewrite E. reflexivity.
  - inversion H' as [|? ? [Hw Hm] Hl]; subst. cbn [fst snd] in *.
    rewrite strip_packet; [|exact Hw|apply Hm| |exact Ht].
    2:{ eapply Forall_impl; [|exact Hl]. intros p [_ [X _]]. exact X. }
    assert (H'' : Forall (fun p => white (fst p) /\ streamable (snd p)) (([], m) :: l))
      by (constructor; [split; [constructor|exact Hm]|exact Hl]).
    rewrite packet_frames by (eapply Forall_impl; [|exact H'']; intros p [_ X]; exact X).
    rewrite <- (app_nil_r (frames _)). rewrite split_hh_frames by (apply pieces_clean, H'').
    cbn [split_hh]. rewrite filter_app. cbn [filter nonempty]. rewrite app_nil_r.
    rewrite pieces_parse by exact H''. reflexivity.
Qed.

(** ** Sequences of packets *)

Lemma fold_app (ms q : list msg) : fold_left (fun q m => q ++ [m]) ms q = q ++ ms.
Proof.
  revert q. induction ms as [|m ms IH]; intros q; cbn [fold_left]; [rewrite app_nil_r; reflexivity|].
  rewrite IH, <- app_assoc. reflexivity.
Qed.

Lemma data_received_ok q data ms :
  packet_messages data = Ok ms -> data_received q data = (q ++ ms, None).
Proof. intros H. unfold data_received. rewrite H, fold_app. reflexivity. Qed.

Theorem feed_ok q (packets : list (list (str * msg) * str)) :
  Forall (fun p => Forall (fun p => ascii_white (fst p) /\ streamable (snd p)) (fst p) /\ ascii_white (snd p)) packets ->
  feed {| c_queue := q; c_open := true |} (map (fun p => packet_text (fst p) (snd p)) packets)
  = {| c_queue := q ++ concat (map (fun p => map snd (fst p)) packets); c_open := true |}.
Proof.
  intros H. revert q. induction H as [|[l t] ps [Hl Ht] H IH]; intros q.
  - cbn. rewrite app_nil_r. reflexivity.
  - cbn [map concat fst snd]. unfold feed. cbn [fold_left]. unfold deliver at 2. cbn [c_open c_queue].
    rewrite (data_received_ok _ _ _ (packet_ok l t Hl Ht)).
    change (fold_left deliver ?p ?c) with (feed c p). rewrite IH, <- app_assoc. reflexivity.
Qed.

Lemma feed_app c a b : feed c (a ++ b) = feed (feed c a) b.
Proof. unfold feed. apply fold_left_app. Qed.

Lemma feed_closed q ps : feed {| c_queue := q; c_open := false |} ps = {| c_queue := q; c_open := false |}.
Proof. induction ps as [|p ps IH]; [reflexivity|]. exact IH. Qed.

(** ** Leftmost cutting *)

Lemma short_nohh s : (length s < 2)%nat -> ~ has_hh s.
Proof. intros L (u & v & ->). rewrite app_length in L. cbn in L. lia. Qed.

Lemma cut_cons c d r ps :
  ~ (c = 35 /\ d = 35) -> cut (d :: r) ps -> cut (c :: d :: r) (cons_hd c ps).
Proof.
  intros N H. inversion H as [s Hs|p s ps' Hp Hc E]; subst; cbn [cons_hd].
  - apply cut_end. intros (u & v & E). destruct u as [|x u].
    + injection E as -> -> _. apply N. auto.
    + injection E as _ E. apply Hs. exists u, v. exact E.
  - destruct p as [|x p].
    + cbn [app] in E. injection E as <- <-. apply (cut_step [c] s ps'); [|exact Hc].
      intros (u & v & E). destruct u as [|y u].
      * injection E as -> _. apply N. auto.
      * cbn in E. injection E as _ E. apply (short_nohh [35]); [cbn; lia|]. exists u, v. exact E.
    + cbn [app] in E. injection E as -> <-. apply (cut_step (c :: d :: p) s ps'); [|exact Hc].
      intros (u & v & E). destruct u as [|y u].
      * cbn in E. injection E as -> -> _. apply N. auto.
      * cbn [app] in E. injection E as _ E. apply Hp. exists u, v. exact E.
Qed.

Lemma cut_split s : cut s (split_hh s).
Proof.
  induction s as [s IH] using list_len_ind. destruct s as [|c [|d r]].
  - apply cut_end, short_nohh. cbn. lia.
  - apply cut_end, short_nohh. cbn. lia.
  - rewrite split_hh_cons2. destruct (_ && _) eqn:E.
    + apply andb_true_iff in E as [E1 E2]. apply N.eqb_eq in E1, E2. subst.
      apply (cut_step [] r). { apply short_nohh. cbn. lia. }
      apply IH. cbn. lia.
    + apply cut_cons. { intros [-> ->]. discriminate. } apply IH. cbn. lia.
Qed.

Lemma split_hh_first p s : ~ has_hh (p ++ [35]) -> split_hh (p ++ [35; 35] ++ s) = p :: split_hh s.
Proof.
  intros H. apply split_hh_clean. split.
  - intros (u & v & ->). apply H. exists u, (v ++ [35]). rewrite <- !app_assoc. reflexivity.
  - intros (u & ->). apply H. exists u, []. rewrite <- app_assoc. reflexivity.
Qed.

Lemma cut_unique s ps : cut s ps -> ps = split_hh s.
Proof.
  intros H. induction H as [s H|p s ps Hp H IH].
  - symmetry. apply split_hh_nohh, H.
  - rewrite split_hh_first by exact Hp. rewrite IH. reflexivity.
Qed.

Theorem packet_iff data ms :
  packet_messages data = Ok ms <->
  Forall (fun c => c < 128) data /\
  exists w1 text w2 ps,
    data = w1 ++ text ++ w2 /\ white w1 /\ white w2 /\ stripped text /\ cut text ps /\
    Forall2 (fun p m => exists l, is_frame (p ++ [35; 35]) l /\ denotes l m)
            (filter (fun p => negb (str_eqb p [])) ps) ms.
Proof.
  assert (F : forall ps, filter (fun p => negb (str_eqb p [])) ps = filter nonempty ps).
  { intros ps. apply filter_ext. intros [|]; reflexivity. }
  assert (P : forall ps ms, Forall2 (fun p m => exists l, is_frame (p ++ [35; 35]) l /\ denotes l m) ps ms
                            <-> Forall2 (fun p m => parse_message (p ++ hh) = Ok m) ps ms).
  { intros ps ms'. split; intros H; induction H; constructor; auto; apply parse_ok_iff; assumption. }
  unfold packet_messages, decode_ascii. destruct (forallb (fun c => c <? 128) data) eqn:A; cbn [bind].
  - assert (A' : Forall (fun c => c < 128) data).
    { apply Forall_forall. intros c Hc. rewrite forallb_forall in A. apply N.ltb_lt, A, Hc. }
    rewrite mapM_ok, <- P, <- F. split.
    + intros H. split; [exact A'|]. destruct (strip_spec data) as (w1 & w2 & E & H1 & H2 & S).
      exists w1, (strip data), w2, (split_hh (strip data)). split; [exact E|].
      split; [apply white_space, H1|]. split; [apply white_space, H2|]. split; [exact S|].
      split; [apply cut_split|exact H].
    + intros [_ (w1 & text & w2 & ps & E & H1 & H2 & S & C & H)].
      assert (X : strip data = text).
      { rewrite E. apply strip_surround; [apply white_space, H1|apply white_space, H2|exact S]. }
      rewrite X. apply cut_unique in C. subst. exact H.
  - split; [discriminate|]. intros [H _]. exfalso.
    assert (X : forallb (fun c => c <? 128) data = true).
    { apply forallb_forall. intros c Hc. rewrite Forall_forall in H. apply N.ltb_lt, H, Hc. }
    congruence.
Qed.

(** ** All or nothing *)

Theorem data_received_all_or_nothing q data :
  (exists ms, packet_messages data = Ok ms /\ data_received q data = (q ++ ms, None)) \/
  (exists e, packet_messages data = Err e /\ data_received q data = (q, Some e)).
Proof.
  unfold data_received. destruct (packet_messages data) as [ms|e].
  - left. exists ms. rewrite fold_app. auto.
  - right. exists e. auto.
Qed.

Lemma mapM_errors {A B} (f : A -> res B) l e :
  mapM f l = Err e -> exists x, In x l /\ f x = Err e.
Proof.
  induction l as [|x l IH]; cbn [mapM]; [discriminate|].
  destruct (f x) as [y|e'] eqn:E; cbn [bind]; intros H.
  - destruct (mapM f l); cbn [bind] in H; [discriminate|]. injection H as ->.
    destruct (IH eq_refl) as (z & Hz & X). exists z. split; [right; exact Hz|exact X].
  - injection H as ->. exists x. split; [left; reflexivity|exact E].
Qed.

Theorem packet_errors data e :
  packet_messages data = Err e -> e = InvalidMessage \/ e = ValueError \/ e = UnicodeDecodeError.
Proof.
  unfold packet_messages, decode_ascii. destruct (forallb _ data); cbn [bind].
  - intros H. apply mapM_errors in H as (x & _ & H). apply parse_errors in H. tauto.
  - intros H. injection H as <-. auto.
Qed.

Lemma mapM_first {A B} (f : A -> res B) l e :
  mapM f l = Err e <-> exists l1 x l2, l = l1 ++ x :: l2 /\ (forall y, In y l1 -> exists b, f y = Ok b) /\ f x = Err e.
Proof.
  induction l as [|a l IH]; cbn [mapM].
  - split; [discriminate|]. intros (l1 & x & l2 & E & _). destruct l1; discriminate.
  - destruct (f a) as [b|e'] eqn:Fa; cbn [bind].
    + destruct (mapM f l) as [bs|e'] eqn:M; cbn [bind].
      * split; [discriminate|]. intros (l1 & x & l2 & E & O & X). destruct l1 as [|y l1]; injection E as -> ->; [congruence|].
        assert (Y : Ok bs = Err e) by (apply IH; exists l1, x, l2; split; [reflexivity|]; split; [intros z Hz; apply O; right; exact Hz|exact X]). discriminate.
      * split.
        { intros [= ->]. destruct (proj1 IH eq_refl) as (l1 & x & l2 & -> & O & X). exists (a :: l1), x, l2. split; [reflexivity|]. split; [|exact X].
          intros y [<-|Hy]; [eauto|]. apply O, Hy. }
        { intros (l1 & x & l2 & E & O & X). destruct l1 as [|y l1]; injection E as -> ->; [congruence|].
          apply IH. exists l1, x, l2. split; [reflexivity|]. split; [intros z Hz; apply O; right; exact Hz|exact X]. }
    + split.
      * intros [= ->]. exists [], a, l. split; [reflexivity|]. split; [intros y []|exact Fa].
      * intros (l1 & x & l2 & E & O & X). destruct l1 as [|y l1]; injection E as -> ->; [congruence|].
        destruct (O y (or_introl eq_refl)) as [b Hb]. congruence.
Qed.

(** Why a packet is refused: a byte that is not ASCII, or else its first piece
    that is not a frame of a known WHO. *)
Theorem packet_error_iff data e :
  packet_messages data = Err e <->
  (e = UnicodeDecodeError /\ exists c, In c data /\ 128 <= c) \/
  (Forall (fun c => c < 128) data /\
   exists w1 text w2 ps ps1 p ps2,
     data = w1 ++ text ++ w2 /\ white w1 /\ white w2 /\ stripped text /\ cut text ps /\
     filter (fun p => negb (str_eqb p [])) ps = ps1 ++ p :: ps2 /\
     (forall q, In q ps1 -> exists l m, is_frame (q ++ [35; 35]) l /\ denotes l m) /\
     ((e = InvalidMessage /\ forall l, ~ is_frame (p ++ [35; 35]) l) \/
      (e = ValueError /\ exists l x, is_frame (p ++ [35; 35]) l /\ who_text l x /\ ~ known_who x))).
Proof.
  assert (F : forall ps, filter (fun p => negb (str_eqb p [])) ps = filter nonempty ps).
  { intros ps. apply filter_ext. intros [|]; reflexivity. }
  assert (PE : forall s, parse_message s = Err e <->
     (e = InvalidMessage /\ forall l, ~ is_frame s l) \/ (e = ValueError /\ exists l x, is_frame s l /\ who_text l x /\ ~ known_who x)).
  { intros s. split.
    - intros H. destruct (parse_errors s e H) as [-> | ->].
      + left. split; [reflexivity|]. apply parse_invalid_iff, H.
      + right. split; [reflexivity|]. apply parse_value_error_iff, H.
    - intros [[-> H]|[-> H]]; [apply parse_invalid_iff; exact H|apply parse_value_error_iff; exact H]. }
  unfold packet_messages, decode_ascii. destruct (forallb (fun c => c <? 128) data) eqn:A; cbn [bind].
  - assert (A' : Forall (fun c => c < 128) data).
    { apply Forall_forall. intros c Hc. rewrite forallb_forall in A. apply N.ltb_lt, A, Hc. }
    rewrite mapM_first. split.
    + intros (ps1 & p & ps2 & E & O & X). right. split; [exact A'|]. destruct (strip_spec data) as (w1 & w2 & E1 & H1 & H2 & S).
      exists w1, (strip data), w2, (split_hh (strip data)), ps1, p, ps2. split; [exact E1|].
      split; [apply white_space, H1|]. split; [apply white_space, H2|]. split; [exact S|]. split; [apply cut_split|].
      rewrite F. split; [exact E|]. split; [|apply PE, X].
      intros q Hq. destruct (O q Hq) as [m M]. apply parse_ok_iff in M as (l & L1 & L2). exists l, m. auto.
    + intros [[_ (c & Hc & G)]|[_ (w1 & text & w2 & ps & ps1 & p & ps2 & E & H1 & H2 & S & C & Q & O & X)]].
      * rewrite Forall_forall in A'. specialize (A' c Hc). cbn in A'. lia.
      * assert (T : strip data = text) by (rewrite E; apply strip_surround; [apply white_space, H1|apply white_space, H2|exact S]).
        rewrite T. apply cut_unique in C. subst ps. rewrite F in Q. exists ps1, p, ps2. split; [exact Q|].
        split; [|apply PE, X]. intros q Hq. destruct (O q Hq) as (l & m & L1 & L2). exists m. apply parse_ok_iff. eauto.
  - assert (B : exists c, In c data /\ 128 <= c).
    { clear -A. induction data as [|c d IH]; [discriminate|]. cbn [forallb] in A. destruct (N.ltb_spec c 128).
      - destruct (IH A) as (x & Hx & G). exists x. split; [right; exact Hx|exact G].
      - exists c. split; [left; reflexivity|lia]. }
    split.
    + intros [= <-]. left. split; [reflexivity|exact B].
    + intros [[-> _]|[H _]]; [reflexivity|]. destruct B as (c & Hc & G). rewrite Forall_forall in H. specialize (H c Hc). cbn in H. lia.
Qed.

(** ** A bad frame *)

Definition texts (ms : list msg) : str := concat (map msg_str ms).

Lemma texts_packet ms : texts ms = packet_text (map (fun m => ([], m)) ms) [].
Proof. unfold texts, packet_text. rewrite app_nil_r, map_map. reflexivity. Qed.

Definition body (m : msg) : str := removesuffix hh (msg_str m).

Lemma texts_frames ms : Forall streamable ms -> texts ms = frames (map body ms) /\ Forall clean (map body ms).
Proof.
  intros H. rewrite texts_packet, packet_frames, map_map.
  - split; [reflexivity|].
    pose proof (pieces_clean (map (fun m => ([], m)) ms)) as P. rewrite map_map in P. apply P.
    apply Forall_map. eapply Forall_impl; [|exact H]. intros m Hm. split; [constructor|exact Hm].
  - apply Forall_map. exact H.
Qed.

Lemma frames_app a b : frames (a ++ b) = frames a ++ frames b.
Proof. unfold frames. rewrite map_app, concat_app. reflexivity. Qed.

Lemma frames_stripped ps :
  Forall clean ps -> Forall (fun p => exists c r, p = c :: r /\ is_space c = false) (firstn 1 ps) ->
  stripped (frames ps).
Proof.
  intros C H. destruct ps as [|p ps]; [split; exact I|].
  cbn [firstn] in H. inversion H as [|? ? (c & r & -> & Hc) _]; subst.
  unfold stripped. split; [cbn; exact Hc|].
  assert (X : exists z, frames ((c :: r) :: ps) = z ++ [35]).
  { destruct (exists_last (l := (c :: r) :: ps) ltac:(discriminate)) as (l & a & E). rewrite E, frames_app.
    exists (frames l ++ a ++ [35]). unfold frames at 2. cbn [map concat]. rewrite app_nil_r, <- !app_assoc. reflexivity. }
  destruct X as (z & X). unfold str in *. rewrite X, rev_app_distr. reflexivity.
Qed.

Lemma strip_of_stripped s : stripped s -> strip s = s.
Proof. apply strip_id. Qed.

Lemma mapM_first_err {A B} (f : A -> res B) l1 x l2 e ys :
  mapM f l1 = Ok ys -> f x = Err e -> mapM f (l1 ++ x :: l2) = Err e.
Proof.
  revert ys. induction l1 as [|a l1 IH]; cbn [app mapM]; intros ys H E.
  - rewrite E. reflexivity.
  - destruct (f a); cbn [bind] in *; [|discriminate]. destruct (mapM f l1) eqn:M; [|discriminate].
    rewrite (IH _ eq_refl E). reflexivity.
Qed.

Definition bad (b : str) (e : exn) : Prop :=
  b <> [] /\ clean b /\ Forall (fun c => c < 128) b /\ stripped b /\ parse_message (b ++ [35; 35]) = Err e.

Lemma texts_ascii ms : Forall streamable ms -> Forall (fun c => c < 128) (texts ms).
Proof.
  intros H. unfold texts. induction H as [|m ms Hm H IH]; [constructor|]. cbn [map concat].
  apply Forall_app. split; [apply msg_str_ascii, Hm|exact IH].
Qed.

Lemma bodies_parse ms :
  Forall streamable ms -> mapM (fun p => parse_message (p ++ hh)) (filter nonempty (map body ms)) = Ok ms.
Proof.
  intros H. pose proof (pieces_parse (map (fun m => ([], m)) ms)) as P. rewrite !map_map in P.
  rewrite map_id in P. apply P. apply Forall_map. eapply Forall_impl; [|exact H]. intros m Hm.
  split; [constructor|exact Hm].
Qed.

Lemma body_star m : streamable m -> exists r, body m = 42 :: r.
Proof.
  intros H. unfold body. destruct (streamable_body m H) as (b & -> & _). exists b.
  change (42 :: b ++ [35; 35]) with ((42 :: b) ++ hh). apply removesuffix_app.
Qed.

Theorem bad_frame q ms1 b e ms2 :
  Forall streamable ms1 -> Forall streamable ms2 -> bad b e ->
  data_received q (texts ms1 ++ (b ++ [35; 35]) ++ texts ms2) = (q, Some e).
Proof.
  intros H1 H2 (N & C & A & S & P). unfold data_received, packet_messages.
  destruct (texts_frames ms1 H1) as [E1 C1]. destruct (texts_frames ms2 H2) as [E2 C2].
  rewrite decode_ascii_ok.
  2:{ apply Forall_app. split; [apply texts_ascii, H1|]. apply Forall_app. split; [|apply texts_ascii, H2].
      apply Forall_app. split; [exact A|repeat constructor]. }
  cbn [bind].
  assert (E : texts ms1 ++ (b ++ [35; 35]) ++ texts ms2 = frames (map body ms1 ++ b :: map body ms2)).
  { rewrite E1, E2, frames_app. reflexivity. }
  assert (CC : Forall clean (map body ms1 ++ b :: map body ms2))
    by (apply Forall_app; split; [exact C1|constructor; [exact C|exact C2]]).
  rewrite E. rewrite strip_of_stripped.
  2:{ apply frames_stripped; [exact CC|]. destruct H1 as [|m ms1 Hm H1].
      - cbn. constructor; [|constructor]. destruct b as [|c r]; [congruence|]. exists c, r. split; [reflexivity|].
        apply S.
      - cbn. constructor; [|constructor]. destruct (body_star m Hm) as (r & ->). exists 42, r. auto. }
  rewrite <- (app_nil_r (frames _)), split_hh_frames by exact CC. cbn [split_hh].
  rewrite !filter_app. cbn [filter]. assert (NB : nonempty b = true) by (destruct b; [congruence|reflexivity]). rewrite NB.
  cbn [nonempty]. rewrite app_nil_r.
  rewrite (mapM_first_err _ _ b _ e ms1); [reflexivity|apply bodies_parse, H1|exact P].
Qed.

Theorem bad_frame_closes q ms1 b e ms2 later :
  Forall streamable ms1 -> Forall streamable ms2 -> bad b e ->
  feed {| c_queue := q; c_open := true |} ((texts ms1 ++ (b ++ [35; 35]) ++ texts ms2) :: later)
  = {| c_queue := q; c_open := false |}.
Proof.
  intros H1 H2 B. unfold feed. cbn [fold_left]. unfold deliver at 2. cbn [c_open c_queue].
  rewrite (bad_frame q ms1 b e ms2 H1 H2 B). apply feed_closed.
Qed.

(** ** A frame cut by TCP *)

Lemma packet_one s :
  s <> [] -> Forall (fun c => c < 128) s -> stripped s -> ~ has_hh s ->
  forall ms, packet_messages s = Ok ms -> exists m, ms = [m].
Proof.
  intros N A S H ms P. unfold packet_messages in P. rewrite decode_ascii_ok in P by exact A.
  cbn [bind] in P. rewrite strip_of_stripped in P by exact S. rewrite split_hh_nohh in P by exact H.
  cbn [filter] in P. assert (NB : nonempty s = true) by (destruct s; [congruence|reflexivity]). rewrite NB in P.
  cbn [mapM] in P. destruct (parse_message (s ++ hh)); cbn [bind] in P; [|discriminate]. injection P as <-. eauto.
Qed.

Lemma packet_one' s :
  s <> [] -> Forall (fun c => c < 128) s -> stripped (s ++ [35; 35]) -> clean s ->
  forall ms, packet_messages (s ++ [35; 35]) = Ok ms -> exists m, ms = [m].
Proof.
  intros N A S H ms P. unfold packet_messages in P.
  rewrite decode_ascii_ok in P by (apply Forall_app; split; [exact A|repeat constructor]).
  cbn [bind] in P. rewrite strip_of_stripped in P by exact S.
  rewrite <- (app_nil_r (s ++ _)), <- app_assoc in P. rewrite split_hh_clean in P by exact H.
  cbn [filter split_hh nonempty] in P. assert (NB : nonempty s = true) by (destruct s; [congruence|reflexivity]). rewrite NB in P.
  cbn [mapM] in P. destruct (parse_message (s ++ hh)); cbn [bind] in P; [|discriminate]. injection P as <-. eauto.
Qed.

Lemma wirechar_nospace c : wirechar c -> is_space c = false.
Proof.
  intros H. unfold wirechar, tagchar, digitchar in H. destruct (is_space c) eqn:E; [|reflexivity]. exfalso.
  unfold is_space in E. repeat (apply orb_true_iff in E as [E|E]);
    rewrite ?andb_true_iff, ?N.eqb_eq, ?N.leb_le in E; lia.
Qed.

Lemma wire_stripped s : Forall wirechar s -> stripped s.
Proof.
  intros H. unfold stripped. split.
  - destruct H; [exact I|]. apply wirechar_nospace. assumption.
  - apply Forall_rev in H. destruct H; [exact I|]. apply wirechar_nospace. assumption.
Qed.

Lemma clean_app_r a b : clean (a ++ b) -> b <> [] -> clean b.
Proof.
  intros [H1 H2] N. split.
  - intros (u & v & ->). apply H1. exists (a ++ u), v. rewrite <- !app_assoc. reflexivity.
  - intros (u & ->). apply H2. exists (a ++ u). rewrite <- app_assoc. reflexivity.
Qed.

Lemma nohh_app_l a b : ~ has_hh (a ++ b) -> ~ has_hh a.
Proof. intros H (u & v & ->). apply H. exists u, (v ++ b). rewrite <- !app_assoc. reflexivity. Qed.

Lemma feed2 u v q :
  feed fresh [u; v] = {| c_queue := q; c_open := true |} ->
  exists ms1 ms2, packet_messages u = Ok ms1 /\ packet_messages v = Ok ms2 /\ q = ms1 ++ ms2.
Proof.
  unfold feed, fresh. cbn [fold_left]. unfold deliver at 2. cbn [c_open c_queue].
  unfold data_received at 1. destruct (packet_messages u) as [ms1|e1].
  - rewrite fold_app. unfold deliver. cbn [c_open c_queue]. unfold data_received.
    destruct (packet_messages v) as [ms2|e2]; [|discriminate]. rewrite fold_app. intros H. injection H as <-.
    exists ms1, ms2. auto.
  - discriminate.
Qed.

Lemma wire35 : wirechar 35.
Proof. left. unfold tagchar. lia. Qed.
Lemma wire42 : wirechar 42.
Proof. right. reflexivity. Qed.

Lemma two_app (l : str) y v :
  [35; 35] = l ++ y :: v -> l = [] /\ y :: v = [35; 35] \/ l = [35] /\ y :: v = [35].
Proof.
  destruct l as [|a [|b [|c l]]]; cbn [app]; intros H.
  - left. split; [reflexivity|symmetry; exact H].
  - right. injection H as <- <- <-. split; reflexivity.
  - discriminate.
  - discriminate.
Qed.

Theorem cut_frame m u v :
  streamable m -> msg_str m = u ++ v ->
  (feed fresh [u; v] = {| c_queue := [m]; c_open := true |} <-> u = [] \/ v = [] \/ v = [35; 35]).
Proof.
  intros H E. destruct (streamable_body m H) as (b & Eb & B & C).
  assert (PM : packet_messages (msg_str m) = Ok [m]).
  { pose proof (packet_ok [([], m)] []) as P. unfold packet_text in P. cbn [map concat fst snd app] in P.
    rewrite !app_nil_r in P. apply P; [|split; constructor].
    constructor; [|constructor]. split; [split; constructor|exact H]. }
  assert (P0 : packet_messages [] = Ok []) by reflexivity.
  assert (WB : Forall wirechar (42 :: b)) by (constructor; [apply wire42|exact B]).
  split.
  - intros F. apply feed2 in F as (ms1 & ms2 & P1 & P2 & Q).
    destruct u as [|x u]; [auto|]. destruct v as [|y v]; [auto|]. right. right.
    rewrite Eb in E. change (42 :: b ++ [35; 35]) with ((42 :: b) ++ [35; 35]) in E.
    assert (L : (exists m2, ms2 = [m2]) \/ y :: v = [35; 35]).
    { destruct (app_eq_app _ _ _ _ E) as (l & [[E1 E2]|[E1 E2]]).
      - destruct l as [|z l]; [right; cbn in E2; congruence|]. left.
        rewrite E2 in P2. eapply packet_one'; [| | | |exact P2].
        + discriminate.
        + apply wirechar_ascii. rewrite E1 in WB. apply Forall_app in WB. apply WB.
        + apply wire_stripped. rewrite E1 in WB. apply Forall_app in WB. apply Forall_app. split; [apply WB|].
          repeat constructor; apply wire35.
        + rewrite E1 in C. eapply clean_app_r; [exact C|discriminate].
      - apply two_app in E2 as [[-> E2]|[-> E2]]; [right; exact E2|]. exfalso.
        rewrite E2 in P2. vm_compute in P2. discriminate. }
    destruct L as [(m2 & ->)|L]; [|exact L]. exfalso.
    assert (L1 : exists m1, ms1 = [m1]).
    { destruct (app_eq_app _ _ _ _ E) as (l & [[E1 E2]|[E1 E2]]).
      - eapply packet_one; [| | | |exact P1].
        + discriminate.
        + apply wirechar_ascii. rewrite E1 in WB. apply Forall_app in WB. apply WB.
        + apply wire_stripped. rewrite E1 in WB. apply Forall_app in WB. apply WB.
        + destruct C as [C _]. rewrite E1 in C. eapply nohh_app_l, C.
      - apply two_app in E2 as [[-> E2]|[-> E2]].
        { rewrite app_nil_r in E1. rewrite E1 in P1. eapply packet_one; [| | | |exact P1].
          + discriminate.
          + apply wirechar_ascii, WB.
          + apply wire_stripped, WB.
          + apply C. }
        rewrite E2 in P2. vm_compute in P2. discriminate. }
    destruct L1 as (m1 & ->). discriminate.
  - assert (OK : forall ms1 ms2, packet_messages u = Ok ms1 -> packet_messages v = Ok ms2 ->
                 feed fresh [u; v] = {| c_queue := ms1 ++ ms2; c_open := true |}).
    { intros ms1 ms2 P1 P2. unfold feed, fresh. cbn [fold_left]. unfold deliver at 2. cbn [c_open c_queue].
      rewrite (data_received_ok _ _ _ P1). unfold deliver. cbn [c_open c_queue].
      rewrite (data_received_ok _ _ _ P2). reflexivity. }
    intros [->|[->| ->]].
    + apply (OK [] [m]); [reflexivity|]. cbn in E. rewrite <- E. exact PM.
    + apply (OK [m] []); [|reflexivity]. rewrite app_nil_r in E. rewrite <- E. exact PM.
    + apply (OK [m] []); [|reflexivity]. rewrite Eb in E. change (42 :: b ++ [35; 35]) with ((42 :: b) ++ [35; 35]) in E.
      apply app_inv_tail in E. rewrite <- E. unfold packet_messages.
      rewrite decode_ascii_ok by (apply wirechar_ascii, WB). cbn [bind].
      rewrite strip_of_stripped by (apply wire_stripped, WB). rewrite split_hh_nohh by apply C.
      cbn [filter nonempty mapM]. change ((42 :: b) ++ hh) with (42 :: b ++ [35; 35]). rewrite <- Eb.
      rewrite (print_parse m (proj1 H)). reflexivity.
Qed.

(** Every message of a list is delivered whatever the segmentation at frame
    boundaries; the same stream cut elsewhere is not. *)

(** ** A last tag that ends with '#' *)

Theorem trailing_hash m q :
  wellformed m -> (exists u, msg_str m = u ++ [35; 35; 35]) ->
  exists e, data_received q (msg_str m) = (q, Some e).
Proof.
  intros W (u & E). destruct (wf_body m W) as (b & Eb & B & H).
  assert (Eu : 42 :: b = u ++ [35]).
  { rewrite Eb in E. change (42 :: b ++ [35; 35]) with ((42 :: b) ++ [35; 35]) in E.
    change (u ++ [35; 35; 35]) with (u ++ [35] ++ [35; 35]) in E. rewrite app_assoc in E.
    apply app_inv_tail in E. exact E. }
  assert (S : split_hh (msg_str m) = [u; [35]]).
  { rewrite E. change [35; 35; 35] with ([35; 35] ++ [35]). rewrite split_hh_first; [reflexivity|].
    rewrite <- Eu. apply star_nohh, H. }
  unfold data_received, packet_messages. rewrite decode_ascii_ok by apply msg_str_ascii, W. cbn [bind].
  rewrite strip_of_stripped.
  2:{ apply wire_stripped, bytes_ok, wf_built, W. }
  rewrite S. cbn [filter nonempty]. destruct u as [|x u]; [injection Eu as X; discriminate|].
  cbn [nonempty mapM]. destruct (parse_message ((x :: u) ++ hh)) as [m'|e]; cbn [bind].
  - replace (parse_message ([35] ++ hh)) with (@Err msg InvalidMessage) by (vm_compute; reflexivity).
    exists InvalidMessage. reflexivity.
  - exists e. reflexivity.
Qed.

(** ** A cut inside an address delivers a command for another address *)

Lemma packet_cut_end m :
  streamable m -> packet_messages (removesuffix hh (msg_str m)) = Ok [m].
Proof.
  intros H. destruct (streamable_body m H) as (b & Eb & B & C).
  pose proof (cut_frame m (42 :: b) [35; 35] H) as [_ X]. { rewrite Eb. reflexivity. }
  specialize (X (or_intror (or_intror eq_refl))). apply feed2 in X as (ms1 & ms2 & P1 & P2 & E).
  injection P2 as <-. rewrite app_nil_r in E. subst.
  rewrite Eb. change (42 :: b ++ [35; 35]) with ((42 :: b) ++ hh). rewrite removesuffix_app. exact P1.
Qed.

Lemma digits_wire t : digits t -> Forall wirechar t.
Proof. intros H. eapply Forall_impl; [|exact H]. intros c Hc. left. unfold tagchar. auto. Qed.

Lemma digits_nohh t : digits t -> ~ has_hh t.
Proof.
  intros H (u & v & ->). unfold digits in H. rewrite Forall_forall in H.
  specialize (H 35). rewrite !in_app_iff in H. cbn in H. assert (X : digitchar 35) by tauto.
  unfold digitchar in X. lia.
Qed.

Lemma digits_noend t : digits t -> ~ ends_hash t.
Proof.
  intros H (u & ->). unfold digits in H. rewrite Forall_forall in H.
  specialize (H 35). rewrite !in_app_iff in H. cbn in H. assert (X : digitchar 35) by tauto.
  unfold digitchar in X. lia.
Qed.

Lemma digits_piece b : b <> [] -> digits b -> packet_messages (b ++ [35; 35]) = Err InvalidMessage.
Proof.
  intros N D. assert (C : clean b) by (split; [apply digits_nohh, D|apply digits_noend, D]).
  assert (W : Forall wirechar (b ++ [35; 35])).
  { apply Forall_app. split; [apply digits_wire, D|repeat constructor; apply wire35]. }
  unfold packet_messages. rewrite decode_ascii_ok by (apply wirechar_ascii, W). cbn [bind].
  rewrite strip_of_stripped by (apply wire_stripped, W).
  rewrite <- (app_nil_r (b ++ _)), <- app_assoc. rewrite split_hh_clean by exact C. cbn [split_hh filter nonempty].
  assert (NB : nonempty b = true) by (destruct b; [congruence|reflexivity]). rewrite NB. cbn [mapM].
  rewrite parse_message_noframe; [reflexivity|]. intros l F. apply is_frame_strip in F as (_ & _ & F).
  rewrite strip_of_stripped in F by (apply wire_stripped, W).
  destruct b as [|c b]; [congruence|]. unfold frame in F. injection F as F _.
  inversion D as [|? ? Dc _]; subst. unfold digitchar, c_star in Dc. lia.
Qed.

Lemma wiretag_digits t : digits t -> wiretag t.
Proof. intros D. split; [|apply digits_nohh, D]. eapply Forall_impl; [|exact D]. intros c Hc. left. exact Hc. Qed.

Lemma normal_streamable w what a : wiretag what -> digits a -> a <> [] -> streamable (MNormal w what a).
Proof.
  intros Hw D N. split.
  - split; [|exact I]. constructor; [exact Hw|]. constructor; [apply wiretag_digits, D|constructor].
  - intros (u & E). cbn [msg_str] in E. change [35; 35; 35] with ([35] ++ hh) in E. rewrite !app_assoc in E.
    apply app_inv_tail in E. destruct (exists_last N) as (a' & x & ->). rewrite app_assoc in E.
    apply app_inj_tail in E as [_ ->]. apply (digits_noend (a' ++ [35])); [exact D|exists a'; reflexivity].
Qed.

Theorem cut_address w what a b :
  wiretag what -> digits a -> digits b -> a <> [] -> b <> [] ->
  let sent := MNormal w what (a ++ b) in
  let u := removesuffix hh (msg_str (MNormal w what a)) in
  msg_str sent = u ++ b ++ [35; 35] /\
  feed fresh [u; b ++ [35; 35]] = {| c_queue := [MNormal w what a]; c_open := false |}.
Proof.
  intros Hw Da Db Na Nb sent u.
  assert (E : u = [c_star] ++ who_str w ++ [c_star] ++ what ++ [c_star] ++ a).
  { unfold u. cbn [msg_str]. rewrite !app_assoc. apply removesuffix_app. }
  split.
  - rewrite E. unfold sent. cbn [msg_str]. rewrite <- !app_assoc. reflexivity.
  - unfold feed, fresh. cbn [fold_left]. unfold deliver at 2. cbn [c_open c_queue].
    rewrite (data_received_ok [] u [MNormal w what a]).
    2:{ unfold u. apply packet_cut_end, normal_streamable; assumption. }
    unfold deliver. cbn [c_open c_queue]. unfold data_received. rewrite digits_piece by assumption. reflexivity.
Qed.

(** ** Segmentation at frame boundaries *)

Lemma texts_ok ms : Forall streamable ms -> packet_messages (texts ms) = Ok ms.
Proof.
  intros H. rewrite texts_packet, packet_ok.
  - rewrite map_map, map_id. reflexivity.
  - apply Forall_map. eapply Forall_impl; [|exact H]. intros m Hm. split; [split; constructor|exact Hm].
  - split; constructor.
Qed.

Lemma feed_texts q ps :
  Forall (Forall streamable) ps ->
  feed {| c_queue := q; c_open := true |} (map texts ps) = {| c_queue := q ++ concat ps; c_open := true |}.
Proof.
  intros H. revert q. induction H as [|p ps Hp H IH]; intros q.
  - cbn. rewrite app_nil_r. reflexivity.
  - cbn [map concat]. unfold feed. cbn [fold_left]. unfold deliver at 2. cbn [c_open c_queue].
    rewrite (data_received_ok _ _ _ (texts_ok p Hp)).
    change (fold_left deliver ?p ?c) with (feed c p). rewrite IH, <- app_assoc. reflexivity.
Qed.

Theorem feed_boundaries q (p1 p2 : list (list msg)) :
  Forall (Forall streamable) p1 -> Forall (Forall streamable) p2 -> concat p1 = concat p2 ->
  feed {| c_queue := q; c_open := true |} (map texts p1) = feed {| c_queue := q; c_open := true |} (map texts p2).
Proof. intros H1 H2 E. rewrite !feed_texts, E by assumption. reflexivity. Qed.

Theorem feed_open_iff q packets :
  c_open (feed {| c_queue := q; c_open := true |} packets) = true <->
  Forall (fun p => exists ms, packet_messages p = Ok ms) packets.
Proof.
  revert q. induction packets as [|p ps IH]; intros q.
  - split; [constructor|reflexivity].
  - unfold feed. cbn [fold_left]. unfold deliver at 2. cbn [c_open c_queue].
    destruct (data_received_all_or_nothing q p) as [(ms & P & E)|(e & P & E)]; rewrite E.
    + change (fold_left deliver ?p ?c) with (feed c p). rewrite IH. split.
      * intros H. constructor; eauto.
      * intros H. inversion H. assumption.
    + change (fold_left deliver ?p ?c) with (feed c p). rewrite feed_closed. cbn [c_open]. split; [discriminate|].
      intros H. inversion H as [|? ? (ms & X)]. congruence.
Qed.
