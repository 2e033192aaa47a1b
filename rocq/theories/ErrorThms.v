(** * What the exceptions carry: proofs *)
From Coq Require Import String List NArith ZArith Bool Lia.
From Verif Require Import PyStr Regex Tags Messages MessageFacts SpecMsg MessageThms SpecTag TagThms Protocol SpecProto ProtoThms Client HandshakeThms Items Energy
  SpecEnergy EnergyThms EnergyThms3 Dispatch ParseThms Errors SpecErrors.
Import ListNotations.
Open Scope N_scope.
Open Scope list_scope.

(** ** Erasure *)

Lemma forget_bind {A B} (r : xres A) (f : A -> xres B) (g : A -> res B) :
  (forall a, forget (f a) = g a) -> forget (xbind r f) = bind (forget r) g.
Proof. intros H. destruct r; cbn; auto. Qed.

Lemma forget_plain {A} (r : res A) : forget (plain r) = r.
Proof. destruct r; reflexivity. Qed.

Lemma forget_mapM {A B} (f : A -> xres B) (g : A -> res B) l :
  (forall a, forget (f a) = g a) -> forget (mapMx f l) = mapM g l.
Proof.
  intros H. induction l as [|a l IH]; [reflexivity|]. cbn [mapMx mapM].
  rewrite (forget_bind _ _ (fun b => do bs <- mapM g l; Ok (b :: bs))).
  - rewrite H. reflexivity.
  - intros b. rewrite (forget_bind _ _ (fun bs => Ok (b :: bs))) by reflexivity. rewrite IH. reflexivity.
Qed.

Lemma forget_tag a : forget (tag_make_x a) = tag_make a.
Proof.
  unfold tag_make_x, tag_make. rewrite (forget_bind _ _ (fun s => if is_valid_tag s then Ok s else Err InvalidTag)).
  - rewrite forget_plain. reflexivity.
  - intros s. destruct (is_valid_tag s); reflexivity.
Qed.

Lemma forget_mk t : forget (mk_x t) = mk t.
Proof. apply forget_tag. Qed.

Ltac fg := repeat first
  [ reflexivity
  | rewrite forget_plain
  | rewrite forget_mk
  | match goal with
    | |- forget (xbind (plain ?r) ?f) = bind ?r ?g => rewrite (forget_bind (plain r) f g); [rewrite forget_plain; reflexivity|intros ?]
    | |- forget (xbind (mk_x ?t) ?f) = bind (mk ?t) ?g => rewrite (forget_bind (mk_x t) f g); [rewrite forget_mk; reflexivity|intros ?]
    | |- forget (if ?b then _ else _) = (if ?b then _ else _) => destruct b
    end ].

Lemma forget_generic tags : forget (parse_generic_x tags) = parse_generic tags.
Proof.
  unfold parse_generic_x, parse_generic. destruct (find _ tags) as [t|] eqn:F.
  - apply find_some in F as [I N]. destruct (forallb is_valid_tag tags) eqn:E; [|reflexivity].
    rewrite forallb_forall in E. rewrite (E t I) in N. discriminate.
  - destruct (forallb is_valid_tag tags) eqn:E; [reflexivity|].
    assert (X : forallb is_valid_tag tags = true); [|congruence]. apply forallb_forall. intros t I.
    pose proof (find_none _ _ F t I) as H. cbn in H. destruct (is_valid_tag t); [reflexivity|discriminate].
Qed.

Lemma forget_dim c tags : forget (parse_dim_x c tags) = parse_dim c tags.
Proof.
  unfold parse_dim_x, parse_dim.
  match goal with |- forget (xbind ?r ?f) = bind _ ?g => rewrite (forget_bind r f g) end.
  - rewrite (forget_mapM _ mk) by (intros; apply forget_mk). reflexivity.
  - intros vals. fg.
Qed.

Theorem forget_class k tags : forget (class_parse_x k tags) = class_parse k tags.
Proof.
  destruct k; cbn [class_parse_x class_parse]; try apply forget_dim; try apply forget_generic;
    unfold parse_ack_x, parse_ack, parse_nack_x, parse_nack, parse_normal_x, parse_normal, parse_status_x, parse_status, parse_dimreq_x, parse_dimreq; fg.
Qed.

Lemma forget_dispatch text tags : forall (cs : list (re * mtype)) (ds : list (re * (list str -> res msg))), List.map (@fst re mtype) cs = List.map (@fst re (list str -> res msg)) ds ->
  Forall2 (fun (c : re * mtype) (d : re * (list str -> res msg)) => forall l, class_parse (snd c) l = snd d l) cs ds ->
  forget (dispatch_x cs text tags) = Messages.dispatch ds text tags.
Proof.
  intros cs ds E H. revert E. induction H as [|[r k] [r' p] cs ds H F IH]; intros E; cbn [dispatch_x Messages.dispatch]; [apply forget_generic|].
  cbn in E. injection E as -> E. destruct (py_match r' text); [|apply IH, E]. rewrite forget_class. apply H.
Qed.

Theorem forget_parse s : forget (parse_message_x s) = parse_message s.
Proof.
  unfold parse_message_x, parse_message. destruct (negb _); [reflexivity|]. cbv zeta. destruct (negb _); [reflexivity|].
  apply forget_dispatch; [reflexivity|]. repeat (apply Forall2_cons; [intros l; reflexivity|]). apply Forall2_nil.
Qed.

Theorem forget_packet data : forget (packet_messages_x data) = packet_messages data.
Proof.
  unfold packet_messages_x, packet_messages.
  match goal with |- forget (xbind ?r ?f) = bind _ ?g => rewrite (forget_bind r f g) end.
  - rewrite forget_plain. reflexivity.
  - intros raw. apply forget_mapM. intros p. apply forget_parse.
Qed.

Lemma forget_type w : forget (get_type_x w) = get_type w.
Proof.
  unfold get_type_x, get_type. destruct (_ && _); [reflexivity|]. destruct (_ && _); [reflexivity|].
  destruct (startswith _ w); [|reflexivity]. fg.
Qed.

Lemma forget_energy c w : forget (energy_management_x c w) = energy_management c w.
Proof.
  unfold energy_management_x, energy_management.
  match goal with |- forget (xbind ?r ?f) = bind _ ?g => rewrite (forget_bind r f g) end; [rewrite forget_mk; reflexivity|].
  intros x. match goal with |- forget (xbind ?r ?f) = bind _ ?g => rewrite (forget_bind r f g) end; [rewrite forget_type; reflexivity|].
  reflexivity.
Qed.

Lemma forget_stop_go c w : forget (stop_go_x c w) = stop_go c w.
Proof.
  unfold stop_go_x, stop_go.
  match goal with |- forget (xbind ?r ?f) = bind _ ?g => rewrite (forget_bind r f g) end; [rewrite forget_energy; reflexivity|].
  intros x. match goal with |- forget (xbind ?r ?f) = bind _ ?g => rewrite (forget_bind r f g) end; [rewrite forget_type; reflexivity|].
  intros []; reflexivity.
Qed.

Lemma forget_call c m : forget (class_call_x c m) = class_call c m.
Proof. unfold class_call_x. destruct (class_call c m) as [x|[]]; reflexivity. Qed.

(** ** The parser *)

Lemma about_refl s : about s s.
Proof. exists [], []. rewrite app_nil_r. split; [constructor|]. split; [constructor|reflexivity]. Qed.

Lemma about_strip s : about s (strip s).
Proof.
  destruct (strip_spec s) as (w1 & w2 & E & H1 & H2 & _). exists w1, w2.
  split; [apply white_space, H1|]. split; [apply white_space, H2|exact E].
Qed.

(** An InvalidTag of a class parser names a tag of its list that is not valid. *)
Definition bad_of (l : list str) (r : raised) : Prop :=
  (r_class r = InvalidTag /\ exists t, r_what r = Some t /\ ~ tagtext t /\ (In t l \/ In (35 :: t) l)) \/
  (r_class r <> InvalidTag /\ r_class r <> InvalidMessage /\ r_what r = None).

Definition fails {A} (P : raised -> Prop) (x : xres A) : Prop := forall r, x = Raise r -> P r.

Lemma fails_bind {A B} P (x : xres A) (f : A -> xres B) :
  fails P x -> (forall a, x = Okx a -> fails P (f a)) -> fails P (xbind x f).
Proof. intros H G r E. destruct x as [a|e]; cbn in E; [exact (G a eq_refl r E)|injection E as <-; apply H; reflexivity]. Qed.

Lemma fails_ok {A} P (a : A) : fails P (Okx a).
Proof. intros r E. discriminate. Qed.

Lemma fails_index {B} l i (f : str -> xres B) :
  (forall t, In t l -> fails (bad_of l) (f t)) -> fails (bad_of l) (xbind (plain (index l i)) f).
Proof.
  intros H. unfold index. destruct (nth_error l i) as [t|] eqn:E; cbn.
  - apply H. eapply nth_error_In, E.
  - intros r [= <-]. right. cbn. split; [discriminate|]. split; [discriminate|reflexivity].
Qed.

Lemma fails_who {B} l t (f : who -> xres B) :
  (forall w, fails (bad_of l) (f w)) -> fails (bad_of l) (xbind (plain (who_of t)) f).
Proof.
  intros H. destruct (who_of t) as [w|e] eqn:E; cbn; [apply H|].
  apply who_of_err in E as [-> _]. intros r [= <-]. right. cbn. split; [discriminate|]. split; [discriminate|reflexivity].
Qed.

Lemma mk_x_spec t : (mk_x t = Okx t /\ tagtext t) \/ (blames (mk_x t) InvalidTag t /\ ~ tagtext t).
Proof.
  unfold mk_x, tag_make_x, blames. cbn. destruct (is_valid_tag t) eqn:E.
  - left. split; [reflexivity|apply tagtext_valid, E].
  - right. split; [reflexivity|]. intros H. apply tagtext_valid in H. congruence.
Qed.

Lemma fails_mk l t : In t l \/ In (35 :: t) l -> fails (bad_of l) (mk_x t).
Proof.
  intros I r E. destruct (mk_x_spec t) as [[K _]|[K N]]; [congruence|]. unfold blames in K. rewrite K in E. injection E as <-.
  left. split; [reflexivity|]. exists t. split; [reflexivity|]. split; [exact N|exact I].
Qed.

Lemma fails_mks l l' : incl l' l -> fails (bad_of l) (mapMx mk_x l').
Proof.
  induction l' as [|t l' IH]; intros I; cbn [mapMx]; [apply fails_ok|].
  apply fails_bind; [apply fails_mk; left; apply I; left; reflexivity|]. intros a _.
  apply fails_bind; [apply IH; intros x Hx; apply I; right; exact Hx|]. intros; apply fails_ok.
Qed.

Lemma unhash_in t l : In t l -> In (unhash t) l \/ In (35 :: unhash t) l.
Proof.
  intros H. unfold unhash, removeprefix. destruct t as [|c t]; [left; exact H|]. cbn [startswith].
  destruct (c_hash =? c) eqn:E; cbn.
  - apply N.eqb_eq in E as <-. right. destruct t; exact H.
  - left. exact H.
Qed.

Lemma fails_class k l : k <> T_ACK -> k <> T_NACK -> fails (bad_of l) (class_parse_x k l).
Proof.
  assert (D : forall c, fails (bad_of l) (parse_dim_x c l)).
  { intros c. unfold parse_dim_x. apply fails_bind.
    - apply fails_mks. intros x Hx. rewrite <- (firstn_skipn 3 l). apply in_or_app. right. exact Hx.
    - intros vals _. apply fails_index. intros t0 _. apply fails_who. intros w. apply fails_index. intros t1 I1.
      apply fails_bind; [apply fails_mk; left; exact I1|]. intros a _. apply fails_index. intros t2 I2.
      apply fails_bind; [apply fails_mk, unhash_in, I2|]. intros; apply fails_ok. }
  assert (G : fails (bad_of l) (parse_generic_x l)).
  { unfold parse_generic_x. destruct (find _ l) as [t|] eqn:F; [|apply fails_ok]. apply find_some in F as [I V].
    intros r [= <-]. left. split; [reflexivity|]. exists t. split; [reflexivity|]. split; [|left; exact I].
    intros T. apply tagtext_valid in T. rewrite T in V. discriminate. }
  intros A N. destruct k; try congruence; cbn [class_parse_x]; try apply D; try apply G;
    unfold parse_dimreq_x, parse_normal_x, parse_status_x; apply fails_index; intros t0 _; apply fails_who; intros w;
    apply fails_index; intros t1 I1; (apply fails_bind; [apply fails_mk; left; exact I1|]); intros a _;
    try apply fails_ok; apply fails_index; intros t2 I2; (apply fails_bind; [apply fails_mk; left; exact I2|]); intros; apply fails_ok.
Qed.

Lemma value_plain k l : fails (fun r => r_class r = ValueError -> r_what r = None) (class_parse_x k l).
Proof.
  intros r E V. destruct (mtype_eqb k T_ACK || mtype_eqb k T_NACK)%bool eqn:K.
  - assert (X : k = T_ACK \/ k = T_NACK) by (destruct k; try discriminate; auto).
    assert (P : forall i, index l i = Err IndexError \/ exists t, index l i = Ok t).
    { intros i. unfold index. destruct (nth_error l i); eauto. }
    destruct X as [-> | ->]; cbn [class_parse_x] in E; unfold parse_ack_x, parse_nack_x in E.
    all: destruct (P 0%nat) as [Q|(a & Q)]; rewrite Q in E; cbn in E; [injection E as <-; discriminate|].
    all: destruct (str_eqb a [35]); [discriminate|].
    all: destruct (P 1%nat) as [Q'|(b & Q')]; rewrite Q' in E; cbn in E; [injection E as <-; discriminate|].
    all: match type of E with (if ?c then _ else _) = _ => destruct c; [discriminate|] end; injection E as <-; discriminate.
  - assert (X : fails (bad_of l) (class_parse_x k l)) by (apply fails_class; intros ->; discriminate).
    destruct (X r E) as [[Y _]|[_ [_ Y]]]; [congruence|exact Y].
Qed.

Lemma dispatch_value text tags cs : fails (fun r => r_class r = ValueError -> r_what r = None) (dispatch_x cs text tags).
Proof.
  induction cs as [|[re k] cs IH]; cbn [dispatch_x]; [exact (value_plain T_GENERIC tags)|].
  destruct (py_match re text); [apply value_plain|exact IH].
Qed.

Lemma frame_same s l : is_frame (strip s) l <-> is_frame s l.
Proof. rewrite !is_frame_strip, strip_idem. reflexivity. Qed.

Theorem text_blamed s : (forall l, ~ is_frame s l) ->
  exists t, blames (parse_message_x s) InvalidMessage t /\ about s t /\ (t = s \/ stripped t) /\ forall l, ~ is_frame t l.
Proof.
  intros H. unfold parse_message_x, blames, invalid_message.
  destruct (count_hh s =? 1)%nat eqn:C; cbn [negb].
  - destruct (py_match R_generic (strip s)) eqn:G; cbn [negb].
    + exfalso. apply py_match_stripped in G; [|apply strip_stripped].
      apply lang_generic in G as (l & N & V & E). apply (H l). apply is_frame_strip.
      split; [exact N|]. split; [|exact E]. apply wiretags. split; [exact V|].
      apply count_hh_frame; [exact N|]. rewrite <- E, count_hh_strip. apply Nat.eqb_eq, C.
    + exists (strip s). split; [reflexivity|]. split; [apply about_strip|]. split; [right; apply strip_stripped|].
      intros l F. apply (H l), frame_same, F.
  - exists s. split; [reflexivity|]. split; [apply about_refl|]. split; [left; reflexivity|exact H].
Qed.

Theorem text_value s l r : is_frame s l -> parse_message_x s = Raise r -> r = {| r_class := ValueError; r_what := None |}.
Proof.
  intros F E. assert (P : parse_message s = Err (r_class r)) by (rewrite <- forget_parse, E; reflexivity).
  destruct (parse_errors s _ P) as [X|X].
  - rewrite X in P. exfalso. exact (proj1 (parse_invalid_iff s) P l F).
  - destruct r as [c w]. cbn in X. subst c. f_equal.
    unfold parse_message_x in E. destruct (negb _); [discriminate|]. cbv zeta in E. destruct (negb _); [discriminate|].
    exact (dispatch_value _ _ _ _ E eq_refl).
Qed.

(** ** Packets *)

Lemma mapMx_first {A B} (f : A -> xres B) l r : mapMx f l = Raise r ->
  exists l1 x l2, l = l1 ++ x :: l2 /\ (forall y, In y l1 -> exists b, f y = Okx b) /\ f x = Raise r.
Proof.
  induction l as [|a l IH]; cbn [mapMx]; [discriminate|].
  destruct (f a) as [b|e] eqn:E; cbn [xbind].
  - destruct (mapMx f l) as [bs|e]; cbn [xbind]; [discriminate|]. intros [= ->].
    destruct (IH eq_refl) as (l1 & x & l2 & -> & O & X). exists (a :: l1), x, l2. split; [reflexivity|]. split; [|exact X].
    intros y [<-|Hy]; [eauto|apply O, Hy].
  - intros [= ->]. exists [], a, l. split; [reflexivity|]. split; [intros y []|exact E].
Qed.

Lemma filter_split {A} (f : A -> bool) l l1 x l2 : filter f l = l1 ++ x :: l2 ->
  exists p q, l = p ++ x :: q /\ filter f p = l1 /\ f x = true.
Proof.
  revert l1. induction l as [|a l IH]; intros l1 E; cbn [filter] in E; [destruct l1; discriminate|].
  destruct (f a) eqn:Fa.
  - destruct l1 as [|b l1]; injection E as -> E.
    + exists [], l. auto.
    + destruct (IH l1 E) as (p & q & -> & G & Fx). exists (b :: p), q. split; [reflexivity|]. cbn [filter]. rewrite Fa, G. auto.
  - destruct (IH l1 E) as (p & q & -> & G & Fx). exists (a :: p), q. split; [reflexivity|]. cbn [filter]. rewrite Fa, G. auto.
Qed.

Theorem packet_blamed data r : packet_messages_x data = Raise r ->
  (r = {| r_class := UnicodeDecodeError; r_what := None |} /\ ~ Forall (fun c => c < 128) data) \/
  exists w1 text w2 ps1 p ps2,
    data = w1 ++ text ++ w2 /\ white w1 /\ white w2 /\ cut text (ps1 ++ p :: ps2) /\ p <> [] /\
    (forall q, In q ps1 -> q <> [] -> exists l m, is_frame (q ++ [35; 35]) l /\ denotes l m) /\
    ((exists t, r = {| r_class := InvalidMessage; r_what := Some t |} /\ about (p ++ [35; 35]) t /\
                (t = p ++ [35; 35] \/ stripped t) /\ forall l, ~ is_frame t l) \/
     (r = {| r_class := ValueError; r_what := None |} /\
      exists l x, is_frame (p ++ [35; 35]) l /\ who_text l x /\ ~ known_who x)).
Proof.
  intros H. unfold packet_messages_x, decode_ascii in H. destruct (forallb (fun c => c <? 128) data) eqn:A; cbn [plain xbind] in H.
  - right. apply mapMx_first in H as (l1 & p & l2 & E & O & X). apply filter_split in E as (ps1 & ps2 & E & G & Np).
    destruct (strip_spec data) as (w1 & w2 & D & H1 & H2 & S).
    exists w1, (strip data), w2, ps1, p, ps2. split; [exact D|]. split; [apply white_space, H1|]. split; [apply white_space, H2|].
    split; [pose proof (cut_split (strip data)) as K; rewrite E in K; exact K|]. split; [intros ->; discriminate|]. split.
    { intros q Hq Nq. destruct (O q) as (m & Hm).
      { rewrite <- G. apply filter_In. split; [exact Hq|]. destruct q; [congruence|reflexivity]. }
      assert (P : parse_message (q ++ [35; 35]) = Ok m) by (rewrite <- forget_parse; change [35; 35] with hh; rewrite Hm; reflexivity).
      apply parse_ok_iff in P as (l & F & Dn). eauto. }
    change hh with [35; 35] in X. destruct (is_frame_dec (p ++ [35; 35])) as [(l & F)|NF].
    + right. pose proof (text_value _ _ _ F X) as ->. split; [reflexivity|]. apply parse_value_error_iff.
      rewrite <- forget_parse, X. reflexivity.
    + left. destruct (text_blamed _ NF) as (t & B & T). exists t. unfold blames in B. rewrite B in X. injection X as <-. auto.
  - left. injection H as <-. split; [reflexivity|]. intros F. rewrite <- not_true_iff_false in A. apply A.
    apply forallb_forall. intros c Hc. rewrite Forall_forall in F. apply N.ltb_lt, F, Hc.
Qed.

(** ** The class parsers *)

Lemma wire_text l : l <> [] -> wire l = [c_star] ++ join c_star l ++ hh.
Proof. intros N. rewrite wire_frame by exact N. reflexivity. Qed.

Theorem nack_blamed l r : class_parse_x T_NACK l = Raise r -> r_class r = InvalidMessage -> r_what r = Some (wire l).
Proof.
  intros E C. cbn [class_parse_x] in E. unfold parse_nack_x in E. destruct l as [|a l]; [injection E as <-; discriminate|].
  cbn in E. destruct (str_eqb a [35]); [discriminate|]. destruct l as [|b l]; [injection E as <-; discriminate|]. cbn [plain index nth_error xbind] in E.
  destruct (str_eqb b _); [discriminate|]. injection E as <-. cbn [r_what]. f_equal. symmetry. rewrite wire_text by discriminate. reflexivity.
Qed.

Theorem ack_blamed l r : class_parse_x T_ACK l = Raise r -> r_class r = InvalidMessage -> r_what r = Some (lit "Invalid ACK message").
Proof.
  intros E C. cbn [class_parse_x] in E. unfold parse_ack_x in E. destruct l as [|a l]; [injection E as <-; discriminate|].
  cbn [plain index nth_error xbind] in E. destruct (str_eqb a _); [discriminate|]. destruct l as [|b l]; [injection E as <-; discriminate|]. cbn [plain index nth_error xbind] in E.
  destruct (str_eqb b _); [discriminate|]. injection E as <-. reflexivity.
Qed.

Theorem tag_blamed k l r : class_parse_x k l = Raise r -> r_class r = InvalidTag ->
  exists t, r_what r = Some t /\ ~ tagtext t /\ (In t l \/ In (35 :: t) l).
Proof.
  intros E C. destruct (mtype_eqb k T_ACK || mtype_eqb k T_NACK)%bool eqn:K.
  - exfalso. assert (P : class_parse k l = Err InvalidTag) by (rewrite <- forget_class, E; cbn; congruence).
    assert (X : k = T_ACK \/ k = T_NACK) by (destruct k; try discriminate; auto).
    assert (P' : forall i, index l i = Err IndexError \/ exists t, index l i = Ok t).
    { intros i. unfold index. destruct (nth_error l i); eauto. }
    destruct X as [-> | ->]; cbn [class_parse] in P; unfold parse_ack, parse_nack in P.
    all: destruct (P' 0%nat) as [Q|(a & Q)]; rewrite Q in P; cbn [bind] in P; [discriminate|].
    all: destruct (str_eqb a _); [discriminate|].
    all: destruct (P' 1%nat) as [Q'|(b & Q')]; rewrite Q' in P; cbn [bind] in P; [discriminate|].
    all: destruct (str_eqb b _); discriminate.
  - assert (X : fails (bad_of l) (class_parse_x k l)) by (apply fails_class; intros ->; discriminate).
    destruct (X r E) as [[_ Y]|[Y _]]; [exact Y|congruence].
Qed.

Theorem generic_blamed l : ~ Forall tagtext l ->
  exists l1 t l2, l = l1 ++ t :: l2 /\ Forall tagtext l1 /\ ~ tagtext t /\ blames (class_parse_x T_GENERIC l) InvalidTag t.
Proof.
  intros H. cbn [class_parse_x]. unfold parse_generic_x.
  enough (G : exists l1 t l2, l = l1 ++ t :: l2 /\ Forall tagtext l1 /\ ~ tagtext t /\ find (fun t => negb (is_valid_tag t)) l = Some t).
  { destruct G as (l1 & t & l2 & E & F & N & X). exists l1, t, l2. rewrite X. repeat split; auto. }
  induction l as [|a l IH]; [exfalso; apply H; constructor|]. cbn [find].
  destruct (is_valid_tag a) eqn:V; cbn [negb].
  - apply tagtext_valid in V. destruct IH as (l1 & t & l2 & -> & F & N & X); [intros F; apply H; constructor; assumption|].
    exists (a :: l1), t, l2. split; [reflexivity|]. split; [constructor; assumption|]. auto.
  - exists [], a, l. split; [reflexivity|]. split; [constructor|]. split; [|reflexivity].
    intros T. apply tagtext_valid in T. congruence.
Qed.

Lemma py_str_written a t : py_str a = Ok t -> written a t.
Proof.
  destruct a as [s|z|[]]; cbn [py_str].
  - intros [= <-]. constructor.
  - unfold py_str_int. destruct (_ <? _); [discriminate|]. intros [= <-]. destruct (Z.ltb_spec z 0).
    + replace z with (- Z.of_N (Z.abs_N z))%Z by lia. change c_minus with 45.
      replace (Z.abs_N (- Z.of_N (Z.abs_N z))) with (Z.abs_N z) by lia. apply W_negative; [lia|]. apply numeral_dec. reflexivity.
    + replace z with (Z.of_N (Z.abs_N z)) at 1 by lia. apply W_int. apply numeral_dec. reflexivity.
  - intros [= <-]. constructor.
  - intros [= <-]. constructor.
Qed.

Theorem make_blamed a r : tag_make_x a = Raise r -> r_class r = InvalidTag ->
  exists t, written a t /\ ~ tagtext t /\ r_what r = Some t.
Proof.
  unfold tag_make_x. destruct (py_str a) as [t|e] eqn:P; cbn.
  - destruct (is_valid_tag t) eqn:V; [discriminate|]. intros [= <-] _. exists t. split; [apply py_str_written; exact P|]. split; [|reflexivity].
    intros T. apply tagtext_valid in T. congruence.
  - intros [= <-] C. cbn in C. subst e. exfalso. destruct a as [s|z|[]]; try discriminate.
    cbn in P. unfold py_str_int in P. repeat match type of P with (if ?b then _ else _) = _ => destruct b end; discriminate.
Qed.

(** ** Energy items *)

Lemma type_blamed w r : get_type_x w = Raise r -> r_class r = InvalidTag -> r_what r = Some w.
Proof.
  unfold get_type_x. destruct (_ && _); [discriminate|]. destruct (_ && _); [discriminate|].
  destruct (startswith _ w).
  - unfold index. destruct (nth_error _ 0) as [p|]; cbn; [|intros [= <-]; discriminate].
    destruct (_ && _); [discriminate|]. intros [= <-] _. reflexivity.
  - intros [= <-] _. reflexivity.
Qed.

Theorem energy_blamed c w r : energy_management_x c w = Raise r -> r_class r = InvalidTag -> r_what r = Some w.
Proof.
  unfold energy_management_x. destruct (mk_x_spec w) as [[-> _]|[B _]].
  - cbn [xbind]. destruct (get_type_x w) as [t|e] eqn:T; cbn [xbind]; [discriminate|]. intros [= <-] C. eapply type_blamed; eauto.
  - unfold blames in B. rewrite B. cbn. intros [= <-] _. reflexivity.
Qed.

Theorem stop_go_blamed c w r : stop_go_x c w = Raise r -> r_class r = InvalidTag ->
  ((forall t, ~ energy_class w t) /\ r_what r = Some w) \/
  ((exists t, energy_class w t /\ t <> STOP_GO) /\ r_what r = Some (lit "Invalid tag for a Stop&Go item: " ++ w)).
Proof.
  intros E C. destruct (energy_management_x c w) as [it|e] eqn:M.
  - right. assert (F : energy_management c w = Ok it) by (rewrite <- forget_energy, M; reflexivity).
    apply (proj1 (construct_spec c w)) in F as [-> (t & K)]. unfold stop_go_x in E. rewrite M in E. cbn [xbind it_where] in E.
    assert (V : tagtext w).
    { destruct (mk_x_spec w) as [[_ V]|[B _]]; [exact V|]. unfold energy_management_x in M. unfold blames in B. rewrite B in M. discriminate. }
    assert (T : get_type w = Ok t) by (apply (proj1 (type_spec w V)), K).
    assert (T' : get_type_x w = Okx t).
    { rewrite <- forget_type in T. destruct (get_type_x w); cbn in T; congruence. }
    rewrite T' in E. cbn [xbind] in E. destruct t; try discriminate; injection E as <-; (split; [|reflexivity]); eexists; (split; [exact K|discriminate]).
  - left. unfold stop_go_x in E. rewrite M in E. cbn [xbind] in E. injection E as <-. split; [|eapply energy_blamed; eauto].
    intros t K. assert (F : energy_management c w = Err (r_class e)) by (rewrite <- forget_energy, M; reflexivity).
    rewrite (proj2 (proj1 (construct_spec c w) _) (conj eq_refl (ex_intro _ t K))) in F. discriminate.
Qed.

(** ** The status of a Stop&Go device from given messages *)

Lemma status_app ms1 ms2 st : status_of_messages_x (ms1 ++ ms2) st =
  xbind (status_of_messages_x ms1 st) (status_of_messages_x ms2).
Proof.
  revert st. induction ms1 as [|m ms1 IH]; intros st; [reflexivity|]. cbn [app status_of_messages_x].
  destruct m as [| |? ? ?|? ?|? ? ?|? ? ? ?|w a d vs|?]; try reflexivity. destruct (plain (int0 vs)) as [v|]; cbn [xbind]; [|reflexivity].
  destruct (status_update d v st); [apply IH|reflexivity].
Qed.

Lemma update_any d z (st : stop_go_status) : known_dim d -> exists st', status_update d z st = Ok st'.
Proof.
  intros [->|(j & Hj & ->)]; [exists (mask_status z); reflexivity|].
  destruct (status_update (bit_dim j) z st) as [s'|e] eqn:E; [eauto|exfalso].
  assert (X : status_update (bit_dim j) (Z.of_N 0) st = Err e).
  { revert E. unfold status_update. repeat match goal with |- (if ?x then _ else _) = _ -> _ => destruct x; [discriminate|] end. auto. }
  rewrite (update_bit j 0 st Hj) in X. discriminate.
Qed.

Theorem status_blamed ms st r : status_of_messages_x ms st = Raise r -> r_class r = InvalidMessage ->
  exists ms1 m ms2, ms = ms1 ++ m :: ms2 /\ (exists st', status_of_messages_x ms1 st = Okx st') /\ r_what r = Some (msg_str m) /\
    (forall w a d vs, m = MDimRes w a d vs -> ~ known_dim d).
Proof.
  revert st. induction ms as [|m ms IH]; intros st E C; [discriminate|].
  assert (H : forall e, (forall w a d vs, m = MDimRes w a d vs -> ~ known_dim d) -> invalid_message (A := stop_go_status) (msg_str m) = Raise e ->
    exists ms1 m0 ms2, m :: ms = ms1 ++ m0 :: ms2 /\ (exists st', status_of_messages_x ms1 st = Okx st') /\ r_what e = Some (msg_str m0) /\
      (forall w a d vs, m0 = MDimRes w a d vs -> ~ known_dim d)).
  { intros e K [= <-]. exists [], m, ms. split; [reflexivity|]. split; [exists st; reflexivity|]. split; [reflexivity|exact K]. }
  cbn [status_of_messages_x] in E. destruct m as [| |? ? ?|? ?|? ? ?|? ? ? ?|w a d vs|?]; try (apply H; [discriminate|exact E]).
  destruct (plain (int0 vs)) as [v|e] eqn:V; cbn [xbind] in E.
  - destruct (status_update d v st) as [st'|e] eqn:U.
    + destruct (IH st' E C) as (ms1 & m & ms2 & -> & (st2 & O) & W & K). exists (MDimRes w a d vs :: ms1), m, ms2.
      split; [reflexivity|]. split; [|auto]. exists st2. cbn [status_of_messages_x]. rewrite V. cbn [xbind]. rewrite U. exact O.
    + apply H; [|exact E]. intros w' a' d' vs' [= <- <- <- <-] K.
      destruct (update_any d v st K) as (s' & X). congruence.
  - exfalso. injection E as <-. unfold int0 in V. unfold index in V. destruct (nth_error vs 0); cbn in V.
    + match type of V with plain (py_int ?x) = _ => destruct (py_int_value x) as [(z & Q)|Q]; rewrite Q in V end; [discriminate|]. injection V as <-. discriminate.
    + injection V as <-. discriminate.
Qed.

(** ** Callbacks *)

Lemma call_invalid c m : class_call c m = Err InvalidMessage -> class_call_x c m = invalid_message (callback_text c m).
Proof. intros H. unfold class_call_x. rewrite H. reflexivity. Qed.

Theorem callback_blamed c m r : class_call_x c m = Raise r -> r_class r = InvalidMessage -> r_what r = Some (callback_text c m).
Proof. unfold class_call_x. destruct (class_call c m) as [x|[]]; cbn; try discriminate; intros [= <-]; try discriminate. reflexivity. Qed.
