(** * Lengths of digests, padding, and logins with the real functions *)
From Coq Require Import String List NArith ZArith Bool Lia.
From Verif Require Import PyStr Tags Messages SpecMsg AuthHmac IO Client SpecClient HmacThms HandshakeThms HandshakeThms2 Sha.
Import ListNotations.
Open Scope N_scope.
Open Scope list_scope.

Local Notation start := (@Client.start Empty_set).

(** The length of a digest, in bytes. *)
Definition size (a : alg) : nat := match a with SHA1 => 20 | SHA256 => 32 end.

Lemma be_length n : forall x, length (be n x) = n.
Proof. induction n; intros x; cbn; [reflexivity|]. rewrite app_length, IHn. cbn. lia. Qed.
Lemma be_bytes n : forall x, bytes (be n x).
Proof. unfold bytes. induction n; intros x; cbn [be]; [constructor|]. apply Forall_app. split; [apply IHn|]. constructor; [apply N.mod_lt; lia|constructor]. Qed.
Lemma be_inj n : forall x y, x < 256 ^ N.of_nat n -> y < 256 ^ N.of_nat n -> be n x = be n y -> x = y.
Proof.
  induction n as [|n IH]; intros x y Hx Hy E; [cbn in *; lia|]. cbn [be] in E. apply app_inj_tail in E as (E & F).
  rewrite Nat2N.inj_succ, N.pow_succ_r in Hx, Hy by lia.
  apply IH in E; [|apply N.div_lt_upper_bound; lia..]. rewrite (N.div_mod x 256), (N.div_mod y 256), E, F by lia. reflexivity.
Qed.

Lemma digest_length st : length (concat (map (be 4) st)) = (4 * length st)%nat.
Proof. induction st; [reflexivity|]. cbn [map concat]. rewrite app_length, be_length, IHst. cbn. lia. Qed.
Lemma digest_bytes st : bytes (concat (map (be 4) st)).
Proof. unfold bytes. induction st; [constructor|]. cbn [map concat]. apply Forall_app. split; [apply be_bytes|assumption]. Qed.

Lemma zip_length x : forall y, length x = length y -> length (zip_add x y) = length x.
Proof. induction x; intros [|b y] E; try reflexivity; try discriminate. cbn. f_equal. apply IHx. injection E as E. exact E. Qed.
Lemma fold_length {A} (f : list N -> A -> list N) n : (forall s a, length s = n -> length (f s a) = n) ->
  forall l s, length s = n -> length (fold_left f l s) = n.
Proof. intros H l. induction l; intros s E; [exact E|]. cbn. apply IHl, H, E. Qed.
Lemma round256_length s kw : length s = 8%nat -> length (round256 s kw) = 8%nat.
Proof. do 8 (destruct s as [|? s]; [discriminate|]). destruct s; [reflexivity|discriminate]. Qed.
Lemma round1_length s kw : length s = 5%nat -> length (round1 s kw) = 5%nat.
Proof. do 5 (destruct s as [|? s]; [discriminate|]). destruct s; [reflexivity|discriminate]. Qed.
Lemma block256_length s b : length s = 8%nat -> length (block256 s b) = 8%nat.
Proof. intros E. unfold block256. rewrite zip_length; [exact E|]. rewrite E. symmetry. apply fold_length; [|exact E]. intros s' x. apply round256_length. Qed.
Lemma block1_length s b : length s = 5%nat -> length (block1 s b) = 5%nat.
Proof. intros E. unfold block1. rewrite zip_length; [exact E|]. rewrite E. symmetry. apply fold_length; [|exact E]. intros s' x. apply round1_length. Qed.

Theorem sha_length a d : length (sha a d) = size a /\ bytes (sha a d).
Proof.
  destruct a; cbn [sha size]; (split; [|apply digest_bytes]).
  - unfold sha1. rewrite digest_length. rewrite (fold_length block1 5); [reflexivity|intros s b; apply block1_length|reflexivity].
  - unfold sha256. rewrite digest_length. rewrite (fold_length block256 8); [reflexivity|intros s b; apply block256_length|reflexivity].
Qed.
Theorem hmac_length a k d : length (hmac a k d) = size a /\ bytes (hmac a k d).
Proof. apply sha_length. Qed.
Theorem python_sane : sane python.
Proof. intros a d. split; [apply sha_length|]. intros k. apply hmac_length. Qed.

(** ** Padding *)

Lemma pad_length d : exists n, length (pad d) = (64 * n)%nat /\ (length d < 64 * n <= length d + 72)%nat.
Proof.
  unfold pad. set (l := N.of_nat (length d)). rewrite !app_length, map_length, be_length, repeat_length. cbn [length].
  pose proof (N.mod_lt l 64 ltac:(lia)) as M. pose proof (N.div_mod l 64 ltac:(lia)) as D.
  assert (L : length d = N.to_nat l) by (unfold l; lia).
  destruct (N.le_gt_cases (l mod 64) 55) as [H|H].
  - replace ((119 - l mod 64) mod 64) with (55 - l mod 64).
    + exists (N.to_nat (l / 64) + 1)%nat. clearbody l. set (q := l / 64) in *. set (r := l mod 64) in *. clearbody q r. split; lia.
    + clearbody l. set (r := l mod 64) in *. clearbody r. apply (N.mod_unique _ _ 1); lia.
  - rewrite N.mod_small by (clearbody l; set (r := l mod 64) in *; clearbody r; lia). exists (N.to_nat (l / 64) + 2)%nat. clearbody l. set (q := l / 64) in *. set (r := l mod 64) in *. clearbody q r. split; lia.
Qed.

Lemma words_app n : forall d e, length d = (4 * n)%nat -> words (d ++ e) = words d ++ words e.
Proof.
  induction n as [|n IH]; intros d e E; [destruct d; [reflexivity|cbn in E; lia]|].
  do 4 (destruct d as [|? d]; [cbn in E; lia|]). cbn [app words]. f_equal. apply IH. cbn in E. lia.
Qed.
Lemma words_length n : forall d, length d = (4 * n)%nat -> length (words d) = n.
Proof.
  induction n as [|n IH]; intros d E; [destruct d; [reflexivity|cbn in E; lia]|].
  do 4 (destruct d as [|? d]; [cbn in E; lia|]). cbn [words length]. f_equal. apply IH. cbn in E. lia.
Qed.
Lemma blocks_all n : forall ws, length ws = (16 * n)%nat -> concat (blocks n ws) = ws /\ Forall (fun b => length b = 16%nat) (blocks n ws) /\ length (blocks n ws) = n.
Proof.
  induction n as [|n IH]; intros ws E; cbn [blocks concat]; [destruct ws; [|cbn in E; lia]; split; [reflexivity|]; split; [constructor|reflexivity]|].
  destruct (IH (skipn 16 ws)) as (A & B & C); [rewrite skipn_length; lia|]. rewrite A. split; [apply firstn_skipn|]. split; [|cbn [length]; f_equal; exact C].
  constructor; [rewrite firstn_length; lia|exact B].
Qed.

(** The blocks that are hashed are all of the padded message. *)
Theorem padded d : exists n, length (pad d) = (64 * n)%nat /\ (length d < 64 * n <= length d + 72)%nat /\
  concat (message_blocks d) = words (pad d) /\ Forall (fun b => length b = 16%nat) (message_blocks d) /\ length (message_blocks d) = n.
Proof.
  destruct (pad_length d) as (n & E & L). exists n. split; [exact E|]. split; [exact L|]. unfold message_blocks.
  replace (length (pad d) / 64)%nat with n by (rewrite E, Nat.mul_comm, Nat.div_mul; lia).
  apply blocks_all. apply words_length. lia.
Qed.

Lemma words_inj n : forall d e, length d = (4 * n)%nat -> length e = (4 * n)%nat -> bytes d -> bytes e -> words d = words e -> d = e.
Proof.
  unfold bytes. induction n as [|n IH]; intros d e Ed Ee Bd Be E; [destruct d, e; try reflexivity; cbn in *; lia|].
  do 4 (destruct d as [|? d]; [cbn in Ed; lia|]). do 4 (destruct e as [|? e]; [cbn in Ee; lia|]). cbn [words] in E.
  inversion Bd as [|? ? D1 Bd1]; subst. inversion Bd1 as [|? ? D2 Bd2]; subst. inversion Bd2 as [|? ? D3 Bd3]; subst. inversion Bd3 as [|? ? D4 Bd4]; subst.
  inversion Be as [|? ? E1 Be1]; subst. inversion Be1 as [|? ? E2 Be2]; subst. inversion Be2 as [|? ? E3 Be3]; subst. inversion Be3 as [|? ? E4 Be4]; subst.
  injection E as Ew E. assert (d = e) as -> by (apply IH; try assumption; cbn in Ed, Ee; lia).
  assert (n0 = n4 /\ n1 = n5 /\ n2 = n6 /\ n3 = n7) as (-> & -> & -> & ->) by lia. reflexivity.
Qed.

Lemma mod_bytes d : bytes d -> map (fun b => b mod 256) d = d.
Proof. unfold bytes. induction 1 as [|b d H _ IH]; [reflexivity|]. cbn. rewrite IH, N.mod_small by exact H. reflexivity. Qed.
Lemma pad_bytes d : bytes (pad d).
Proof.
  unfold pad, bytes. apply Forall_app. split.
  - apply Forall_map, Forall_forall. intros b _. apply N.mod_lt. lia.
  - apply Forall_cons; [lia|]. apply Forall_app. split; [|apply be_bytes].
    apply Forall_forall. intros b I. apply repeat_spec in I as ->. lia.
Qed.
(** Different messages are different after padding, as long as their lengths fit. *)
Theorem pad_inj d e : bytes d -> bytes e -> N.of_nat (length d) < 2 ^ 61 -> N.of_nat (length e) < 2 ^ 61 -> pad d = pad e -> d = e.
Proof.
  intros Bd Be Ld Le E. unfold pad in E. rewrite (mod_bytes d Bd), (mod_bytes e Be) in E.
  rewrite !app_assoc in E.
  assert (X : forall a b c f : list N, length b = length f -> a ++ b = c ++ f -> a = c /\ b = f).
  { intros a b c f L Q. assert (La : length a = length c) by (apply (f_equal (@length N)) in Q; rewrite !app_length in Q; lia).
    revert c La Q. induction a as [|x a IH]; intros [|y c] La Q; try discriminate; [auto|]. injection Q as -> Q. injection La as La. destruct (IH c La Q) as (-> & ->). auto. }
  apply X in E as (E & F); [|rewrite !be_length; reflexivity].
  assert (Z : 256 ^ N.of_nat 8 = 2 ^ 64) by reflexivity.
  apply be_inj in F; [|rewrite Z; change (2 ^ 64) with (8 * 2 ^ 61); lia..].
  assert (Lde : length d = length e) by lia.
  rewrite <- !app_assoc in E. rewrite <- Lde in E. apply X in E as (E & _); [exact E|reflexivity].
Qed.
(** So the blocks of different messages differ. *)
Theorem blocks_inj d e : bytes d -> bytes e -> N.of_nat (length d) < 2 ^ 61 -> N.of_nat (length e) < 2 ^ 61 -> message_blocks d = message_blocks e -> d = e.
Proof.
  intros Bd Be Ld Le E. destruct (padded d) as (n & A & _ & B & _ & C), (padded e) as (m & A' & _ & B' & _ & C').
  assert (n = m) as <- by congruence. apply pad_inj; try assumption. apply (words_inj (16 * n)); [lia|lia|apply pad_bytes|apply pad_bytes|congruence].
Qed.

(** ** Logins *)

Lemma pairs_digits l : bytes l -> digits (pairs l).
Proof.
  intros B. unfold digits.
  unfold pairs. induction B as [|b l H _ IH]; [constructor|]. cbn [map concat]. apply Forall_app. split; [|exact IH].
  assert (b / 16 < 16) by (apply N.div_lt_upper_bound; lia). assert (b mod 16 < 16) by (apply N.mod_lt; lia).
  unfold four. apply Forall_app. split; apply two_digits; assumption.
Qed.

Theorem hmac_frame c pw rnd a more mk k s c' es rest r : first_tag mk k -> encodable pw ->
  start python c pw rnd true (Some MAck :: Some (MGeneric ([57; 56] :: alg_name a :: more)) :: Some mk :: s) = (c', (es, rest, r)) ->
  exists x y, nth_error (sents es) 2 = Some (wire [x; y]) /\ digits x /\ digits y /\ length x = (4 * size a)%nat /\ length y = (4 * size a)%nat /\
    x = pairs (sha a rnd) /\
    y = pairs (hmac a k (k ++ hextext (sha a rnd) ++ lit "736F70653E" ++ lit "636F70653E" ++ hextext (sha a (utf8 pw)))).
Proof.
  intros F He R. rewrite start_connected in R. set (c1 := {| cl_session := cl_session c; cl_proto := true |}) in *.
  rewrite (run_hello python c1 eq_refl) in R. rewrite (run_98 python c1 eq_refl) in R. rewrite (run_alg python c1 eq_refl) in R.
  rewrite (run_key python python_sane c1 eq_refl pw rnd a mk k s (conj F He)) in R.
  exists (pairs (sha a rnd)), (pairs (client_proof python pw rnd a k)).
  split.
  - injection R as _ R. destruct (stage_proof python c1 pw rnd a k s) as [[e0 s0] r0]. cbn [pre app] in R. injection R as <- _ _. reflexivity.
  - split; [apply pairs_digits, python_sane|]. split; [apply pairs_digits, python_sane|].
    split; [rewrite pairs_length; f_equal; apply sha_length|]. split; [rewrite pairs_length; f_equal; apply hmac_length|]. split; reflexivity.
Qed.
