(** * Addresses, versions and the other values of the gateway *)
From Coq Require Import String List NArith ZArith Bool Lia.
From Verif Require Import PyStr PyDate Tags Messages SpecMsg SpecTag MessageThms MessageThms3 TagThms IO Client SpecItem Items HandshakeThms ItemThms ItemThms2 LightThms2 Gateway SpecGateway CalendarThms GatewayThms.
Import ListNotations.
Open Scope N_scope.
Open Scope list_scope.

(** ** Octets *)

Lemma parse_octet_cases s : (parse_octet s = Ok (dval s) /\ dval s <= 255) \/ parse_octet s = Err ValueError.
Proof.
  unfold parse_octet. destruct (str_eqb s []); [auto|]. destruct (all_digits s); [|auto]. cbn [negb].
  destruct (3 <? length s)%nat; [auto|]. destruct (_ && _)%bool; [auto|].
  destruct (N.ltb_spec 255 (dval s)); auto.
Qed.

Lemma parse_octet_dec n : parse_octet (dec n) = if n <=? 255 then Ok n else Err ValueError.
Proof.
  destruct (N.leb_spec n 255) as [H|H].
  - assert (C : forallb (fun k => match parse_octet (dec (N.of_nat k)) with Ok z => z =? N.of_nat k | Err _ => false end) (seq 0 256) = true)
      by (vm_compute; reflexivity).
    rewrite forallb_forall in C. specialize (C (N.to_nat n)). rewrite N2Nat.id in C.
    specialize (C ltac:(apply in_seq; lia)). destruct (parse_octet (dec n)) as [z|]; [|discriminate].
    apply N.eqb_eq in C. subst. reflexivity.
  - destruct (parse_octet_cases (dec n)) as [[_ E]|E]; [|exact E]. rewrite dval_dec in E. lia.
Qed.

Lemma nodot n : ~ In c_dot (dec n).
Proof.
  intros H. pose proof (dec_digits n) as D. unfold all_digits in D. rewrite forallb_forall in D. apply D in H. discriminate.
Qed.

Lemma ip_from_dotted a b c d :
  ip_from_string (join c_dot [dec a; dec b; dec c; dec d]) =
  if (a <=? 255) && (b <=? 255) && (c <=? 255) && (d <=? 255) then Ok (address a b c d) else Err ValueError.
Proof.
  unfold ip_from_string. rewrite split_join.
  - rewrite !parse_octet_dec.
    destruct (a <=? 255); [|reflexivity]. cbn [bind andb]. destruct (b <=? 255); [|reflexivity]. cbn [bind andb].
    destruct (c <=? 255); [|reflexivity]. cbn [bind andb]. destruct (d <=? 255); [|reflexivity]. cbn [bind andb].
    unfold address. f_equal. change (2 ^ 24) with 16777216. change (2 ^ 16) with 65536. change (2 ^ 8) with 256. lia.
  - discriminate.
  - repeat apply Forall_cons; try apply nodot. apply Forall_nil.
Qed.

(** A number in a value of a response to the gateway: no '#'. *)
Lemma number_dec_length d n : number d n -> slen (dec n) <= 4300.
Proof.
  intros (H1 & H2 & H3 & H4). unfold slen.
  assert (B : n < 10 ^ N.of_nat (length d)).
  { rewrite <- H3. clear -H1.
    assert (G : forall s a, digits s -> value_of a s < (a + 1) * 10 ^ N.of_nat (length s)).
    { induction s as [|c s IH]; intros a Ha; [cbn; lia|]. inversion Ha as [|? ? Hc Hs]; subst. unfold digitchar in Hc.
      cbn [value_of length]. specialize (IH (10 * a + (c - 48)) Hs).
      rewrite Nat2N.inj_succ, N.pow_succ_r'. set (P := 10 ^ N.of_nat (length s)) in *. nia. }
    specialize (G d 0 H1). lia. }
  pose proof (dec_length_bound (length d) n) as L.
  assert (0 < length d)%nat by (destruct d; [congruence|cbn; lia]). specialize (L H B). lia.
Qed.

Lemma py_str_int_dec d n : number d n -> py_str_int (Z.of_N n) = Ok (dec n).
Proof.
  intros H. apply number_dec_length in H. unfold py_str_int. rewrite Zabs2N.id.
  unfold int_max_str_digits. rewrite (proj2 (N.ltb_ge _ _) H).
  rewrite (proj2 (Z.ltb_ge _ _)) by lia. reflexivity.
Qed.

Theorem netmask_read sa sb sc sd a b c d :
  number sa a -> number sb b -> number sc c -> number sd d ->
  dotted_of [sa; sb; sc; sd] = Ok (join 46 [dec a; dec b; dec c; dec d]).
Proof.
  intros Ha Hb Hc Hd. unfold dotted_of.
  rewrite (number_int _ _ Ha), (number_int _ _ Hb), (number_int _ _ Hc), (number_int _ _ Hd). cbn [bind].
  rewrite (py_str_int_dec _ _ Ha), (py_str_int_dec _ _ Hb), (py_str_int_dec _ _ Hc), (py_str_int_dec _ _ Hd). reflexivity.
Qed.

Theorem ip_read sa sb sc sd a b c d :
  number sa a -> number sb b -> number sc c -> number sd d ->
  (octets a b c d -> ip_of [sa; sb; sc; sd] = Ok (address a b c d)) /\
  (~ octets a b c d -> ip_of [sa; sb; sc; sd] = Err ValueError).
Proof.
  intros Ha Hb Hc Hd. unfold ip_of. rewrite (netmask_read _ _ _ _ _ _ _ _ Ha Hb Hc Hd). cbn [bind].
  change 46 with c_dot. rewrite ip_from_dotted. unfold octets.
  destruct (N.leb_spec a 255); destruct (N.leb_spec b 255); destruct (N.leb_spec c 255); destruct (N.leb_spec d 255);
    cbn [andb]; split; intros H'; try reflexivity; lia.
Qed.

(** [int()] of a tag: a number, or ValueError. *)
Lemma digits_us_tag s b : tagtext s ->
  (digits_us b s = Some s /\ digits s /\ (b = true \/ s <> [])) \/ digits_us b s = None /\ ~ (digits s /\ (b = true \/ s <> [])).
Proof.
  intros H. revert b. induction H as [|c s Hc Hs IH]; intros b.
  - destruct b; cbn; [left; repeat split; auto; constructor|right; split; [reflexivity|intros [_ [?|?]]; congruence]].
  - cbn [digits_us]. destruct (is_digit c) eqn:Ed.
    + destruct (IH true) as [(E & D & _)|(E & D)]; rewrite E; cbn [option_map].
      * left. split; [reflexivity|]. split; [|right; discriminate]. apply Forall_cons; [apply is_digit_range, Ed|exact D].
      * right. split; [reflexivity|]. intros [D' _]. apply D. split; [inversion D'; assumption|auto].
    + right. destruct Hc as [Hc| ->].
      * apply is_digit_range in Hc. congruence.
      * split; [reflexivity|]. intros [D _]. inversion D as [|? ? D1 _]; subst. unfold digitchar in D1. lia.
Qed.

Lemma tag_stripped s : tagtext s -> stripped s.
Proof.
  assert (N1 : forall c, tagchar c -> is_space c = false).
  { intros c [H| ->]; [|reflexivity]. apply is_digit_not_space, is_digit_range, H. }
  intros H. split.
  - destruct H; [exact I|]. apply N1. assumption.
  - apply Forall_rev in H. destruct H; [exact I|]. apply N1. assumption.
Qed.

Lemma tag_ascii s : tagtext s -> forallb (fun c => c <? 128) s = true.
Proof.
  intros H. apply forallb_forall. intros c I. unfold tagtext in H. rewrite Forall_forall in H. apply H in I. apply N.ltb_lt. unfold tagchar in I. lia.
Qed.

Theorem py_int_tag v : tagtext v -> (exists n, number v n /\ py_int v = Ok (Z.of_N n)) \/ ((forall n, ~ number v n) /\ py_int v = Err ValueError).
Proof.
  intros H. destruct (digits_us_tag v false H) as [(E & D & Hn)|(E & D)].
  - destruct Hn as [Hn|Hn]; [discriminate|].
    destruct (N.leb_spec (slen v) 4300) as [L|L].
    + left. exists (value_of 0 v). assert (number v (value_of 0 v)) by (repeat split; assumption).
      split; [assumption|]. apply number_int. assumption.
    + right. split; [intros n (_ & _ & _ & L'); unfold slen in L; lia|].
      unfold py_int. rewrite int_strip_id by (apply tag_stripped, H). rewrite fold_ascii by (apply tag_ascii, H). destruct v as [|c r]; [congruence|].
      inversion D as [|? ? Dc _]; subst. unfold digitchar in Dc.
      replace (c =? c_minus) with false by (symmetry; apply N.eqb_neq; unfold c_minus; lia).
      replace (c =? c_plus) with false by (symmetry; apply N.eqb_neq; unfold c_plus; lia).
      rewrite E. unfold int_max_str_digits. apply N.ltb_lt in L. rewrite L. reflexivity.
  - right. split; [intros n (D1 & D2 & _); apply D; auto|].
    unfold py_int. rewrite int_strip_id by (apply tag_stripped, H). rewrite fold_ascii by (apply tag_ascii, H). destruct v as [|c r]; [reflexivity|].
    inversion H as [|? ? Hc _]; subst. unfold tagchar in Hc.
    replace (c =? c_minus) with false by (symmetry; apply N.eqb_neq; unfold c_minus; lia).
    replace (c =? c_plus) with false by (symmetry; apply N.eqb_neq; unfold c_plus; lia).
    rewrite E. reflexivity.
Qed.

(** The four numbers are needed, nothing else is accepted. *)
Definition four (vs : list str) (a b c d : N) : Prop :=
  exists sa sb sc sd, vs = [sa; sb; sc; sd] /\ number sa a /\ number sb b /\ number sc c /\ number sd d.

Theorem dotted_complete vs :
  Forall tagtext vs ->
  (exists a b c d, four vs a b c d /\ dotted_of vs = Ok (join 46 [dec a; dec b; dec c; dec d])) \/
  ((forall a b c d, ~ four vs a b c d) /\ dotted_of vs = Err ValueError).
Proof.
  intros H.
  destruct vs as [|sa [|sb [|sc [|sd [|]]]]];
    try (right; split; [intros a b c d (? & ? & ? & ? & ? & _); discriminate|reflexivity]).
  inversion H as [|? ? Ta H1]; subst. inversion H1 as [|? ? Tb H2]; subst. inversion H2 as [|? ? Tc H3]; subst. inversion H3 as [|? ? Td _]; subst.
  destruct (py_int_tag sa Ta) as [(a & Na & Ea)|(Na & Ea)].
  2:{ right. split; [intros a b c d (? & ? & ? & ? & E & N1 & _); injection E as -> _ _ _; exact (Na _ N1)|]. cbn [dotted_of]. rewrite Ea. reflexivity. }
  destruct (py_int_tag sb Tb) as [(b & Nb & Eb)|(Nb & Eb)].
  2:{ right. split; [intros a' b' c' d' (? & ? & ? & ? & E & _ & N1 & _); injection E as _ -> _ _; exact (Nb _ N1)|]. cbn [dotted_of]. rewrite Ea, Eb. reflexivity. }
  destruct (py_int_tag sc Tc) as [(c & Nc & Ec)|(Nc & Ec)].
  2:{ right. split; [intros a' b' c' d' (? & ? & ? & ? & E & _ & _ & N1 & _); injection E as _ _ -> _; exact (Nc _ N1)|]. cbn [dotted_of]. rewrite Ea, Eb, Ec. reflexivity. }
  destruct (py_int_tag sd Td) as [(d & Nd & Ed)|(Nd & Ed)].
  2:{ right. split; [intros a' b' c' d' (? & ? & ? & ? & E & _ & _ & _ & N1); injection E as _ _ _ ->; exact (Nd _ N1)|]. cbn [dotted_of]. rewrite Ea, Eb, Ec, Ed. reflexivity. }
  left. exists a, b, c, d. split; [exists sa, sb, sc, sd; auto 6|]. apply netmask_read; assumption.
Qed.

(** ** Masks *)

Lemma zero_bits_odd p o k : Npos p = 2 ^ k * (2 * o + 1) -> zero_bits_pos p = k.
Proof.
  revert k. induction p as [p IH|p IH|]; intros k E; cbn [zero_bits_pos].
  - destruct k as [|k]; [reflexivity|]. exfalso.
    replace (N.pos k) with (N.succ (N.pred (N.pos k))) in E by lia. rewrite N.pow_succ_r' in E.
    set (P := 2 ^ N.pred (N.pos k)) in *. assert (X : N.pos p~1 = 2 * N.pos p + 1) by lia. rewrite X in E.
    assert (Y : 2 * (P * (2 * o + 1)) = 2 * N.pos p + 1) by lia. set (Q := P * (2 * o + 1)) in *. lia.
  - destruct k as [|k].
    + exfalso. rewrite N.pow_0_r in E. assert (X : N.pos p~0 = 2 * N.pos p) by lia. lia.
    + replace (N.pos k) with (N.succ (N.pred (N.pos k))) in E |- * by lia. rewrite N.pow_succ_r' in E.
      f_equal. apply IH. assert (X : N.pos p~0 = 2 * N.pos p) by lia. rewrite X in E.
      set (P := 2 ^ N.pred (N.pos k)) in *.
      assert (Y : 2 * N.pos p = 2 * (P * (2 * o + 1))) by lia. set (Q := P * (2 * o + 1)) in *. lia.
  - destruct k as [|k]; [reflexivity|]. exfalso.
    replace (N.pos k) with (N.succ (N.pred (N.pos k))) in E by lia. rewrite N.pow_succ_r' in E.
    set (P := 2 ^ N.pred (N.pos k)) in *. assert (Y : 1 = 2 * (P * (2 * o + 1))) by lia. set (Q := P * (2 * o + 1)) in *. lia.
Qed.

Lemma zero_bits_split p : exists o, Npos p = 2 ^ zero_bits_pos p * (2 * o + 1).
Proof.
  induction p as [p IH|p (o & IH)|]; cbn [zero_bits_pos].
  - exists (N.pos p). rewrite N.pow_0_r. lia.
  - exists o. rewrite N.pow_succ_r'. set (P := 2 ^ zero_bits_pos p) in *. set (Q := P * (2 * o + 1)) in *.
    assert (X : 2 * P * (2 * o + 1) = 2 * Q) by (unfold Q; lia). rewrite X. lia.
  - exists 0. reflexivity.
Qed.

Lemma mask_factor p : p <= 32 -> 2 ^ 32 - 2 ^ (32 - p) = 2 ^ (32 - p) * (2 ^ p - 1).
Proof.
  intros H. rewrite N.mul_sub_distr_l, N.mul_1_r, <- N.pow_add_r. replace (32 - p + p) with 32 by lia. reflexivity.
Qed.

Lemma pow_pos2 k : 1 <= 2 ^ k.
Proof. assert (2 ^ k <> 0) by (apply N.pow_nonzero; lia). lia. Qed.

Lemma prefix_ok n p : n < 2 ^ 32 -> (prefix_from_int n = Ok p <-> netmask n p).
Proof.
  intros Hn. unfold prefix_from_int, zero_bits, netmask. destruct n as [|q].
  - change (N.shiftr 0 32 =? N.shiftl 1 (32 - 32) - 1) with true. cbv beta iota. change (32 - 32) with 0. split.
    + intros [= <-]. split; [lia|]. reflexivity.
    + intros [H E]. f_equal. symmetry. destruct (N.eq_dec p 0) as [->|Hp]; [reflexivity|]. exfalso.
      rewrite mask_factor in E by assumption. symmetry in E. apply N.mul_eq_0 in E as [E|E].
      * pose proof (pow_pos2 (32 - p)). lia.
      * replace p with (N.succ (N.pred p)) in E by lia. rewrite N.pow_succ_r' in E. pose proof (pow_pos2 (N.pred p)). lia.
  - destruct (zero_bits_split q) as (o & E). set (k := zero_bits_pos q) in *.
    assert (Hk : k < 32).
    { apply (N.pow_lt_mono_r_iff 2); [lia|]. eapply N.le_lt_trans; [|exact Hn]. rewrite E.
      set (P := 2 ^ k). nia. }
    rewrite N.min_r by lia.
    assert (S : N.shiftr (N.pos q) k = 2 * o + 1).
    { rewrite N.shiftr_div_pow2, E, N.mul_comm, N.div_mul; [reflexivity|]. apply N.pow_nonzero. lia. }
    rewrite S, N.shiftl_1_l. split.
    + destruct (N.eqb_spec (2 * o + 1) (2 ^ (32 - k) - 1)) as [X|X]; [|discriminate]. intros Ep.
      assert (p = 32 - k) as -> by congruence. split; [lia|]. replace (32 - (32 - k)) with k by lia.
      rewrite E, X, N.mul_sub_distr_l, N.mul_1_r, <- N.pow_add_r. replace (k + (32 - k)) with 32 by lia. reflexivity.
    + intros [Hp X]. rewrite mask_factor in X by assumption.
      destruct (N.eq_dec p 0) as [->|Hp0]; [rewrite N.pow_0_r in X; change (1 - 1) with 0 in X; rewrite N.mul_0_r in X; discriminate|].
      assert (Z : zero_bits_pos q = 32 - p).
      { apply (zero_bits_odd q (2 ^ N.pred p - 1)). rewrite X. f_equal.
        replace p with (N.succ (N.pred p)) at 1 by lia. rewrite N.pow_succ_r'. pose proof (pow_pos2 (N.pred p)). lia. }
      fold k in Z. replace (32 - k) with p by lia.
      assert (Y : 2 * o + 1 = 2 ^ p - 1).
      { rewrite X, <- Z in E. apply N.mul_cancel_l in E; [symmetry; exact E|]. apply N.pow_nonzero. lia. }
      rewrite Y, N.eqb_refl. reflexivity.
Qed.

Lemma prefix_err n e : prefix_from_int n = Err e -> e = ValueError.
Proof. unfold prefix_from_int. destruct (_ =? _); congruence. Qed.

Lemma log2_32 n : n < 2 ^ 32 -> n = 0 \/ N.log2 n < 32.
Proof. intros H. destruct (N.eq_dec n 0); [auto|]. right. apply N.log2_lt_pow2; lia. Qed.

Lemma xor_ones n : n < 2 ^ 32 -> N.lxor n (N.ones 32) = 2 ^ 32 - 1 - n.
Proof.
  intros H. change (N.lxor n (N.ones 32)) with (N.lnot n 32).
  destruct (log2_32 n H) as [->|L]; [reflexivity|]. rewrite N.lnot_sub_low by assumption. reflexivity.
Qed.

Lemma host_net n p : n < 2 ^ 32 -> (netmask (2 ^ 32 - 1 - n) p <-> hostmask n p).
Proof.
  intros H. unfold netmask, hostmask.
  split; intros [Hp E]; split; try assumption;
    pose proof (pow_pos2 (32 - p)); assert (2 ^ (32 - p) <= 2 ^ 32) by (apply N.pow_le_mono_r; lia);
    set (P := 2 ^ (32 - p)) in *; change (2 ^ 32) with 4294967296 in *; lia.
Qed.

Lemma address_bound a b c d : octets a b c d -> address a b c d < 2 ^ 32.
Proof. unfold octets, address. change (2 ^ 24) with 16777216. change (2 ^ 16) with 65536. change (2 ^ 8) with 256. change (2 ^ 32) with 4294967296. lia. Qed.

Lemma int_prefix p : p <= 32 -> int_from_prefix p = N.lnot (N.ones (32 - p)) 32.
Proof.
  intros H. unfold int_from_prefix. rewrite N.lxor_comm. unfold N.lnot. f_equal.
  rewrite N.shiftr_div_pow2. apply N.ones_div_pow2. assumption.
Qed.

Lemma network_base ip p : ip < 2 ^ 32 -> p <= 32 -> N.land ip (int_from_prefix p) = ip / 2 ^ (32 - p) * 2 ^ (32 - p).
Proof.
  intros Hi Hp. rewrite int_prefix by assumption.
  destruct (log2_32 ip Hi) as [->|L].
  - rewrite N.land_0_l, N.div_0_l by (apply N.pow_nonzero; lia). reflexivity.
  - rewrite <- N.ldiff_land_low by assumption. rewrite N.ldiff_ones_r, N.shiftl_mul_pow2, N.shiftr_div_pow2. reflexivity.
Qed.

Theorem network_read ip a b c d p :
  ip < 2 ^ 32 -> octets a b c d ->
  (ipv4_network ip (join 46 [dec a; dec b; dec c; dec d]) = Ok (ip / 2 ^ (32 - p) * 2 ^ (32 - p), p) <->
   netmask (address a b c d) p \/ (hostmask (address a b c d) p /\ forall q, ~ netmask (address a b c d) q)) /\
  ((forall q, ~ netmask (address a b c d) q /\ ~ hostmask (address a b c d) q) ->
   ipv4_network ip (join 46 [dec a; dec b; dec c; dec d]) = Err ValueError).
Proof.
  intros Hi Ho. unfold ipv4_network, prefix_from_ip_string. change 46 with c_dot. rewrite ip_from_dotted.
  pose proof (address_bound _ _ _ _ Ho) as Hb. destruct Ho as (H1 & H2 & H3 & H4).
  apply N.leb_le in H1, H2, H3, H4. rewrite H1, H2, H3, H4. cbn [andb bind]. set (n := address a b c d) in *.
  rewrite xor_ones by assumption.
  destruct (prefix_from_int n) as [q|e] eqn:E.
  - apply prefix_ok in E; [|assumption]. cbn [bind]. split.
    + split.
      * intros [= _ ->]. auto.
      * intros [H|[_ H]]; [|exfalso; exact (H q E)].
        assert (q = p) as ->; [|rewrite network_base; [reflexivity|assumption|apply E]].
        apply prefix_ok in E, H; try assumption. congruence.
    + intros H. exfalso. apply (proj1 (H q)), E.
  - assert (NM : forall q, ~ netmask n q).
    { intros q Hq. apply prefix_ok in Hq; [|assumption]. congruence. }
    destruct (prefix_from_int (2 ^ 32 - 1 - n)) as [q|e'] eqn:E'.
    + apply prefix_ok in E'; [|lia]. apply host_net in E'; [|assumption]. cbn [bind]. split.
      * split.
        -- intros [= _ ->]. auto.
        -- intros [H|[H _]]; [exfalso; exact (NM _ H)|].
           assert (q = p) as ->; [|rewrite network_base; [reflexivity|assumption|apply E']].
           apply host_net in E', H; try assumption. apply prefix_ok in E', H; try lia. congruence.
      * intros H. exfalso. apply (proj2 (H q)), E'.
    + cbn [bind]. split.
      * split; [discriminate|]. intros [H|[H _]]; [exfalso; exact (NM _ H)|].
        apply host_net in H; [|assumption]. apply prefix_ok in H; [congruence|lia].
      * intros _. apply prefix_err in E'. subst. reflexivity.
Qed.

(** ** MAC address, model, versions, uptime *)

Theorem mac_read a b c d e f : mac_of [a; b; c; d; e; f] = Ok (join 58 [a; b; c; d; e; f]).
Proof. reflexivity. Qed.

(** A decimal number is never its own two-digit hexadecimal form. *)
Theorem dec_not_hex n : n <= 255 -> dec n <> hex2 n.
Proof.
  intros H E.
  assert (C : forallb (fun k => negb (str_eqb (dec (N.of_nat k)) (hex2 (N.of_nat k)))) (seq 0 256) = true) by (vm_compute; reflexivity).
  rewrite forallb_forall in C. specialize (C (N.to_nat n)). rewrite N2Nat.id in C.
  specialize (C ltac:(apply in_seq; lia)). rewrite E, str_eqb_refl in C. discriminate.
Qed.

Lemma nocolon n : ~ In 58 (dec n).
Proof.
  intros H. pose proof (dec_digits n) as D. unfold all_digits in D. rewrite forallb_forall in D. apply D in H. discriminate.
Qed.
Lemma hex_nocolon n : n <= 255 -> ~ In 58 (hex2 n).
Proof.
  intros Hn. unfold hex2, hexdigit.
  assert (n / 16 < 16) by (apply N.div_lt_upper_bound; lia). assert (n mod 16 < 16) by (apply N.mod_lt; lia).
  intros [H'|[H'|[]]]; revert H'; [destruct (N.ltb_spec (n / 16) 10)|destruct (N.ltb_spec (n mod 16) 10)]; intros H'; lia.
Qed.

Theorem mac_wrong a b c d e f :
  a <= 255 -> b <= 255 -> c <= 255 -> d <= 255 -> e <= 255 -> f <= 255 ->
  mac_of [dec a; dec b; dec c; dec d; dec e; dec f] <> Ok (join 58 [hex2 a; hex2 b; hex2 c; hex2 d; hex2 e; hex2 f]).
Proof.
  intros Ha Hb Hc Hd He Hf E. rewrite mac_read in E.
  assert (J : join 58 [dec a; dec b; dec c; dec d; dec e; dec f] = join 58 [hex2 a; hex2 b; hex2 c; hex2 d; hex2 e; hex2 f]) by congruence.
  apply join_inj in J.
  - apply (dec_not_hex a Ha). congruence.
  - discriminate.
  - discriminate.
  - repeat (apply Forall_cons; [apply nocolon|]). apply Forall_nil.
  - repeat (apply Forall_cons; [apply hex_nocolon; assumption|]). apply Forall_nil.
Qed.

Theorem version_read v r b more : version_of (v :: r :: b :: more) = Ok (v ++ 46 :: r ++ 46 :: b).
Proof. unfold version_of. cbn [index nth_error bind join]. unfold c_dot. reflexivity. Qed.

Theorem version_short vs : (length vs < 3)%nat -> version_of vs = Err IndexError.
Proof. destruct vs as [|a [|b [|c vs]]]; cbn; intros; try reflexivity. lia. Qed.

Lemma models_known v : In v gateway_models <-> known_model v.
Proof.
  split.
  - intros H. cbn [In gateway_models] in H. repeat (destruct H as [<-|H]; [constructor|]). contradiction.
  - intros []; cbn [In gateway_models]; tauto.
Qed.

Theorem model_read v more :
  (known_model v -> model_of (v :: more) = Ok v) /\ (~ known_model v -> model_of (v :: more) = Ok (lit "0")).
Proof.
  rewrite <- models_known.
  unfold model_of, gateway_model. cbn [index nth_error bind]. split; intros H.
  - apply str_in_spec in H. rewrite H. reflexivity.
  - destruct (str_in v gateway_models) eqn:E; [|reflexivity]. apply str_in_spec in E. contradiction.
Qed.

Theorem uptime_read sd sh sm ss d h m x more :
  number sd d -> number sh h -> number sm m -> number ss x ->
  let total := (86400 * Z.of_N d + 3600 * Z.of_N h + 60 * Z.of_N m + Z.of_N x)%Z in
  uptime_of (sd :: sh :: sm :: ss :: more) = if (total <? 86400 * 1000000000)%Z then Ok total else Err OverflowError.
Proof.
  intros Hd Hh Hm Hx total. unfold uptime_of. cbn [index nth_error bind].
  rewrite (number_int _ _ Hd), (number_int _ _ Hh), (number_int _ _ Hm), (number_int _ _ Hx). cbn [bind].
  unfold mk_timedelta. fold total. assert (0 <= total)%Z by (unfold total; lia).
  rewrite Z.abs_eq by (apply Z.div_pos; lia).
  destruct (Z.ltb_spec total (86400 * 1000000000)) as [L|L].
  - rewrite (proj2 (Z.leb_le _ _)); [reflexivity|].
    assert (total / 86400 < 1000000000)%Z by (apply Z.div_lt_upper_bound; lia). lia.
  - rewrite (proj2 (Z.leb_gt _ _)); [reflexivity|].
    assert (1000000000 <= total / 86400)%Z by (apply Z.div_le_lower_bound; lia). lia.
Qed.

(** ** Whatever is read is a time *)

Lemma zone_valid t off : parse_own_timezone t = Ok off -> exists z, (off = 3600 * z /\ Z.abs z < 24)%Z.
Proof.
  unfold parse_own_timezone. destruct t as [|c r]; [intros [= <-]; exists 0%Z; split; reflexivity|].
  destruct (py_int (firstn 2 r)) as [h|]; [|discriminate]. cbn [bind]. unfold mk_timezone.
  destruct (Z.ltb_spec (Z.abs (if c =? 48 then h else - h)) 24) as [L|L]; [|discriminate].
  intros [= <-]. eexists. split; [reflexivity|exact L].
Qed.

Lemma time_fields_valid h m s : time_fields h m s = true -> (0 <= h <= 23 /\ 0 <= m <= 59 /\ 0 <= s <= 59)%Z.
Proof. unfold time_fields. rewrite !andb_true_iff, !Z.leb_le. lia. Qed.

Theorem time_read_valid vs t : time_of vs = Ok t ->
  (0 <= t_hour t <= 23 /\ 0 <= t_minute t <= 59 /\ 0 <= t_second t <= 59)%Z /\ exists z, (t_offset t = 3600 * z /\ Z.abs z < 24)%Z.
Proof.
  unfold time_of. destruct vs as [|a [|b [|c [|d [|]]]]]; try discriminate.
  destruct (py_int a) as [h|]; [|discriminate]. destruct (py_int b) as [m|]; [|discriminate].
  destruct (py_int c) as [s|]; [|discriminate]. cbn [bind]. destruct (parse_own_timezone d) as [off|] eqn:Z1; [|discriminate]. cbn [bind].
  unfold mk_time. destruct (c_ints _); [|discriminate]. cbn [bind]. destruct (time_fields h m s) eqn:T; [|discriminate].
  intros [= <-]. cbn. split; [apply time_fields_valid, T|apply (zone_valid d off Z1)].
Qed.

Theorem datetime_read_valid vs d t : datetime_of vs = Ok (d, t) ->
  calendar_date d /\ (0 <= t_hour t <= 23 /\ 0 <= t_minute t <= 59 /\ 0 <= t_second t <= 59)%Z /\
  exists z, (t_offset t = 3600 * z /\ Z.abs z < 24)%Z.
Proof.
  unfold datetime_of. intros H.
  repeat match type of H with bind ?x _ = _ => let v := fresh "v" in let E := fresh "E" in destruct x as [v|] eqn:E; [|discriminate]; cbn [bind] in H end.
  unfold mk_datetime in H. destruct (c_ints [_; _; _; _; _; _]) eqn:C; [|discriminate]. cbn [bind] in H.
  match type of H with (if ?b then _ else _) = _ => destruct b eqn:D; [|discriminate] end.
  match type of H with (if ?b then _ else _) = _ => destruct b eqn:T; [|discriminate] end.
  injection H as <- <-. cbn. split; [apply date_fields_spec, D|]. split; [apply time_fields_valid, T|].
  match goal with Z1 : parse_own_timezone _ = Ok ?off |- exists z, (?off = _ /\ _)%Z => exact (zone_valid _ _ Z1) end.
Qed.
