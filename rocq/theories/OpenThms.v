(** * Theorems about the OPEN password transform *)
From Coq Require Import String List NArith ZArith Bool Lia.
From Verif Require Import PyStr Tags SpecMsg MessageThms SpecTag TagThms AuthOpen SpecOpen.
Import ListNotations.
Open Scope Z_scope.
Open Scope list_scope.

(** ** Words and numbers *)

Lemma testbit_value w i : 0 <= i -> Z.testbit (value w) i = nth (Z.to_nat i) w false.
Proof.
  revert i. induction w as [|b w IH]; intros i Hi; cbn [value].
  - rewrite Z.testbit_0_l. destruct (Z.to_nat i); reflexivity.
  - rewrite Z.add_comm. destruct (Z.eq_dec i 0) as [->|N].
    + rewrite Z.testbit_0_r. reflexivity.
    + replace i with (Z.succ (i - 1)) by lia. rewrite Z.testbit_succ_r by lia. rewrite IH by lia.
      replace (Z.to_nat (Z.succ (i - 1))) with (S (Z.to_nat (i - 1))) by lia. reflexivity.
Qed.

Lemma value_range w : 0 <= value w < 2 ^ Z.of_nat (length w).
Proof.
  induction w as [|b w IH]; [cbn; lia|]. cbn [value length]. rewrite Nat2Z.inj_succ, Z.pow_succ_r by lia.
  destruct b; cbn [Z.b2z]; lia.
Qed.

Lemma bits_length x : length (bits x) = 32%nat.
Proof. reflexivity. Qed.

Lemma nth_bits x i : (i < 32)%nat -> nth i (bits x) false = Z.testbit x (Z.of_nat i).
Proof.
  intros H. unfold bits. rewrite (nth_indep _ false (Z.testbit x (Z.of_nat 0))) by (rewrite map_length, seq_length; exact H).
  rewrite (map_nth (fun i => Z.testbit x (Z.of_nat i))), seq_nth by exact H. reflexivity.
Qed.

Lemma value_bits x : value (bits x) = x mod 2 ^ 32.
Proof.
  apply Z.bits_inj'. intros i Hi. rewrite testbit_value by exact Hi.
  destruct (Z.lt_ge_cases i 32) as [L|L].
  - rewrite Z.mod_pow2_bits_low by exact L. rewrite nth_bits by lia. f_equal. lia.
  - rewrite Z.mod_pow2_bits_high by lia. apply nth_overflow. rewrite bits_length. lia.
Qed.

Lemma bits_value w : length w = 32%nat -> bits (value w) = w.
Proof.
  intros L. apply (nth_ext _ _ false false); [rewrite bits_length; congruence|].
  intros i Hi. rewrite bits_length in Hi. rewrite nth_bits by exact Hi. rewrite testbit_value by lia.
  f_equal. lia.
Qed.

Lemma bits_mod x : bits (x mod 2 ^ 32) = bits x.
Proof. rewrite <- value_bits. apply bits_value, bits_length. Qed.

Lemma high_bits x k : 0 <= x < 2 ^ 32 -> 32 <= k -> Z.testbit x k = false.
Proof.
  intros H K. rewrite <- (Z.mod_small x (2 ^ 32)) by exact H. apply Z.mod_pow2_bits_high. lia.
Qed.

Lemma land_mask x : Z.land x mask32 = x mod 2 ^ 32.
Proof. change mask32 with (Z.ones 32). apply Z.land_ones. lia. Qed.

(** ** One step *)

Definition small (x : Z) : Prop := 0 <= x < 2 ^ 32.

Lemma small_mask x : small (Z.land x mask32).
Proof. unfold small. rewrite land_mask. apply Z.mod_pos_bound. lia. Qed.

Lemma small_lor x y : small x -> small y -> small (Z.lor x y).
Proof.
  unfold small. intros Hx Hy.
  assert (E : Z.lor x y = Z.land (Z.lor x y) mask32).
  { rewrite Z.land_lor_distr_l, !land_mask, !Z.mod_small by assumption. reflexivity. }
  rewrite E. apply small_mask.
Qed.

Ltac tb H :=
  repeat match goal with
  | |- context [Z.testbit (Z.lor ?a ?b) ?k] => rewrite (Z.lor_spec a b k)
  | |- context [Z.testbit (Z.land ?a ?b) ?k] => rewrite (Z.land_spec a b k)
  | |- context [Z.testbit (Z.lnot ?a) ?k] => rewrite (Z.lnot_spec a k) by lia
  | |- context [Z.testbit (Z.shiftr ?a ?n) ?k] =>
      rewrite (Z.shiftr_spec a n k) by lia;
      let v := eval vm_compute in (k + n) in change (k + n) with v
  | |- context [Z.testbit (Z.shiftl ?a ?n) ?k] =>
      rewrite (Z.shiftl_spec a n k) by lia;
      let v := eval vm_compute in (k - n) in change (k - n) with v
  | |- context [Z.testbit (Zpos ?c) ?k] =>
      let v := eval vm_compute in (Z.testbit (Zpos c) k) in change (Z.testbit (Zpos c) k) with v
  | |- context [Z.testbit ?x (Zneg ?k)] => rewrite (Z.testbit_neg_r x (Zneg k)) by lia
  | |- context [Z.testbit ?x (Zpos ?k)] =>
      let v := eval vm_compute in (Z.leb 32 (Zpos k)) in
      match v with true => rewrite (high_bits x (Zpos k) H) by lia end
  end.

Definition step_out (c : N) (x : Z) : Z :=
  let '(a, b) := own_branch c x in
  let a := Z.land a mask32 in
  let b := Z.land b mask32 in
  if N.eqb c 48 || N.eqb c 57 then a else Z.lor a b.

Lemma step_out_small c x : small (step_out c x).
Proof.
  unfold step_out. destruct (own_branch c x) as [a b].
  destruct (_ || _); [apply small_mask|]. apply small_lor; apply small_mask.
Qed.

Lemma cons_eq {A} (a b : A) l r : a = b -> l = r -> a :: l = b :: r.
Proof. congruence. Qed.

Ltac bitlist H :=
  unfold bits, step_out, own_branch, act, rot_left, rot_right, byte, mask32;
  cbn [N.eqb Pos.eqb orb andb];
  cbn [seq map skipn firstn app Nat.sub Nat.mul Nat.add];
  cbn [Z.of_nat Pos.of_succ_nat Pos.succ];
  repeat (apply cons_eq; [tb H; rewrite ?andb_true_r, ?andb_false_r, ?orb_false_r, ?orb_false_l, ?orb_true_r;
                    rewrite ?andb_false_l, ?orb_false_r, ?orb_false_l, ?orb_diag; reflexivity|]);
  try reflexivity.

Lemma step_bits c x : small x -> bits (step_out c x) = act c (bits x).
Proof.
  intros H. unfold small in H.
  destruct (N.eq_dec c 49) as [->|N1]; [bitlist H|].
  destruct (N.eq_dec c 50) as [->|N2]; [bitlist H|].
  destruct (N.eq_dec c 51) as [->|N3]; [bitlist H|].
  destruct (N.eq_dec c 52) as [->|N4]; [bitlist H|].
  destruct (N.eq_dec c 53) as [->|N5]; [bitlist H|].
  destruct (N.eq_dec c 54) as [->|N6]; [bitlist H|].
  destruct (N.eq_dec c 55) as [->|N7]; [bitlist H|].
  destruct (N.eq_dec c 56) as [->|N8]; [bitlist H|].
  destruct (N.eq_dec c 57) as [->|N9]; [bitlist H|].
  assert (A : act c (bits x) = bits x).
  { unfold act. destruct c as [|p]; [reflexivity|].
    do 6 (destruct p as [p|p|]; try reflexivity); congruence. }
  rewrite A. unfold step_out, own_branch.
  apply N.eqb_neq in N1, N2, N3, N4, N5, N6, N7, N8, N9. rewrite N1, N2, N3, N4, N5, N6, N7, N8, N9.
  cbn [orb]. rewrite !land_mask, Z.lor_diag. destruct (_ || _); apply bits_mod.
Qed.

(** ** The loop *)

Definition at_ (x : Z) : own_st := {| o_start := false; o_num1 := x; o_num2 := x |}.
Definition before : own_st := {| o_start := true; o_num1 := 0; o_num2 := 0 |}.

Lemma step_started p x c : own_step p (at_ x) c = at_ (step_out c x).
Proof.
  unfold own_step, at_, step_out. cbn [o_start o_num1 o_num2]. rewrite andb_false_r.
  destruct (own_branch c x) as [a b]. destruct (N.eqb c 48); reflexivity.
Qed.

Lemma step_first p c : c <> 48%N -> own_step p before c = at_ (step_out c p).
Proof.
  intros N. apply N.eqb_neq in N. unfold own_step, before, at_, step_out. cbn [o_start o_num1 o_num2]. rewrite N.
  cbn [negb andb]. destruct (own_branch c p) as [a b]. reflexivity.
Qed.

Lemma step_zero p : own_step p before 48%N = before.
Proof. reflexivity. Qed.

Lemma step_zero_started x : small x -> step_out 48%N x = x.
Proof. intros H. unfold step_out, own_branch. cbn. rewrite land_mask. apply Z.mod_small, H. Qed.

Lemma act_length c w : length w = 32%nat -> length (act c w) = 32%nat.
Proof.
  intros L. unfold act.
  destruct c as [|q]; [exact L|].
  do 6 (destruct q as [q|q|]; try exact L);
    unfold rot_left, rot_right, byte; rewrite ?map_length, ?app_length, ?firstn_length, ?skipn_length, ?L; try reflexivity.
Qed.

Lemma transform_length n w : length w = 32%nat -> length (transform n w) = 32%nat.
Proof. revert w. induction n as [|c n IH]; intros w L; [exact L|]. apply IH, act_length, L. Qed.

Lemma small_value x : small x -> value (bits x) = x.
Proof. intros H. rewrite value_bits. apply Z.mod_small, H. Qed.

Lemma loop_started p n x :
  small x -> fold_left (own_step p) n (at_ x) = at_ (value (transform n (bits x))).
Proof.
  revert x. induction n as [|c n IH]; intros x H; cbn [fold_left].
  - unfold transform. cbn [fold_left]. rewrite small_value by exact H. reflexivity.
  - rewrite step_started, IH by apply step_out_small. rewrite step_bits by exact H. reflexivity.
Qed.

Lemma split_active n : active n -> exists k c r, n = repeat 48%N k ++ c :: r /\ c <> 48%N.
Proof.
  induction n as [|a n IH]; intros (c & H & N); [destruct H|].
  destruct (N.eq_dec a 48) as [->|Na].
  - destruct H as [H|H]; [congruence|]. destruct IH as (k & d & r & -> & Nd); [exists c; auto|].
    exists (S k), d, r. auto.
  - exists O, a, n. auto.
Qed.

Lemma zeros_before p k : fold_left (own_step p) (repeat 48%N k) before = before.
Proof. induction k as [|k IH]; [reflexivity|]. cbn [repeat fold_left]. rewrite step_zero. exact IH. Qed.

Lemma transform_zeros k w : transform (repeat 48%N k) w = w.
Proof. induction k as [|k IH]; [reflexivity|]. exact IH. Qed.

Lemma transform_app a b w : transform (a ++ b) w = transform b (transform a w).
Proof. unfold transform. apply fold_left_app. Qed.

Lemma calc_split p k c r :
  c <> 48%N -> own_calc_int p (repeat 48%N k ++ c :: r) = value (transform r (bits (step_out c p))).
Proof.
  intros N. unfold own_calc_int. rewrite fold_left_app. cbn [fold_left].
  change {| o_start := true; o_num1 := 0; o_num2 := 0 |} with before.
  rewrite zeros_before, step_first by exact N. rewrite loop_started by apply step_out_small. reflexivity.
Qed.

Theorem calc_spec p n : 0 <= p < 2 ^ 32 -> active n -> own_calc_int p n = value (transform n (bits p)).
Proof.
  intros H A. destruct (split_active n A) as (k & c & r & -> & N). rewrite calc_split by exact N.
  rewrite step_bits by exact H. rewrite transform_app, transform_zeros. reflexivity.
Qed.

Lemma step_hash p : step_out 35%N p = p mod 2 ^ 32.
Proof. unfold step_out, own_branch. cbn. rewrite !land_mask, Z.lor_diag. reflexivity. Qed.

(** With the '#' the gateway's nonce starts with, for any integer password. *)
Theorem calc_hash p n : own_calc_int p (35%N :: n) = value (transform n (bits p)).
Proof.
  pose proof (calc_split p 0 35%N n) as C. cbn [repeat app] in C. rewrite C by discriminate.
  rewrite step_hash, bits_mod. reflexivity.
Qed.

Lemma not_active n : ~ active n -> n = repeat 48%N (length n).
Proof.
  induction n as [|c n IH]; intros H; [reflexivity|]. cbn [length repeat].
  destruct (N.eq_dec c 48) as [->|N]; [|exfalso; apply H; exists c; split; [left; reflexivity|exact N]].
  f_equal. apply IH. intros (d & Hd & Nd). apply H. exists d. split; [right; exact Hd|exact Nd].
Qed.

Theorem calc_zeros p k : own_calc_int p (repeat 48%N k) = 0.
Proof. unfold own_calc_int. change {| o_start := true; o_num1 := 0; o_num2 := 0 |} with before. rewrite zeros_before. reflexivity. Qed.

(** ** Range *)

Lemma step_small p s c : small (o_num1 (own_step p s c)).
Proof.
  unfold own_step. destruct (own_branch _ _) as [a b]. cbn [o_num1].
  destruct (_ || _); [apply small_mask|]. apply small_lor; apply small_mask.
Qed.

Theorem calc_range p n : 0 <= own_calc_int p n < 2 ^ 32.
Proof.
  unfold own_calc_int. destruct n as [|c n] using rev_ind; [cbn; lia|].
  rewrite fold_left_app. cbn [fold_left]. apply step_small.
Qed.

Lemma dec_length_small n : (n < 2 ^ 32)%N -> (slen (dec n) <= int_max_str_digits)%N.
Proof.
  intros H. unfold slen.
  assert (L : (length (dec n) <= 10)%nat).
  { assert (G : forall k m, (0 < k)%nat -> (m < 10 ^ N.of_nat k)%N -> (length (dec m) <= k)%nat).
    { apply dec_length_bound. }
    apply G; [lia|]. cbn. lia. }
  unfold int_max_str_digits. lia.
Qed.

Theorem pass_ok password nonce p :
  py_int password = Ok p ->
  own_calc_pass password nonce = Ok (dec (Z.to_N (own_calc_int p nonce))).
Proof.
  intros H. unfold own_calc_pass. rewrite H. cbn [bind]. pose proof (calc_range p nonce) as R.
  unfold py_str_int. assert (E : Z.abs_N (own_calc_int p nonce) = Z.to_N (own_calc_int p nonce)) by lia. rewrite E.
  assert (L : (slen (dec (Z.to_N (own_calc_int p nonce))) <= int_max_str_digits)%N) by (apply dec_length_small; lia).
  apply N.ltb_ge in L. rewrite L. destruct (Z.ltb_spec (own_calc_int p nonce) 0); [lia|]. reflexivity.
Qed.

(** ** Undoing *)

Lemma undo_act c w : length w = 32%nat -> undo c (act c w) = w.
Proof.
  intros L. do 32 (destruct w as [|? w]; [discriminate|]). destruct w; [|discriminate]. clear L.
  unfold act, undo. destruct c as [|q]; [reflexivity|].
  do 6 (destruct q as [q|q|]; try reflexivity).
  unfold rot_right. cbn [map]. rewrite !negb_involutive. reflexivity.
Qed.

Lemma undo_transform n w :
  length w = 32%nat -> fold_left (fun w c => undo c w) (rev n) (transform n w) = w.
Proof.
  revert w. induction n as [|c n IH]; intros w L; [reflexivity|].
  cbn [rev]. rewrite fold_left_app. change (transform (c :: n) w) with (transform n (act c w)).
  rewrite IH by (apply act_length, L). cbn [fold_left]. apply undo_act, L.
Qed.

Theorem recover_spec p n : 0 <= p < 2 ^ 32 -> active n -> recover n (own_calc_int p n) = p.
Proof.
  intros H A. rewrite calc_spec by assumption. unfold recover.
  rewrite bits_value by (apply transform_length, bits_length).
  rewrite undo_transform by apply bits_length. apply small_value, H.
Qed.

Theorem recover_hash p n : recover n (own_calc_int p (35%N :: n)) = p mod 2 ^ 32.
Proof.
  rewrite calc_hash. unfold recover. rewrite bits_value by (apply transform_length, bits_length).
  rewrite undo_transform by apply bits_length. apply value_bits.
Qed.

Theorem calc_injective p q n :
  0 <= p < 2 ^ 32 -> 0 <= q < 2 ^ 32 -> active n -> own_calc_int p n = own_calc_int q n -> p = q.
Proof.
  intros Hp Hq A E. rewrite <- (recover_spec p n Hp A), <- (recover_spec q n Hq A), E. reflexivity.
Qed.

Theorem calc_hash_injective p q n :
  own_calc_int p (35%N :: n) = own_calc_int q (35%N :: n) <-> p mod 2 ^ 32 = q mod 2 ^ 32.
Proof.
  split.
  - intros E. rewrite <- (recover_hash p n), <- (recover_hash q n), E. reflexivity.
  - intros E. rewrite !calc_hash, <- (bits_mod p), <- (bits_mod q), E. reflexivity.
Qed.

(** ** Zeros and '#' *)

Lemma own_states p n :
  fold_left (own_step p) n before = before \/ exists x, small x /\ fold_left (own_step p) n before = at_ x.
Proof.
  induction n as [|c n IH] using rev_ind; [left; reflexivity|]. rewrite fold_left_app. cbn [fold_left].
  destruct IH as [->|(x & Hx & ->)].
  - destruct (N.eq_dec c 48) as [->|N]; [left; apply step_zero|]. right. eexists. split; [|apply step_first, N]. apply step_out_small.
  - right. eexists. split; [|apply step_started]. apply step_out_small.
Qed.

Theorem delete_zero p a b : own_calc_int p (a ++ 48%N :: b) = own_calc_int p (a ++ b).
Proof.
  unfold own_calc_int. rewrite !fold_left_app. cbn [fold_left].
  change {| o_start := true; o_num1 := 0; o_num2 := 0 |} with before.
  destruct (own_states p a) as [->|(x & Hx & ->)]; [rewrite step_zero; reflexivity|].
  rewrite step_started, step_zero_started by exact Hx. reflexivity.
Qed.

Theorem hash_prefix p n : 0 <= p < 2 ^ 32 -> active n -> own_calc_int p (35%N :: n) = own_calc_int p n.
Proof. intros H A. rewrite calc_hash, calc_spec by assumption. reflexivity. Qed.

(** A nonce "#00...0": the answer is the password. *)
Theorem clear_password p k : 0 <= p < 2 ^ 32 -> own_calc_int p (35%N :: repeat 48%N k) = p.
Proof. intros H. rewrite calc_hash, transform_zeros. apply small_value, H. Qed.

(** ** The same on strings *)

Theorem pass_numeral password nonce p :
  py_int password = Ok p ->
  exists n s, own_calc_pass password nonce = Ok s /\ numeral n s /\ (n < 2 ^ 32)%N /\ Z.of_N n = own_calc_int p nonce.
Proof.
  intros H. pose proof (calc_range p nonce) as R.
  exists (Z.to_N (own_calc_int p nonce)), (dec (Z.to_N (own_calc_int p nonce))).
  split; [apply pass_ok, H|]. split; [apply numeral_dec; reflexivity|]. split; lia.
Qed.

Theorem pass_raises password nonce e : own_calc_pass password nonce = Err e <-> py_int password = Err e.
Proof.
  destruct (py_int password) as [p|x] eqn:P.
  - rewrite (pass_ok _ nonce p P). split; discriminate.
  - unfold own_calc_pass. rewrite P. cbn [bind]. split; congruence.
Qed.

Theorem pass_answer password nonce p s :
  py_int password = Ok p -> own_calc_pass password (35%N :: nonce) = Ok s ->
  numeral (Z.to_N (value (transform nonce (bits p)))) s.
Proof.
  intros H E. rewrite (pass_ok _ _ p H), calc_hash in E. injection E as <-. apply numeral_dec. reflexivity.
Qed.

Theorem pass_injective pw1 pw2 p1 p2 nonce s1 s2 :
  py_int pw1 = Ok p1 -> py_int pw2 = Ok p2 -> 0 <= p1 < 2 ^ 32 -> 0 <= p2 < 2 ^ 32 -> active nonce ->
  own_calc_pass pw1 nonce = Ok s1 -> own_calc_pass pw2 nonce = Ok s2 -> (s1 = s2 <-> p1 = p2).
Proof.
  intros H1 H2 R1 R2 A E1 E2. rewrite (pass_ok _ _ _ H1) in E1. rewrite (pass_ok _ _ _ H2) in E2.
  injection E1 as <-. injection E2 as <-. split.
  - intros E. apply dec_inj in E. pose proof (calc_range p1 nonce). pose proof (calc_range p2 nonce).
    apply (calc_injective p1 p2 nonce R1 R2 A). lia.
  - intros ->. reflexivity.
Qed.

Theorem pass_recover password p nonce s :
  py_int password = Ok p -> own_calc_pass password (35%N :: nonce) = Ok s ->
  recover nonce (Z.of_N (dval s)) = p mod 2 ^ 32.
Proof.
  intros H E. rewrite (pass_ok _ _ _ H) in E. injection E as <-. rewrite dval_dec.
  rewrite Z2N.id by (apply calc_range). apply recover_hash.
Qed.

Lemma value_of_dec s n : numeral n s -> Z.of_N (dval s) = Z.of_N n.
Proof. intros H. apply numeral_dec in H. subst. rewrite dval_dec. reflexivity. Qed.
