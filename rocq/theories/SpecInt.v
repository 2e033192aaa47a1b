(** * What int() reads

    The grammar of Python's documentation (library/functions.html#int): blanks
    around, a sign, decimal digits of any script with single underscores
    between them, at most 4300 of them.  The table of scripts is data of
    Unicode. *)
From Coq Require Import String List NArith ZArith Bool Lia.
From Verif Require Import PyStr.
Import ListNotations.
Open Scope N_scope.
Open Scope list_scope.

Definition blank (c : N) : Prop :=
  9 <= c <= 13 \/ c = 32 \/ c = 133 \/ c = 160 \/ c = 5760 \/ 8192 <= c <= 8202 \/ c = 8232 \/ c = 8233 \/ c = 8239 \/ c = 8287 \/ c = 12288.

(** The character is the decimal digit [k] of some script. *)
Definition decimal (c k : N) : Prop := k <= 9 /\ (c = 48 + k \/ exists z, In z other_zeros /\ c = z + k).

Inductive literal : str -> list N -> Prop :=
| Lit_one c k : decimal c k -> literal [c] [k]
| Lit_digit c k s ks : decimal c k -> literal s ks -> literal (c :: s) (k :: ks)
| Lit_under c k s ks : decimal c k -> literal s ks -> literal (c :: 95 :: s) (k :: ks).

Definition worth (ks : list N) : N := fold_left (fun a k => 10 * a + k) ks 0.

Definition spelled (s : str) (v : Z) : Prop :=
  exists w1 sign b w2 ks, s = w1 ++ sign ++ b ++ w2 /\ Forall blank w1 /\ Forall blank w2 /\ literal b ks /\ N.of_nat (length ks) <= 4300 /\
    ((sign = [] \/ sign = [43]) /\ v = Z.of_N (worth ks) \/ sign = [45] /\ v = (- Z.of_N (worth ks))%Z).
