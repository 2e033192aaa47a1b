(** * Specification of the OPEN password transform

    A word is its 32 bits, least significant first.  Every character of the nonce
    acts on the word. *)
From Coq Require Import String List NArith ZArith Bool Lia.
From Verif Require Import PyStr.
Import ListNotations.
Open Scope list_scope.

Definition word := list bool.

Definition bits (x : Z) : word := map (fun i => Z.testbit x (Z.of_nat i)) (seq 0 32).

Fixpoint value (w : word) : Z :=
  match w with [] => 0%Z | b :: r => (Z.b2z b + 2 * value r)%Z end.

(** Rotations of the word. *)
Definition rot_right (k : nat) (w : word) : word := skipn k w ++ firstn k w.
Definition rot_left (k : nat) (w : word) : word := rot_right (32 - k) w.

(** The four bytes, least significant first. *)
Definition byte (k : nat) (w : word) : list bool := firstn 8 (skipn (8 * k) w).

(** The action of one character: '1', '2', '3' rotate right by 7, 4, 3; '4', '5',
    '6' rotate left by 1, 5, 12; '7' and '8' permute the bytes; '9' complements;
    any other character does nothing. *)
Definition act (c : N) (w : word) : word :=
  match c with
  | 49%N => rot_right 7 w
  | 50%N => rot_right 4 w
  | 51%N => rot_right 3 w
  | 52%N => rot_left 1 w
  | 53%N => rot_left 5 w
  | 54%N => rot_left 12 w
  | 55%N => byte 2 w ++ byte 1 w ++ byte 3 w ++ byte 0 w
  | 56%N => byte 3 w ++ byte 2 w ++ byte 0 w ++ byte 1 w
  | 57%N => map negb w
  | _ => w
  end.

Definition transform (nonce : str) (w : word) : word := fold_left (fun w c => act c w) nonce w.

(** The inverse action, for an eavesdropper. *)
Definition undo (c : N) (w : word) : word :=
  match c with
  | 49%N => rot_left 7 w
  | 50%N => rot_left 4 w
  | 51%N => rot_left 3 w
  | 52%N => rot_right 1 w
  | 53%N => rot_right 5 w
  | 54%N => rot_right 12 w
  | 55%N => byte 3 w ++ byte 1 w ++ byte 0 w ++ byte 2 w
  | 56%N => byte 2 w ++ byte 3 w ++ byte 1 w ++ byte 0 w
  | 57%N => map negb w
  | _ => w
  end.

(** From the nonce and the answer back to the password. *)
Definition recover (nonce : str) (answer : Z) : Z :=
  value (fold_left (fun w c => undo c w) (rev nonce) (bits answer)).

(** The nonce has a character other than '0'. *)
Definition active (nonce : str) : Prop := exists c, In c nonce /\ c <> 48%N.
