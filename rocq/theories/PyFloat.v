(** * float() of a text of digits

    CPython converts decimal text with correct rounding (Python/dtoa.c,
    round half to even, binary64).  The values of a message consist of digits
    and hashes, so only natural numbers occur; a float is the natural number it
    stands for, or infinity. *)
From Coq Require Import String List NArith ZArith Bool Lia.
From Verif Require Import PyStr.
Import ListNotations.
Open Scope N_scope.
Open Scope list_scope.

Inductive pyfloat := Fin (n : N) | Inf.

(** Rounding to 53 significant bits, half to even. *)
Definition round53 (n : N) : N :=
  let l := N.size n in
  if l <=? 53 then n
  else
    let k := l - 53 in
    let q := n / 2 ^ k in
    let r := n mod 2 ^ k in
    let up := (2 ^ (k - 1) <? r) || ((r =? 2 ^ (k - 1)) && N.odd q) in
    (if up then q + 1 else q) * 2 ^ k.

(** The conversion overflows to infinity, it does not raise. *)
Definition float_of_N (n : N) : pyfloat :=
  let r := round53 n in
  if N.size r <=? 1024 then Fin r else Inf.

(** [float(s)] for text without spaces, signs, points, exponents, underscores
    and letters, which the values of a message never contain.  There is no
    limit on the number of digits. *)
Definition py_float (s : str) : res pyfloat :=
  if str_eqb s [] then Err ValueError
  else if all_digits s then Ok (float_of_N (dval s)) else Err ValueError.
