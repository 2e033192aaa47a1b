(** * AuthOpen: pyown/auth/open.py *)
From Coq Require Import String List NArith ZArith Bool Lia.
From Verif Require Import PyStr.
Import ListNotations.
Open Scope Z_scope.
Open Scope list_scope.

Definition mask32 : Z := 4294967295.       (* 0xFFFFFFFF *)

(** auth/open.py:30-56, the if/elif chain on one character: the new (num1, num2). *)
Definition own_branch (c : N) (num2 : Z) : Z * Z :=
  if N.eqb c 49 then (Z.shiftr (Z.land num2 4294967168) 7, Z.shiftl num2 25)           (* "1": 0xFFFFFF80 *)
  else if N.eqb c 50 then (Z.shiftr (Z.land num2 4294967280) 4, Z.shiftl num2 28)      (* "2": 0xFFFFFFF0 *)
  else if N.eqb c 51 then (Z.shiftr (Z.land num2 4294967288) 3, Z.shiftl num2 29)      (* "3": 0xFFFFFFF8 *)
  else if N.eqb c 52 then (Z.shiftl num2 1, Z.shiftr num2 31)                          (* "4" *)
  else if N.eqb c 53 then (Z.shiftl num2 5, Z.shiftr num2 27)                          (* "5" *)
  else if N.eqb c 54 then (Z.shiftl num2 12, Z.shiftr num2 20)                         (* "6" *)
  else if N.eqb c 55 then                                                              (* "7" *)
    (Z.lor (Z.lor (Z.land num2 65280) (Z.shiftl (Z.land num2 255) 24)) (Z.shiftr (Z.land num2 16711680) 16),
     Z.shiftr (Z.land num2 4278190080) 8)
  else if N.eqb c 56 then                                                              (* "8" *)
    (Z.lor (Z.shiftl (Z.land num2 65535) 16) (Z.shiftr num2 24), Z.shiftr (Z.land num2 16711680) 8)
  else if N.eqb c 57 then (Z.lnot num2, num2)                                          (* "9" *)
  else (num2, num2).

Record own_st := { o_start : bool; o_num1 : Z; o_num2 : Z }.

(** auth/open.py:25-62, the body of the loop. *)
Definition own_step (password : Z) (s : own_st) (c : N) : own_st :=
  let nz := negb (N.eqb c 48) in
  let num2 := if nz && o_start s then password else o_num2 s in
  let start := if nz then false else o_start s in
  let '(a, b) := own_branch c num2 in
  let a := Z.land a mask32 in
  let b := Z.land b mask32 in
  let a := if N.eqb c 48 || N.eqb c 57 then a else Z.lor a b in
  {| o_start := start; o_num1 := a; o_num2 := a |}.

(** auth/open.py:16-64 for an int password. *)
Definition own_calc_int (password : Z) (nonce : str) : Z :=
  o_num1 (fold_left (own_step password) nonce {| o_start := true; o_num1 := 0; o_num2 := 0 |}).

(** auth/open.py:4-64 own_calc_pass, with both arguments str as the client calls
    it (client/base.py:147): int(password) may raise ValueError. *)
Definition own_calc_pass (password nonce : str) : res str :=
  do p <- py_int password;
  py_str_int (own_calc_int p nonce).
