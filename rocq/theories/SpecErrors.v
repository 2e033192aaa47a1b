(** * Specification vocabulary for the contents of exceptions *)
From Coq Require Import String List NArith ZArith Bool Lia.
From Verif Require Import PyStr Tags Messages SpecMsg SpecTag Errors.
Import ListNotations.
Open Scope N_scope.
Open Scope list_scope.

(** The call [r] raises an exception of class [e] about the text [t]. *)
Definition blames {A} (r : xres A) (e : exn) (t : str) : Prop :=
  r = Raise {| r_class := e; r_what := Some t |}.

(** How Python writes the arguments a tag can be made of. *)
Inductive written : pyarg -> str -> Prop :=
| W_str s : written (AStr s) s
| W_int n t : numeral n t -> written (AInt (Z.of_N n)) t
| W_negative n t : n <> 0 -> numeral n t -> written (AInt (- Z.of_N n)) (45 :: t)
| W_true : written (ABool true) [84; 114; 117; 101]
| W_false : written (ABool false) [70; 97; 108; 115; 101].

(** [t] is [s], possibly without white space around it. *)
Definition about (s t : str) : Prop := exists w1 w2, white w1 /\ white w2 /\ s = w1 ++ t ++ w2.

(** The call raises an exception of class [e]. *)
Definition raises {A} (r : xres A) (e : exn) : Prop := exists w, r = Raise {| r_class := e; r_what := w |}.
