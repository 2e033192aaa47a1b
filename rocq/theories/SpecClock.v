(** * Which answers of the gateway's clock can be read *)
From Coq Require Import String List NArith ZArith Bool Lia.
From Verif Require Import PyStr SpecMsg SpecTag LightThms2 SpecGateway.
Import ListNotations.
Open Scope Z_scope.
Open Scope list_scope.

(** The zone field as it is read: nothing is UTC; else a sign, which is + if it
    is 0 and - otherwise, and the number in the next two places. *)
Definition zone_hours (t : str) (z : Z) : Prop :=
  (t = [] /\ z = 0) \/
  exists c r n, t = c :: r /\ number (firstn 2 r) n /\ (c = 48%N -> z = Z.of_N n) /\ (c <> 48%N -> z = - Z.of_N n).

(** The numbers of a time answer, of a date answer, of a date-and-time answer. *)
Definition time_numbers (vs : list str) (h m s : N) (z : Z) : Prop :=
  exists hs ms ss zs, vs = [hs; ms; ss; zs] /\ number hs h /\ number ms m /\ number ss s /\ zone_hours zs z /\ Z.abs z < 24.

Definition date_numbers (vs : list str) (d m y : N) : Prop :=
  exists w ds ms ys, vs = [w; ds; ms; ys] /\ number ds d /\ number ms m /\ number ys y.

Definition datetime_numbers (vs : list str) (h m s : N) (z : Z) (d mo y : N) : Prop :=
  exists hs ms ss zs w ds mos ys more, vs = hs :: ms :: ss :: zs :: w :: ds :: mos :: ys :: more /\
    number hs h /\ number ms m /\ number ss s /\ zone_hours zs z /\ Z.abs z < 24 /\ number ds d /\ number mos mo /\ number ys y.

Definition uptime_numbers (vs : list str) (d h m s : N) : Prop :=
  exists ds hs ms ss more, vs = ds :: hs :: ms :: ss :: more /\ number ds d /\ number hs h /\ number ms m /\ number ss s.

Definition clock_time (h m s : N) : Prop := (h <= 23 /\ m <= 59 /\ s <= 59)%N.

(** A number that does not fit into a C int. *)
Definition too_big (n : N) : Prop := (2 ^ 31 <= n)%N.

(** An answer that ends before the [n] values that are needed, of which those
    at the places [l] are numbers as far as they are there. *)
Definition cut_short (vs : list str) (n : nat) (l : list nat) : Prop :=
  (length vs < n)%nat /\ forall i v, In i l -> nth_error vs i = Some v -> exists k, number v k.
