(** * Properties C01 to C05: tags *)
From Coq Require Import String List NArith ZArith Bool Lia.
From Verif Require Import PyStr Tags SpecMsg SpecTag TagThms.
Import ListNotations.
Open Scope N_scope.
Open Scope list_scope.

(** ** C01 Tag construction accepts exactly the protocol alphabet *)

Theorem C01_tag_from_str : forall s r,
  tag_make (AStr s) = r <-> (tagtext s /\ r = Ok s) \/ (~ tagtext s /\ r = Err InvalidTag).
Proof. exact tag_str. Qed.
Print Assumptions C01_tag_from_str.

Example C01_tag_from_str_ex :
  tag_make (AStr (lit "12#3")) = Ok (lit "12#3") /\ tag_make (AStr (lit "12*3")) = Err InvalidTag.
Proof. split; reflexivity. Qed.

Theorem C01_tag_from_int : forall z,
  (forall s, tag_make (AInt z) = Ok s <->
     (0 <= z)%Z /\ numeral (Z.to_N z) s /\ N.of_nat (length s) <= 4300) /\
  (forall e, tag_make (AInt z) = Err e ->
     (e = InvalidTag /\ (z < 0)%Z) \/ (e = ValueError /\ ~ printable_int (Z.abs_N z))).
Proof. exact tag_int. Qed.
Print Assumptions C01_tag_from_int.

Example C01_tag_from_int_ex :
  tag_make (AInt 1200) = Ok (lit "1200") /\ tag_make (AInt (-1)) = Err InvalidTag.
Proof. split; reflexivity. Qed.

Theorem C01_tag_from_bool : forall b, tag_make (ABool b) = Err InvalidTag.
Proof. exact tag_bool. Qed.
Print Assumptions C01_tag_from_bool.

(** ** C02 A parameterised tag is its tag followed by its parameters *)

Theorem C02_decomposition : forall s,
  s = with_params (twp_tag s) (twp_parameters s) /\
  nohash (twp_tag s) /\ Forall nohash (twp_parameters s).
Proof. exact twp_spec. Qed.
Print Assumptions C02_decomposition.

Theorem C02_decomposition_unique : forall t1 p1 t2 p2,
  nohash t1 -> Forall nohash p1 -> nohash t2 -> Forall nohash p2 ->
  with_params t1 p1 = with_params t2 p2 -> t1 = t2 /\ p1 = p2.
Proof. exact with_params_unique. Qed.
Print Assumptions C02_decomposition_unique.

Theorem C02_with_parameter_chain : forall s ps ts,
  tagtext s -> Forall2 param_text ps ts ->
  exists s', with_all s ps = Ok s' /\ tagtext s' /\
             twp_tag s' = twp_tag s /\ twp_parameters s' = twp_parameters s ++ ts.
Proof. exact with_all_ok. Qed.
Print Assumptions C02_with_parameter_chain.

Example C02_ex :
  with_all (lit "57") [AInt 12; AStr (lit "03")] = Ok (lit "57#12#03") /\
  twp_tag (lit "57#12#03") = lit "57" /\
  twp_parameters (lit "57#12#03") = [lit "12"; lit "03"].
Proof. repeat split. Qed.

Example C02_hyp_ex : tagtext (lit "57") /\ Forall2 param_text [AStr (lit "03")] [lit "03"].
Proof.
  split; [repeat (constructor; [unfold tagchar; cbn; lia|]); constructor|].
  constructor; [|constructor]. split; [|reflexivity]. repeat (constructor; [unfold digitchar; cbn; lia|]); constructor.
Qed.

(** ** C03 Tag equality is an equivalence and agrees with hashing *)

Theorem C03_eq_equivalence :
  (forall a, no_int a -> py_eq a a = Ok true) /\
  (forall a b r, py_eq a b = Ok r -> py_eq b a = Ok r) /\
  (forall a b c, no_int a -> no_int b -> no_int c ->
     py_eq a b = Ok true -> py_eq b c = Ok true -> py_eq a c = Ok true).
Proof. exact (conj eq_reflexive (conj eq_symmetric eq_transitive)). Qed.
Print Assumptions C03_eq_equivalence.

Theorem C03_eq_hash : forall hs hi a b,
  no_int a -> no_int b -> py_eq a b = Ok true -> py_hash hs hi a = py_hash hs hi b.
Proof. exact eq_hash. Qed.
Print Assumptions C03_eq_hash.

(** Full statement, with ints: it holds only when two unrelated hash functions
    happen to coincide on every integer. *)
Theorem C03_eq_hash_with_ints_iff : forall hs hi,
  (forall a b, py_eq a b = Ok true -> py_hash hs hi a = py_hash hs hi b) <->
  (forall z s, py_str_int z = Ok s -> hs s = hi z).
Proof. exact eq_hash_int. Qed.
Print Assumptions C03_eq_hash_with_ints_iff.

Theorem C03_eq_transitive_with_ints_refuted :
  exists a b c, py_eq a b = Ok true /\ py_eq b c = Ok true /\ py_eq a c = Ok false.
Proof. exact eq_not_transitive. Qed.
Print Assumptions C03_eq_transitive_with_ints_refuted.

Example C03_ex : py_eq (PTag (lit "12")) (PStr (lit "12")) = Ok true /\ py_eq (PTag (lit "5")) (PInt 5) = Ok true.
Proof. split; reflexivity. Qed.

(** ** C04 WHERE classification follows the address tables *)

Theorem C04_where_type : forall s,
  tagtext s ->
  (forall t, where_type s = Ok t <-> where_class s t) /\
  (forall e, where_type s = Err e <-> e = ValueError /\ forall t, ~ where_class s t).
Proof. exact where_iff. Qed.
Print Assumptions C04_where_type.

Example C04_ex :
  where_type (lit "0") = Ok GENERAL /\ where_type (lit "0312#4#01") = Ok LIGHT_POINT /\
  where_type (lit "#7") = Ok GROUP /\ where_type (lit "#3#01") = Ok LOCAL_BUS /\
  where_type (lit "0#3") = Err ValueError /\ where_type [] = Err ValueError.
Proof. repeat split. Qed.

Example C04_hyp_ex : tagtext (lit "0312#4#01").
Proof. repeat (constructor; [unfold tagchar; cbn; lia|]); constructor. Qed.

(** ** C05 WHO lookup and names *)

Theorem C05_who_lookup : forall s,
  (forall w, who_of s = Ok w -> who_str w = s /\ In s who_numbers) /\
  (In s who_numbers -> exists w, who_of s = Ok w) /\
  (~ In s who_numbers -> who_of s = Err ValueError).
Proof. exact who_lookup. Qed.
Print Assumptions C05_who_lookup.

(** Full statement "every member has a name" is false: exactly five have none. *)
Theorem C05_who_name_refuted : forall w,
  (who_name w = Err KeyError <->
   In w [DOOR_ENTRY_SYSTEM; AUXILIARY; ACTUATORS_LOCKS; LIGHTING_MANAGEMENT; ENERGY_DIAGNOSTICS]) /\
  (forall e, who_name w = Err e -> e = KeyError) /\
  (forall n, who_name w = Ok n -> n <> []).
Proof. exact who_name_spec. Qed.
Print Assumptions C05_who_name_refuted.

(** Names tell the systems apart; the diagnostics are those with four digits; but
    for GATEWAY, CEN_1 and CEN_2 the name is that of the member. *)
Theorem C05_names : (forall w w' n, who_name w = Ok n -> who_name w' = Ok n -> w = w') /\
  (forall w n, who_name w = Ok n -> ((exists x, n = x ++ lit " diagnostics") <-> length (who_str w) = 4%nat)) /\
  (forall w n, who_name w = Ok n -> capitals n = member_name w \/
     (w = GATEWAY /\ capitals n = member_name w ++ lit "_MANAGEMENT") \/ (In w [CEN_1; CEN_2] /\ startswith (lit "CEN") n = true)).
Proof. exact (conj who_name_inj (conj who_name_diagnostics who_name_member)). Qed.
Print Assumptions C05_names.

Example C05_names_ex : who_name THERMOREGULATION_DIAGNOSTICS = Ok (lit "Thermoregulation diagnostics").
Proof. reflexivity. Qed.

Example C05_ex : who_of (lit "18") = Ok ENERGY_MANAGEMENT /\ who_of (lit "018") = Err ValueError /\
  who_name LIGHTING_MANAGEMENT = Err KeyError.
Proof. repeat split. Qed.
