(** * Properties C61 and C81: the cost of recognising frames *)
From Coq Require Import String List NArith ZArith Bool Lia.
From Verif Require Import PyStr Regex Tags Messages SpecMsg MessageThms MessageThms2 MessageThms3 Protocol SpecProto ProtoThms Backtrack BacktrackThms BacktrackThms2 BacktrackThms3.
Import ListNotations.
Open Scope N_scope.
Open Scope list_scope.

(** ** C61 Refusing a malformed frame *)

(** The search decides the language, so it computes what [py_match] says. *)
Theorem C61_search : forall r s, snd (search r s) = true <-> lang r s \/ exists t, s = t ++ [10] /\ lang r t.
Proof. intros r s. rewrite search_spec. apply py_match_spec. Qed.
Print Assumptions C61_search.

(** A star, n digits and one character that occurs in no frame: 2^n tests. *)
Theorem C61_exponential_refuted : forall d c, Forall (fun x => 48 <= x <= 57) d -> c < 128 -> c <> 35 -> c <> 42 -> ~ (48 <= c <= 57) ->
  packet_messages (42 :: d ++ [c; 35; 35]) = Err InvalidMessage /\
  2 ^ N.of_nat (length d) <= packet_cost (42 :: d ++ [c; 35; 35]).
Proof. intros d c D H1 H2 H3 H4. apply bad_frame_cost; [exact D|repeat split; assumption]. Qed.
Print Assumptions C61_exponential_refuted.

(** No polynomial in the length of the packet bounds the cost. *)
Theorem C61_no_polynomial_refuted : forall a k, exists data,
  packet_messages data = Err InvalidMessage /\ a * N.of_nat (length data) ^ k < packet_cost data.
Proof. exact no_polynomial. Qed.
Print Assumptions C61_no_polynomial_refuted.

Example C61_ex : packet_messages (lit "*123456x##") = Err InvalidMessage /\ 64 <= packet_cost (lit "*123456x##") /\
  packet_cost (lit "*1234567x##") > 2 * packet_cost (lit "*123456x##").
Proof. vm_compute. repeat split; discriminate. Qed.

(** ** C81 Accepting a packet *)

(** At most cubic in the length of the packet, for each message in it. *)
Theorem C81_accepted : forall data ms, packet_messages data = Ok ms ->
  packet_cost data <= N.of_nat (length ms) * (36 * (N.of_nat (length data) + 5) ^ 3).
Proof. exact packet_cubic. Qed.
Print Assumptions C81_accepted.

(** The validation itself is linear. *)
Theorem C81_validation : forall w, Forall (fun c => 48 <= c <= 57 \/ c = 35 \/ c = 42) w ->
  snd (search R_generic (42 :: w ++ [35; 35])) = true /\
  fst (search R_generic (42 :: w ++ [35; 35])) <= 3 * N.of_nat (length w) + 119.
Proof.
  intros w F. apply accept_cost. eapply Forall_impl; [|exact F]. intros c [H|H]; [left; apply digit_set_iff, H|right; exact H].
Qed.
Print Assumptions C81_validation.

Example C81_ex : exists ms, packet_messages (lit "*1*1*12##*#13**0*11*22*33*001##") = Ok ms /\ length ms = 2%nat /\
  packet_cost (lit "*1*1*12##*#13**0*11*22*33*001##") <= 600.
Proof. eexists. vm_compute. repeat split. discriminate. Qed.

(** At least linear: the check of the whole frame and, except for generic messages,
    the pattern of its class each test every character. *)
Theorem C81_lower : forall ms, Forall streamable ms ->
  N.of_nat (length (concat (map msg_str ms))) <= packet_cost (concat (map msg_str ms)) /\
  (Forall (fun m => msg_type m <> T_GENERIC) ms -> 2 * N.of_nat (length (concat (map msg_str ms))) <= packet_cost (concat (map msg_str ms))).
Proof.
  intros ms H. pose proof (packet_lower ms H) as P. split.
  - eapply N.le_trans; [apply weight_len|exact P].
  - intros T. rewrite weight_typed in P; [exact P|]. eapply Forall_impl; [|exact T]. intros [] X; try reflexivity. destruct (X eq_refl).
Qed.
Print Assumptions C81_lower.

Example C81_lower_ex : Forall streamable [MStatus LIGHTING (lit "12"); MNormal LIGHTING (lit "1") (lit "12")] /\
  concat (map msg_str [MStatus LIGHTING (lit "12"); MNormal LIGHTING (lit "1") (lit "12")]) = lit "*#1*12##*1*1*12##".
Proof.
  split; [|reflexivity].
  apply Forall_cons; [|apply Forall_cons; [|apply Forall_nil]].
  all: split; [|intros (u & E); apply (f_equal (@rev N)) in E; rewrite rev_app_distr in E; discriminate].
  all: split; [|exact I]; cbn [free_tags].
  all: repeat (apply Forall_cons || apply Forall_nil); apply wiretagb_spec; reflexivity.
Qed.
