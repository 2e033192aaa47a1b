(** * Property C140: items made by the user *)
From Coq Require Import String List NArith ZArith Bool Lia.
From Verif Require Import PyStr Tags Messages SpecMsg SpecTag IO Client Items SpecItem ItemThms Energy SpecEnergy SpecObjects Making SpecMaking MakingThms.
Import ListNotations.
Open Scope N_scope.
Open Scope list_scope.

(** ** C140 An item is what it was made to be *)

(** The constructors return exactly the items that the arguments describe: of the
    client given, at the WHERE given, of the WHO given or else of that of the
    class.  BaseLight is never made. *)
Theorem C140_made : forall k c a u it, k <> I_Gateway -> checked a -> (make_item k c a u = Ok it <-> as_asked k c a u it).
Proof. exact made_iff. Qed.
Print Assumptions C140_made.

(** Otherwise they raise, and this is what: InvalidTag for a WHERE that is no tag;
    else ValueError for a text that is no WHO; else, for an address that is none of
    the class, InvalidTag, or IndexError for a 7 and digits alone. *)
Theorem C140_raises : forall k c a u, k <> I_BaseLight -> k <> I_Gateway -> checked a ->
  (~ tagtext (asked_where a) -> make_item k c a u = Err InvalidTag) /\
  (tagtext (asked_where a) -> (forall o, ~ asks_who u o) -> make_item k c a u = Err ValueError) /\
  (tagtext (asked_where a) -> (exists o, asks_who u o) -> ~ address k (asked_where a) ->
   (forall r, asked_where a = 55 :: r -> digits r -> make_item k c a u = Err IndexError) /\
   ((forall r, asked_where a = 55 :: r -> ~ digits r) -> make_item k c a u = Err InvalidTag)).
Proof. exact raises. Qed.
Print Assumptions C140_raises.

(** What the item then sends, with a connected command client, is addressed to
    the WHO and the WHERE asked for. *)
Theorem C140_sends : forall k c a u it o, k <> I_Gateway -> checked a -> commanding c ->
  make_item k c a u = Ok it -> asks_who u o ->
  sends it (match o with Some w => w | None => says_who k end) (asked_where a) /\ item_where it = asked_where a /\ it_client it = c.
Proof. exact made_sends. Qed.
Print Assumptions C140_sends.

(** Of every class and without [who=], and before Python 3.13, [item.who] is the
    WHO of the frames. *)
Theorem C140_who_partial : forall v k c a u it, v < 13 -> checked a -> commanding c -> u = WhoLeft \/ u = WhoNone ->
  make_item k c a u = Ok it -> exists w, item_who v k it = Some w /\ sends it w (item_where it).
Proof. exact who_plain. Qed.
Print Assumptions C140_who_partial.

(** Refuted: with [who=] it is the WHO of the class all the same; and from Python
    3.13 on it is no WHO at all. *)
Theorem C140_who_refuted :
  (forall v k c a w it, v < 13 -> make_item k c a (WhoIs w) = Ok it -> item_who v k it = Some (says_who k) /\ it_who it = w) /\
  (exists k c a w it, commanding c /\ checked a /\ make_item k c a (WhoIs w) = Ok it /\ sends it w (item_where it) /\ forall v, item_who v k it <> Some w) /\
  (forall v k it, 13 <= v -> item_who v k it = None).
Proof. exact who_wrong. Qed.
Print Assumptions C140_who_refuted.

(** Refuted: a gateway takes any WHERE at all, tag or not, and is at the empty
    WHERE; no WHO can be given for it. *)
Theorem C140_gateway_refuted : forall c a u it,
  (make_item I_Gateway c a u = Ok it <-> u = WhoLeft /\ it = {| it_client := c; it_who := GATEWAY; it_where := [] |}) /\
  (u <> WhoLeft -> make_item I_Gateway c a u = Err TypeError).
Proof. exact gateway_made. Qed.
Print Assumptions C140_gateway_refuted.

(** Items of which [repr] or [str] is the same are of the same class and at the
    same WHERE. *)
Theorem C140_names : forall k1 it1 k2 it2,
  item_repr k1 it1 = item_repr k2 it2 \/ item_str k1 it1 = item_str k2 it2 -> k1 = k2 /\ item_where it1 = item_where it2.
Proof. intros k1 it1 k2 it2 [E|E]; [exact (repr_inj _ _ _ _ E)|exact (str_inj _ _ _ _ E)]. Qed.
Print Assumptions C140_names.

(** Refuted: nothing there tells items of different WHOs apart. *)
Theorem C140_names_refuted : forall k c a w1 w2 it1 it2, make_item k c a (WhoIs w1) = Ok it1 -> make_item k c a (WhoIs w2) = Ok it2 ->
  item_repr k it1 = item_repr k it2 /\ item_str k it1 = item_str k it2 /\ (forall v, item_who v k it1 = item_who v k it2) /\ (w1 <> w2 -> it1 <> it2).
Proof. exact names_blind. Qed.
Print Assumptions C140_names_refuted.

Definition cmd_client : client := {| cl_session := Command; cl_proto := true |}.

Example C140_ex :
  make_item I_Light cmd_client (WText (lit "12")) WhoLeft = Ok {| it_client := cmd_client; it_who := LIGHTING; it_where := lit "12" |} /\
  make_item I_Light cmd_client (WText (lit "12")) (WhoText (lit "2")) = Ok {| it_client := cmd_client; it_who := AUTOMATION; it_where := lit "12" |} /\
  make_item I_Light cmd_client (WText (lit "1 2")) WhoLeft = Err InvalidTag /\
  make_item I_Camera cmd_client (WText (lit "4000")) (WhoText (lit "x")) = Err ValueError /\
  make_item I_Energy cmd_client (WText (lit "71#0")) WhoLeft = Ok {| it_client := cmd_client; it_who := ENERGY_MANAGEMENT; it_where := lit "71#0" |} /\
  make_item I_Energy cmd_client (WText (lit "71")) WhoLeft = Err IndexError /\
  make_item I_StopGo cmd_client (WText (lit "51")) WhoLeft = Err InvalidTag /\
  make_item I_Gateway cmd_client (WText (lit "not a tag")) WhoLeft = Ok {| it_client := cmd_client; it_who := GATEWAY; it_where := [] |} /\
  item_repr I_Dimmer {| it_client := cmd_client; it_who := LIGHTING; it_where := lit "12" |} = lit "Dimmer(where=12)" /\
  item_str I_StopGo {| it_client := cmd_client; it_who := ENERGY_MANAGEMENT; it_where := lit "11" |} = lit "StopGo at 11".
Proof. vm_compute. repeat split. Qed.

Example C140_sends_ex : commanding cmd_client /\ checked (WText (lit "12")) /\ asks_who (WhoText (lit "2")) (Some AUTOMATION) /\
  send_normal_message (Y:=Empty_set) {| it_client := cmd_client; it_who := AUTOMATION; it_where := lit "12" |} (lit "1") [Some MAck]
    = ([Sent (lit "*2*1*12##"); Got MAck], [], Ok tt).
Proof. split; [split; [left|]; reflexivity|]. split; [exact I|]. split; [exact (As_text AUTOMATION)|]. vm_compute. reflexivity. Qed.
