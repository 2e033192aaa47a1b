(** * What C133 says, without the model's functions *)
From Coq Require Import String List NArith ZArith Bool Lia.
From Verif Require Import PyStr Log Handler.
Import ListNotations.
Open Scope N_scope.
Open Scope list_scope.

(** No handler is set by the application in [l]; no client is created in [l]. *)
Definition no_set (l : list hap) : Prop := forall k, ~ In (HSet k) l.
Definition no_new (l : list hap) : Prop := ~ In HNew l.

(** The latest change of the handler: a client; the application; none yet. *)
Definition after_client (l : list hap) : Prop := exists a b, l = a ++ HNew :: b /\ no_set b.
Definition after_app (k : option N) (l : list hap) : Prop := exists a b, l = a ++ HSet k :: b /\ no_set b /\ no_new b.
Definition untouched (l : list hap) : Prop := no_set l /\ no_new l.

(** One line at ERROR on the logger of the client. *)
Definition line (s : str) : outcome := Said (Rec L_client ERROR s).

(** What the library makes of a context. *)
Inductive handled (x : context) : list outcome -> Prop :=
| handled_none : x_exception x = None -> handled x []
| handled_task e m t : x_exception x = Some e -> x_message x = Some m -> x_task x = Some t ->
    handled x [line (lit "Exception occurred: " ++ m ++ lit " (" ++ f_text e ++ lit ")"); Stack t]
| handled_protocol e m p : x_exception x = Some e -> x_message x = Some m -> x_task x = None -> x_protocol x = Some p ->
    handled x [line (lit "Exception occurred: " ++ m ++ lit " (" ++ f_text e ++ lit ")"); line (lit "Protocol error: " ++ p)]
| handled_transport e m t : x_exception x = Some e -> x_message x = Some m -> x_task x = None -> x_protocol x = None -> x_transport x = Some t ->
    handled x [line (lit "Exception occurred: " ++ m ++ lit " (" ++ f_text e ++ lit ")"); line (lit "Transport error: " ++ t)]
| handled_plain e m : x_exception x = Some e -> x_message x = Some m -> x_task x = None -> x_protocol x = None -> x_transport x = None ->
    handled x [line (lit "Exception occurred: " ++ m ++ lit " (" ++ f_text e ++ lit ")")].

(** What happens to the one client of a program: connections made and lost,
    close(). *)
Inductive of_client : hap -> Prop :=
| of_made : of_client (HMade 0)
| of_lost why : of_client (HLost 0 why)
| of_close : of_client (HClose 0).

(** The number of connections made, and lost; how the first one ended. *)
Fixpoint made (l : list hap) : nat := match l with [] => 0 | HMade _ :: r => Datatypes.S (made r) | _ :: r => made r end.
Fixpoint lost (l : list hap) : nat := match l with [] => 0 | HLost _ _ :: r => Datatypes.S (lost r) | _ :: r => lost r end.
Fixpoint first_end (l : list hap) : option fault := match l with [] => None | HLost _ why :: _ => why | _ :: r => first_end r end.

(** How many clients were created; how the first connection ended that client [i]
    lost, if it lost one. *)
Fixpoint created (l : list hap) : nat := match l with [] => 0 | HNew :: r => Datatypes.S (created r) | _ :: r => created r end.
Fixpoint end_of (i : nat) (l : list hap) : option (option fault) :=
  match l with [] => None | HLost j why :: r => if Nat.eqb j i then Some why else end_of i r | _ :: r => end_of i r end.
(** Client [i] was created and then, for as long as [b], not collected. *)
Definition since (i : nat) (l b : list hap) : Prop := exists a, l = a ++ HNew :: b /\ created a = i /\ ~ In (HGone i) b.
(** What asyncio reports of a callback that sets a future twice, and of a future
    whose exception nobody asked for. *)
Definition twice (cb h : str) : context :=
  {| x_message := Some (lit "Exception in callback " ++ cb); x_exception := Some (Fault (lit "InvalidStateError") (lit "invalid state"));
     x_task := None; x_protocol := None; x_transport := None; x_rest := [(lit "handle", h)] |}.
Definition unasked (e : fault) (fut : str) : context :=
  {| x_message := Some (lit "Future exception was never retrieved"); x_exception := Some e;
     x_task := None; x_protocol := None; x_transport := None; x_rest := [(lit "future", fut)] |}.
