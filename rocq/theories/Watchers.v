(** * The example programs: /repo/examples/*/main.py, event sessions

    Each registers one callback, starts a client with an event session and runs
    loop(). *)
From Coq Require Import String List NArith ZArith Bool Lia.
From Verif Require Import PyStr PyDate PyFloat Tags Messages AuthHmac IO Client Gateway Energy Dispatch.
From Verif Require Log.
Import ListNotations.
Open Scope N_scope.
Open Scope list_scope.

(** A line on the standard output (no level) or a record: a text, [str()] of a
    value if there is one, a text. *)
Inductive told := Tell (l : option Log.level) (before : str) (v : option val) (after : str).

Inductive watcher := Light_02 | Automation_02 | Energy_02 | Gateway_02.

(** light_02/main.py:24, automation_02/main.py:25, energy_management_02/main.py:19,
    gateway_02/main.py:18 *)
Definition watched (x : watcher) : evkey :=
  match x with
  | Light_02 => K_light STATUS_CHANGE | Automation_02 => K_auto | Energy_02 => K_energy ACTIVE_POWER | Gateway_02 => K_gateway TIME
  end.
(** All four callbacks have two parameters without defaults. *)
Definition own_callback : callback := {| cb_id := 0; cb_takes := fun n => (n =? 2)%nat |}.
Definition own_registry (x : watcher) : registry := register no_callbacks (watched x) own_callback.

(** [item.where] of the item object with this number: its [str()] is the tag. *)
Definition where_of (its : items) (i : nat) : str := match nth_error its i with Some p => snd p | None => [] end.

(** The bodies of the callbacks: light_02/main.py:11-16,
    automation_02/main.py:10-17, energy_management_02/main.py:10,
    gateway_02/main.py:11.  They do not suspend. *)
Definition callback_body (x : watcher) (its : items) (args : list val) : list told :=
  match x, args with
  | Light_02, [VItem i; VBool state] =>
      if state then [Tell (Some Log.INFO) (lit "Light at " ++ where_of its i ++ lit " is now on") None []]
      else [Tell (Some Log.INFO) (lit "Light at " ++ where_of its i ++ lit " is now off") None []]
  | Automation_02, [VItem i; VStr state] =>
      if str_eqb state (lit "1") then [Tell (Some Log.INFO) (lit "Shutter at " ++ where_of its i ++ lit " is now up") None []]
      else if str_eqb state (lit "2") then [Tell (Some Log.INFO) (lit "Shutter at " ++ where_of its i ++ lit " is now down") None []]
      else if str_eqb state (lit "0") then [Tell (Some Log.INFO) (lit "Shutter at " ++ where_of its i ++ lit " is now stopped") None []]
      else []
  | Energy_02, [VItem i; v] => [Tell None (lit "Power consumption changed to ") (Some v) (lit " W for " ++ where_of its i)]
  | Gateway_02, [_; v] => [Tell None (lit "Time of the gateway is now ") (Some v) []]
  | _, _ => []
  end.

(** What the callbacks started so far tell: tasks run in the order of their
    creation, each to its end.  An item object, once made, keeps its number. *)
Definition narrated (x : watcher) (st : state) : list told :=
  concat (map (fun t => callback_body x (st_items st) (snd t)) (st_started st)).

(** The messages in the queue when loop() is called: those that start() has not
    read. *)
Fixpoint unread (s : script) : list msg :=
  match s with [] => [] | Some m :: s => m :: unread s | None :: s => unread s end.

Definition listening (x : watcher) (q : list msg) : state :=
  {| st_session := Event; st_trans := Some false; st_queue := q; st_items := []; st_reg := own_registry x; st_started := []; st_loop := Idle |}.

(** run(): light_02/main.py:20-27, automation_02/main.py:21-28,
    energy_management_02/main.py:14-22, gateway_02/main.py:14-21 *)
Definition watch (x : watcher) (v : N) (C : crypto) (password : str) (rnd : list N) (up : bool) (s : script) (acts : list act) :
  list (ev Empty_set) * res state :=
  match start C (new_client Event) password rnd up s with
  | (_, (es, s1, Ok _)) => (es, Ok (run v (enter v (listening x (unread s1))) acts))
  | (_, (es, _, Err e)) => (es, Err e)
  end.
