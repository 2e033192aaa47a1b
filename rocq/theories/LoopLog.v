(** * The log records of the event loop: pyown/client/client.py

    The loop of Dispatch.v with the records it writes.  [why] gives the text of
    an exception that Python itself composes, for the callbacks registered and
    the event; theorems hold whatever it is. *)
From Coq Require Import String List NArith ZArith Bool Lia.
From Verif Require Import PyStr Tags Messages Protocol IO Client Items Gateway Energy Dispatch Errors Log.
Import ListNotations.
Open Scope N_scope.
Open Scope list_scope.

(** client.py:158-168: the record of an exception of call_callbacks. *)
Definition failure_record (x : raised) (text : str) : record :=
  match r_class x, r_what x with
  | InvalidMessage, Some t => Rec L_client WARNING (lit "Message not supported " ++ t)
  | InvalidTag, Some t => Rec L_client WARNING (lit "Tag not supported " ++ t)
  | _, _ => Rec L_client ERROR (lit "There was an error in the callback: " ++ text)
  end.

(** [await item_obj.call_callbacks(item, message)]: the tasks started, and the
    exception. *)
Definition call_callbacks_x (r : registry) (c : item_class) (it : nat) (m : msg) : list task * xres unit :=
  match class_call_x c m with
  | Okx (Some (k, args)) => let (ts, x) := create_tasks (r k) (VItem it :: args) in (ts, plain x)
  | Okx None => ([], Okx tt)
  | Raise x => ([], Raise x)
  end.

(** gateway.py:51-59 and 490, 308: an event about the model, with a model that is
    none of the enum. *)
Definition call_log (c : item_class) (m : msg) : list record :=
  match c, m with
  | C_Gateway, MDimWri _ _ d (v :: _) | C_Gateway, MDimRes _ _ d (v :: _) =>
      if str_eqb d (wg_str DEVICE_TYPE) && negb (str_in v gateway_models) then
        [Rec L_gateway WARNING (lit "The gateway model " ++ v ++ lit " was not found in the known models.");
         Rec L_gateway WARNING (lit "Please, open an issue on GitHub, attach the logs and the model name.")]
      else []
  | _, _ => []
  end.

(** client.py:145-171 _dispatch_callbacks: the else of the for is reached
    unless a break was, so also after an exception. *)
Fixpoint dispatch_l (why : registry -> msg -> str) (v : N) (r : registry) (cs : list item_class) (it : nat) (m : msg)
  : list task * list record :=
  match cs with
  | [] => ([], [Rec L_client WARNING (lit "Item not found for message " ++ msg_str m)])
  | c :: cs =>
      match item_who v c, msg_who m with
      | Some w, Some w' =>
          if who_eqb w' w then
            match call_callbacks_x r c it m with
            | (ts, Okx _) => (ts, call_log c m)
            | (ts, Raise x) =>
                let (ts', l) := dispatch_l why v r cs it m in (ts ++ ts', call_log c m ++ failure_record x (why r m) :: l)
            end
          else dispatch_l why v r cs it m
      | _, _ => dispatch_l why v r cs it m
      end
  end.

(** client.py:123-143: the items, the tasks, the exception and the records.
    Lines 119-121 are not reached: read_message(timeout=None) raises none of
    the three exceptions. *)
Definition handle_l (why : registry -> msg -> str) (v : N) (r : registry) (its : items) (m : msg)
  : items * list task * option exn * list record :=
  match msg_type m with
  | T_ACK | T_NACK => (its, [], None, [])
  | T_GENERIC => (its, [], None, [Rec L_client WARNING (lit "Received an unknown message: " ++ msg_str m)])
  | _ =>
      match msg_who m, msg_where m with
      | Some w, Some whr =>
          match get_item its w whr with
          | (its', Ok n) => let (ts, l) := dispatch_l why v r subclasses n m in (its', ts, None, l)
          | (its', Err KeyError) =>
              (its', [], None, [Rec L_client INFO (lit "Item type not supported, WHO=" ++ who_str w ++ lit ", WHERE=" ++ whr)])
          | (its', Err e) => (its', [], Some e, [])
          end
      | _, _ => (its, [], None, [Rec L_client WARNING (lit "Received a message without who or where: " ++ msg_str m)])
      end
  end.

(** client.py:115-143, as [drain]. *)
Fixpoint drain_l (why : registry -> msg -> str) (v : N) (r : registry) (trans : option bool) (q : list msg) (its : items)
    (ts : list task) (l : list record) : list msg * items * list task * status * list record :=
  match q with
  | [] => ([], its, ts, Waiting, l)
  | m :: q =>
      match handle_l why v r its m with
      | (its', ts', Some e, l') => (q, its', ts ++ ts', Failed e, l ++ l')
      | (its', ts', None, l') =>
          match trans with
          | None => (q, its', ts ++ ts', Failed AttributeError, l ++ l')
          | Some true => (q, its', ts ++ ts', Returned, l ++ l')
          | Some false => drain_l why v r trans q its' (ts ++ ts') (l ++ l')
          end
      end
  end.

Record lstate := { l_state : state; l_log : list record }.

Definition drained_l (why : registry -> msg -> str) (v : N) (s : lstate) : lstate :=
  let st := l_state s in
  match drain_l why v (st_reg st) (st_trans st) (st_queue st) (st_items st) (st_started st) (l_log s) with
  | (q, its, ts, lp, l) =>
      {| l_state := {| st_session := st_session st; st_trans := st_trans st; st_queue := q; st_items := its;
                       st_reg := st_reg st; st_started := ts; st_loop := lp |};
         l_log := l |}
  end.

(** client.py:105-118, as [enter]; nothing is logged before the first message. *)
Definition enter_l (why : registry -> msg -> str) (v : N) (s : state) : lstate :=
  if is_cmd_session {| cl_session := st_session s; cl_proto := true |} then {| l_state := with_loop s (Failed InvalidSession); l_log := [] |}
  else match st_trans s with
       | None => {| l_state := with_loop s (Failed InvalidSession); l_log := [] |}
       | Some true => {| l_state := with_loop s Returned; l_log := [] |}
       | Some false => drained_l why v {| l_state := s; l_log := [] |}
       end.

(** As [step]; the records of the connection itself are those of Log.v. *)
Definition step_l (why : registry -> msg -> str) (v : N) (s : lstate) (a : act) : lstate :=
  match a, st_loop (l_state s), st_queue (l_state s) with
  | Wake, Waiting, _ :: _ => drained_l why v s
  | _, _, _ => {| l_state := step v (l_state s) a; l_log := l_log s |}
  end.

Definition run_l (why : registry -> msg -> str) (v : N) (s : lstate) (acts : list act) : lstate := fold_left (step_l why v) acts s.
