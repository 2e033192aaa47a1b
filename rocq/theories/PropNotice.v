(** * Property C105: events of a house reach the callbacks *)
From Coq Require Import String List NArith ZArith Bool Lia.
From Verif Require Import PyStr Tags Messages SpecMsg SpecTag MessageThms3 IO Client SpecItem Items Lighting SpecLight ItemThms LightThms2
  Dispatch SpecDispatch SpecHouse HouseThms HouseThms2 PropHouse SpecNotice NoticeThms.
Import ListNotations.
Open Scope N_scope.
Open Scope list_scope.

(** One client makes any sequence of calls, another one runs loop(): for each
    event of the gateway, in order, exactly the callbacks registered for it are
    called, with the item of the point and its new state. *)
Theorem C105_events : forall gw h cs s log evs h' out' v r acts, gateway_ok gw -> house_ok h -> Forall call_ok cs ->
  session_with gw h [] cs s log evs h' out' -> v < 13 -> delivers acts evs ->
  exists its tss, let st := run v (enter v (connected r)) (acts ++ [Wake]) in
    st_started st = concat tss /\ st_items st = its /\ NoDup its /\ st_loop st = Waiting /\ st_queue st = [] /\
    Forall2 (noticed its r) evs tss.
Proof. exact session_noticed. Qed.
Print Assumptions C105_events.

(** Whatever is done before and after: a command is heard for every point it is
    aimed at. *)
Theorem C105_heard : forall gw h before c after s log evs h' out' v r acts p w what a k args f,
  gateway_ok gw -> house_ok h -> Forall call_ok (before ++ c :: after) ->
  session_with gw h [] (before ++ c :: after) s log evs h' out' -> v < 13 -> delivers acts evs ->
  stands_for c (Command w what a) -> In p h -> aimed gw w a p = true -> (forall st, react gw w what st = what) ->
  announces {| p_who := w; p_where := p_where p; p_state := what; p_dims := p_dims p |} k args ->
  (forall g, In g (r k) -> cb_takes g (S (length args)) = true) -> In f (r k) ->
  exists i, let st := run v (enter v (connected r)) (acts ++ [Wake]) in
    nth_error (st_items st) i = Some (w, p_where p) /\ In (cb_id f, VItem i :: args) (st_started st).
Proof. exact command_heard. Qed.
Print Assumptions C105_heard.

(** The session of C104_ex, its events in two packets. *)
Definition hears (n : N) : callback := {| cb_id := n; cb_takes := fun k => (k =? 2)%nat |}.
Definition reg0 : registry := fun k => match k with K_light STATUS_CHANGE => [hears 1; hears 2] | K_auto => [hears 3] | _ => [] end.
Definition acts0 : list act := (([] ++ [Packet (concat [lit "*1*1*11##"; lit "*1*1*12##"; lit "*1*1*11##"])]) ++ [Wake]) ++
  [Packet (concat [lit "*1*1*12##"; lit "*2*1*11##"; lit "*2*1*11##"])].
Example C105_ex : exists log evs h', session_with gw0 house0 [] calls0 (map Some heard0) log evs h' [] /\ delivers acts0 evs /\
  st_started (run 12 (enter 12 (connected reg0)) (acts0 ++ [Wake])) =
    [(1, [VItem 0; VBool true]); (2, [VItem 0; VBool true]); (1, [VItem 1; VBool true]); (2, [VItem 1; VBool true]);
     (1, [VItem 0; VBool true]); (2, [VItem 0; VBool true]); (1, [VItem 1; VBool true]); (2, [VItem 1; VBool true]);
     (3, [VItem 2; VStr (lit "1")]); (3, [VItem 2; VStr (lit "1")])].
Proof.
  destruct C104_ex as (log & evs & h' & S & _ & E). exists log, evs, h'. split; [exact S|]. split; [|vm_compute; reflexivity].
  rewrite E.
  exact (Dl_packet _ _ [lit "*1*1*12##"; lit "*2*1*11##"; lit "*2*1*11##"] (Dl_wake _ _ (Dl_packet _ _ [lit "*1*1*11##"; lit "*1*1*12##"; lit "*1*1*11##"] Dl_start))).
Qed.
