(** * What the log of the event loop says about each event *)
From Coq Require Import String List NArith ZArith Bool Lia.
From Verif Require Import PyStr Tags Messages SpecMsg SpecTag LightThms2 Gateway SpecGateway Energy Dispatch SpecDispatch Log.
Import ListNotations.
Open Scope N_scope.
Open Scope list_scope.

(** The systems with items. *)
Definition with_items (w : who) : Prop := In w [LIGHTING; AUTOMATION; GATEWAY; ENERGY_MANAGEMENT].

(** The kinds of messages that are events of each system. *)
Definition right_kind (m : msg) : Prop :=
  match m with
  | MNormal w _ _ => w = LIGHTING \/ w = AUTOMATION
  | MDimRes w _ _ _ => w = LIGHTING \/ w = GATEWAY \/ w = ENERGY_MANAGEMENT
  | MDimWri w _ _ _ => w = GATEWAY
  | _ => False
  end.

(** Answers that no callback can be registered for: a dimension of a light other
    than the four, and the dimensions of a Stop&Go device or of the updates. *)
Inductive unheard : msg -> Prop :=
| U_light whr dim ps vs : nohash dim -> Forall nohash ps -> (forall e n, ~ light_dim e dim n) ->
    unheard (MDimRes LIGHTING whr (with_params dim ps) vs)
| U_energy whr d vs : In d (map lit ["1200"; "251"; "252"; "253"; "254"; "255"; "256"; "257"; "258"; "259"; "260"; "261"; "262"; "263"]%string) ->
    unheard (MDimRes ENERGY_MANAGEMENT whr d vs).

(** The gateway says what model it is, and the model is none of the known. *)
Inductive unknown_model : msg -> str -> Prop :=
| UM_answer whr v more : ~ known_model v -> unknown_model (MDimRes GATEWAY whr (lit "15") (v :: more)) v
| UM_writing whr v more : ~ known_model v -> unknown_model (MDimWri GATEWAY whr (lit "15") (v :: more)) v.

Inductive remarks (m : msg) : list record -> Prop :=
| Rem_model v : unknown_model m v -> remarks m
    [Rec L_gateway WARNING (lit "The gateway model " ++ v ++ lit " was not found in the known models.");
     Rec L_gateway WARNING (lit "Please, open an issue on GitHub, attach the logs and the model name.")]
| Rem_none : (forall v, ~ unknown_model m v) -> remarks m [].

(** The text in InvalidMessage: lights, automations and cameras give the message. *)
Definition objection (w : who) (m : msg) : str :=
  match w with
  | LIGHTING | AUTOMATION | VIDEO_DOOR_ENTRY => msg_str m
  | _ => lit "The message is not a DimensionResponse message."
  end.

(** Somebody refuses the arguments. *)
Definition refused (r : registry) (k : evkey) (args : list val) : Prop :=
  exists f, In f (r k) /\ cb_takes f (S (length args)) = false.

Definition not_found (m : msg) : record := Rec L_client WARNING (lit "Item not found for message " ++ msg_str m).

(** [account why r m l]: [l] are the records about the event [m] when the
    callbacks [r] are registered. *)
Inductive account (why : registry -> msg -> str) (r : registry) : msg -> list record -> Prop :=
| A_answer m : m = MAck \/ m = MNack -> account why r m []
| A_generic tags : account why r (MGeneric tags) [Rec L_client WARNING (lit "Received an unknown message: " ++ msg_str (MGeneric tags))]
| A_no_items m w whr : msg_who m = Some w -> msg_where m = Some whr -> ~ with_items w ->
    account why r m [Rec L_client INFO (lit "Item type not supported, WHO=" ++ who_str w ++ lit ", WHERE=" ++ whr)]
| A_called m k args l : reports m k args -> ~ refused r k args -> remarks m l -> account why r m l
| A_unheard m : unheard m -> account why r m []
| A_kind m w : msg_who m = Some w -> with_items w -> ~ right_kind m ->
    account why r m [Rec L_client WARNING (lit "Message not supported " ++ objection w m); not_found m]
| A_refused m k args l : reports m k args -> refused r k args -> remarks m l ->
    account why r m (l ++ [Rec L_client ERROR (lit "There was an error in the callback: " ++ why r m); not_found m])
| A_values m : right_kind m -> ~ unheard m -> (forall k args, ~ reports m k args) ->
    account why r m [Rec L_client ERROR (lit "There was an error in the callback: " ++ why r m); not_found m].

(** The records the loop can write at all. *)
Inductive loop_record : record -> Prop :=
| LR_generic tags : loop_record (Rec L_client WARNING (lit "Received an unknown message: " ++ msg_str (MGeneric tags)))
| LR_no_items w whr : ~ with_items w -> loop_record (Rec L_client INFO (lit "Item type not supported, WHO=" ++ who_str w ++ lit ", WHERE=" ++ whr))
| LR_kind w m : msg_who m = Some w -> loop_record (Rec L_client WARNING (lit "Message not supported " ++ objection w m))
| LR_error t : loop_record (Rec L_client ERROR (lit "There was an error in the callback: " ++ t))
| LR_not_found m w : msg_who m = Some w -> loop_record (not_found m)
| LR_model v : ~ known_model v -> loop_record (Rec L_gateway WARNING (lit "The gateway model " ++ v ++ lit " was not found in the known models."))
| LR_please : loop_record (Rec L_gateway WARNING (lit "Please, open an issue on GitHub, attach the logs and the model name.")).
