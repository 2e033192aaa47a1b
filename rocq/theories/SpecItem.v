(** * Specification vocabulary for commands and requests

    Frames as the protocol documents them (docs/original/), and what a
    conversation with the gateway may look like.  Nothing here mentions the
    programs of Items.v. *)
From Coq Require Import String List NArith ZArith Bool Lia.
From Verif Require Import PyStr Tags Messages SpecMsg IO.
Import ListNotations.
Open Scope N_scope.
Open Scope list_scope.

(** [*WHO*WHAT*WHERE##], [*#WHO*WHERE##], [*#WHO*WHERE*DIM##] and
    [*#WHO*WHERE*#DIM*V1*...*Vn##]. *)
Definition frame_cmd (w : who) (what whr : str) : list N := wire [who_str w; what; whr].
Definition frame_status (w : who) (whr : str) : list N := wire [35 :: who_str w; whr].
Definition frame_dimreq (w : who) (whr dim : str) : list N := wire [35 :: who_str w; whr; dim].
Definition frame_dimwri (w : who) (whr dim : str) (vals : list str) : list N :=
  wire ((35 :: who_str w) :: whr :: (35 :: dim) :: vals).

(** One command: the frame is written, one message is awaited, and only an ACK
    counts as success. *)
Inductive answered {Y} (frame : list N) : script -> list (ev Y) * script * res unit -> Prop :=
| A_ack s : answered frame (Some MAck :: s) ([Sent frame; Got MAck], s, Ok tt)
| A_other m s : m <> MAck -> answered frame (Some m :: s) ([Sent frame; Got m], s, Err ResponseError)
| A_silent s : answered frame (None :: s) ([Sent frame], s, Err TimeoutError)
| A_dry : answered frame [] ([Sent frame], [], Err TimeoutError).

(** How a stream of replies ends: [rs] are the replies before the end, [r] the
    result of the request, [rest] what stays unread. *)
Inductive stream_end (want : msg -> Prop) (rs : list msg) : script -> list msg -> script -> res unit -> Prop :=
| E_ack rest : stream_end want rs (map Some rs ++ Some MAck :: rest) (rs ++ [MAck]) rest (Ok tt)
| E_bad m rest : m <> MAck -> ~ want m ->
    stream_end want rs (map Some rs ++ Some m :: rest) (rs ++ [m]) rest (Err ResponseError)
| E_silent rest : stream_end want rs (map Some rs ++ None :: rest) rs rest (Err TimeoutError)
| E_dry : stream_end want rs (map Some rs) rs [] (Err TimeoutError).

(** A whole request whose consumer just takes the replies. *)
Definition requested (frame : list N) (want : msg -> Prop) (s : script)
  (x : list (ev msg) * script * res unit) : Prop :=
  exists rs,
    Forall want rs /\
    sents (evs_of x) = [frame] /\
    yields (evs_of x) = rs /\
    stream_end want rs s (gots (evs_of x)) (rest_of x) (res_of x).

Definition normal (m : msg) : Prop := exists w a b, m = MNormal w a b.
Definition dimres (m : msg) : Prop := exists w a d vs, m = MDimRes w a d vs.

(** The gateway answers a request with the values [vs] (any WHERE, any further
    responses) and an ACK; [rest] is what comes afterwards. *)
Definition answers (vs : list str) (s rest : script) : Prop :=
  exists w b d rs, Forall dimres rs /\ s = Some (MDimRes w b d vs) :: map Some rs ++ Some MAck :: rest.

(** A getter writes one request and returns [r], leaving [rest]. *)
Definition got {Y A} (run : list (ev Y) * script * res A) (frame : list N) (rest : script) (r : res A) : Prop :=
  sents (evs_of run) = [frame] /\ rest_of run = rest /\ res_of run = r.
