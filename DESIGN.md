# Formal model of pyown: design

The subject is `jotonedev/pyown`, read as text from `/repo`. Nothing was built or run.
The model is written in Gallina (Coq 8.16.1) and lives in `rocq/theories/`.

## 1. Approach

* Every modelled Python function is a total computable Gallina function that follows the source branch by branch.
  Each definition carries a comment with the file and the lines it models, and the simplifications made.
* Python exceptions are values: `res A := Ok a | Err e`.
* `str` is `list N` (a list of Unicode code points). `bytes` is `list N` as well, restricted to values below 256 where it matters.
* Regular expressions are transcribed as syntax trees. Their meaning is an inductive denotation.
  A derivative-based matcher computes it and is proved equivalent to the denotation.
* Coroutines (`async def`) are programs in a small free monad: write a frame, read a message, raise, return, yield.
  They are run against an arbitrary script of server messages, and, for interleavings, inside a labelled transition system.
* Concurrency (queue, readers, senders, pause/resume, timeouts, close) is modelled as labelled transition systems whose steps are the pieces of code between two `await`s.
  Theorems are invariants over every reachable state, that is every schedule.
* Cryptographic hashes and `str.__hash__` are arbitrary functions, universally quantified in the theorems. They are never axioms.
* Property theorems live in `Prop*.v` files which contain only theorem statements closed by a lemma (or a few steps from one), an `Example` showing that the hypotheses can be met, and `Print Assumptions`.
* A claim that the code violates is proved false on the model with a witness (`..._refuted`). The part which holds is proved next to it.

## 2. Plan for each property

| Id | Modelled | Proof |
|:---|:---------|:------|
| C01 | `is_valid_tag`, `Tag.__init__`, `str(int)` | induction on strings; decimal printer proved canonical |
| C02 | `TagWithParameters` accessors, `with_parameter` | `split`/`join` inverse lemmas by induction; chains by induction |
| C03 | `__eq__`, `__hash__` over tags, str, int, hash arbitrary | case analysis; witness for ints |
| C04 | `Where.type` | equivalence with a separate declarative table |
| C05 | `Who`, `who_map` | finite domain, all members; witness |
| C06, C07 | `parse_message`, all regexes | regex denotation, error analysis per class |
| C08 | all regexes, class order | tag-wise specification equivalent to the regex cascade |
| C09, C10, C11 | printers and parsers | round-trip lemmas; witnesses for the exceptions |
| C12 | `message`, `bytes` | alphabet lemmas |
| C13 | `__eq__`, `__hash__` | case analysis |
| C14, C15 | `parse_message` | corollaries of C08 |
| C16 to C19 | `data_received` | induction on packets and messages; witnesses |
| C20, C21 | asyncio.Queue get/put, timeout cancellation | transition system, invariants |
| C22 to C24 | `send_message`, pause/resume | transition system, invariants; witness schedule |
| C25 to C29 | `own_calc_pass` | bit-level reasoning (`Z.testbit`), bijection composition |
| C30 | `hex_to_digits`, `digits_to_hex` | induction |
| C31 to C35 | `start`, `_authenticate_*` as programs | symbolic execution for an arbitrary server script |
| C36, C37 | client state machine, every method of the items | induction on histories; case analysis on the methods (PropSession.v) |
| C38 | `loop` against `close` | transition system; witness |
| C39, C40 | `get_item` | induction on histories |
| C41 to C43 | `loop`, `_dispatch_callbacks`, `call_callbacks` | induction on event sequences; witnesses; simulation between any two versions of Python (PropVersion.v) |
| C44, C45 | `BaseItem.send_*` as programs | induction on reply streams |
| C46 | the same, with late replies and two tasks | witnesses; positive case by induction |
| C47, C48, C50 | item methods as programs | corollaries of C09 and C44 |
| C49, C51, C52 | dimmer and light callbacks | refutations, exact characterisations |
| C53 to C57 | gateway item | arithmetic on the calendar, decimal round trips, witnesses |
| C58 to C60 | energy items | string lemmas, witnesses |
| C61 | backtracking matcher with a step counter | induction on n |
| C62, C82 | tag lists as cells of a store | invariants over every history of operations; witness |
| C63 | `data_received` under asyncio's transport | induction on packets |
| C64, C65, C91, C92 | `send_message` against a paused or lost transport | witness schedules, one for every n in C92; exact step lemmas |
| C66 | `start` | witness from the handshake programs |
| C67 to C71 | light and automation settings and requests | documented frames; induction on reply streams |
| C72 to C74 | gateway getters | decimal printers and readers |
| C75 to C78 | energy commands and getters | binary64 rounding of decimal integers; induction on replies |
| C79, C80 | dispatch | witnesses; exact characterisation of the calls made |
| C81 | backtracking matcher with a step counter | polynomial bound by induction on the pattern and the text; linear lower bound |
| C83 | callback tasks and their watcher | transition system, invariants |
| C84, C85 | connections of one client over its life | transition system, invariants; witness |
| C86, C87 | arrival times of messages and the 5 second timeouts | a closure predicate on programs counts the reads; witness for C87 |
| C88, C89 | `tags`, the attributes and `parse` of each class | equivalence with tag-list grammars |
| C90 | several tasks calling methods of one client | transition system on top of the queue; invariants; witness schedules |
| C93, C94 | item objects with class, client and WHERE | induction on histories; witnesses |
| C95, C96 | whole logins against a reactive gateway; collisions of the MAC as an explicit alternative | exact outcome from the handshake grammar; injectivity of the transform and of the hex text |
| C97, C98 | loop() called late, and again after a failure | induction on histories against a reference story; invariant after the end |
| C99 | tasks that share a client | invariant relating every schedule to the scripts of IO.v |
| C100, C101 | several loop() and read_message() calls on one event client | invariant over every schedule against a reference sharing; measure; refinement of the single loop |
| C102 | calls of any tasks that do not overlap | invariant over every schedule; unique decomposition of the answers |
| C103 | requests left before their last reply | induction over every sequence of later requests and commands |
| C104 | whole sessions of lighting and automation calls with an abstract house behind a documented gateway | trace conformance; induction over every sequence of calls |
| C105 | the events of such a session at a client that runs loop() | composition with the event histories of C42 |
| C106 | parse errors carry the text that caused them (refuted in four places) | a second layer of the parsing functions with the attributes, erased to the first |
| C107 | whole visits: login, any sequence of calls, close | trace conformance with the door of the gateway, composed with C104 |
| C108 | sessions with the gateway's own data and energy meters | trace conformance, extending C104; invariant on what the dimensions say |
| C109 | the log as a transcript of a connection (refuted in part) | a second layer of the protocol with its records; injectivity of the texts |
| C110 | what start() logs and says about the password (refuted) | a second layer of start() with records and exception texts, erased to the first; noninterference over all passwords |
| C111 | every answer about the gateway's clock is read or refused | exact characterisation of each outcome over all lists of values |
| C112 | the log of loop() as an account of the events (refuted in part) | a second layer of the loop with its records, erased to the first; induction over every history |
| C113 | what the example programs do and show | start() and the calls of each program as a visit to a house behind a door (C107, C108); conversations over every script |
| C114 | what the event examples tell (refuted in part) | the loop of C42 with one callback and its body; invariant over every history; beside the programs of C113 |
| C115 | what a client keeps of the events (refuted for a hostile gateway) | exact set of items over every history of C42; counting; a family of histories without bound |
| C116 | a whole visit to a gateway with the HMAC lock (refuted) | the visit of C107 with the door of hmac.md; case analysis of the login, induction on the calls |
| C117 | a connection that breaks in the middle of a session (refuted in part) | C104's house with a connection that may stop before every event; exact set of outcomes, both inclusions; repeating the calls that timed out |
| C118 | tasks sharing one client, one call at a time, in front of a house (refuted without the lock) | C102's schedules and packets composed with C104's house; invariant on which task read which message; uniqueness of readings |
| C119 | calls over the whole line: paused transports, tasks, packets and a house (refuted without the lock) | the sender's flow control (C23) and the readers' schedules (C102) as one transition system; projection onto both; the lock transferred to the reading side; C104's house at the end of the line |
| C120 | one call at a time never waits for the transport (refuted without the lock) | C119 with a gateway that deals with a frame when all of it has arrived; an empty buffer is never paused; counting the bytes dealt with |
| C121 | clients with a connection each: their calls are linearizable | C119's lines side by side in front of one house, served in any order; the calls dealt out in the order of service; every client's part by C119's lemma; time order from prefixes of runs; C104's read-back between clients |
| C122 | timeouts: the house is not affected, the verdicts lag behind (refuted isolation) | C119's line with timeouts; the answers as one stream from which the calls take in order; for commands, the lag counted in timeouts; witness of two wrong verdicts |
| C123 | a new connection after a timeout: true verdicts, but late effects (refuted in part) | C121's crowd with C122's timeouts on every connection; calls answered before the first timeout of their connection agree with one story and with time; witness of an effect after a later call |
| C124 | lost connections and cancelled calls (refuted in part) | C123's crowd with loss of connections and cancellation in the send; outcomes of the messages select the calls that can have an effect and those that read; invariant: written or cancelled before the loss, dropped or cancelled after it; witness of a stale answer |
| C125 | listening while others command | C124's story gives the events, C105's listener the callbacks; by induction on the story the last event about a point is its state, and for every beginning of the events its state after some of the calls |
| C126 | the login with the real hash functions (refuted in part) | SHA-1, SHA-256 and HMAC computed in Coq; lengths by invariants of the rounds, injectivity of the padding by induction; then the grammar of the handshake |
| C127 | listening and asking for the states one was not told (refuted for the last word) | C125 and the answers of C124: without an event about a point its state has not changed since the request; witness schedules for the last word and for asking first |
| C128 | the events of the protocol documentation (refuted for most) | SpecDocs transcribes the event frames of docs/original with a fate each; every family denotes one message (any address and values), then C42 and C112; WHO 9 is unknown to tags/who.py |
| C129 | what a client can say (refuted in part) | SpecSay lists the writing methods, the frames they write and the commands of docs/original with a flag each; both directions of the vocabulary by cases on the methods, the rest by comparing tags (a frame determines its tags) |
| C130 | documented answers (refuted in part) | SpecTalk tabulates, for each request, the frames docs/original says come back and what the method makes of them; each row by the decoder lemmas of the item files, the bytes by the framing lemmas of DocsThms; the delay after the request of dimension 3 by induction on the commands |
| C131 | exceptions of each method (refuted: OWNException catches all; docstrings complete) | SpecRaise lists the methods, their calls with arguments of the annotated types, and a row of exceptions for each; that there are no others by a logic of coroutines that end normally or in a listed exception, through the decoders; that each is raised by one call for each entry, with messages that the parser makes of some text. Cancellation, and what the standard library raises for a lost connection, are outside: a write always happens, a read finds a message or times out |
| C132 | exceptions of start() (docstring refuted) | from the exact outcomes of C33: a message without tags cannot come from the parser, so three exceptions are left, and a fourth for passwords that UTF-8 cannot encode; a script for each |
| C133 | the loop's exception handler (refuted) | the handler as state of the loop; case analysis of the latest installer after any history; induction over the life of one client for its two futures |
| C134 | any gateway at the end of the line; clock and meters | the server as a relation with an invariant; run of the line split into the server's run and the client's serial history (as C119), then the house of C108 as one such server |
| C135 | the references between callbacks, watcher and `gather`, and what Python may collect | labelled transition system over Tasks.v with an arbitrary heap of the application; invariant: what was collected is unreachable and stays so; simulation with and without collections |
| C136 | several `start()` calls on one client, each interrupted wherever it waits, with timeouts, cancellation and `close()` | labelled transition system over an interruptible program of `start()`, which is shown to be the handshake of Client.v; invariant relating a task to the events of the handshake so far; counting of the answers that the calls take |
| C137 | the same with tasks that use the client with programs of their own | the invariant of C136 for any program per task; uniqueness of a task's program |
| C138 | `BaseItem`, `ITEM_TYPES`, `get_item`, `_dispatch_callbacks` with classes of the application | simulation by the loop without them (Objects.v); induction on histories |
| C139 | clients with a connection each, in front of any gateway | C121's crowd with C134's server in place of the house; the gateway's run dealt out to the clients, every client's part by C134's lemma; for a client among others that break the rules, the frames of the others only as frames of calls they started; clock and meters as one such gateway |
| C140 | items made by the user (refuted in part) | every constructor as a function of its arguments; a small relation for what the arguments ask, and case analysis over where the WHERE, the WHO and the energy address can be wrong; the frames by C44's and C45's lemmas; the WHO that `item.who` shows refuted by a Light made with `who=` |
| C141 | callbacks when the program ends (refuted in part) | `asyncio.run`'s cancellation of all tasks on top of C83's model, which the history before the end refines; invariant that what has not begun is as it was made; errors counted place by place; the loss for every event and every set of callbacks by induction over the callbacks that raise |
| C142 | `loop()` on a client that is started again (refuted in part) | one queue with its readers per connection; conservation per connection by induction over `delivered`; invariant that a task is a reader on exactly the connection on which it waits; bounded resumptions by the sum of the queues' work; a loop stuck on a connection that is down as an invariant of every continuation |
| C143 | callbacks that send commands (refuted in part) | the dispatching client, one `asyncio.Lock` (CPython 3.11 locks.py:93-155) and a second client's calls as one labelled transition system over the house of C104; invariant that tasks wait for the lock in the order of their events, so the answers are a prefix of the expected ones; termination by well-founded induction on weights of events and calls; the follower's state from the last of its orders (`life`); counting of events against calls for the callbacks that never rest |
| C144 | callbacks that stop at the first command that fails | C143's system with a call that fails ending its task; simulation in both directions with callbacks whose calls are cut after the first one that nobody hears, so that order, bounds and rest carry over; errors counted against the calls that nobody heard |
| C145 | callbacks that send commands without a lock (refuted in part) | C143's house and listener with one list of remaining calls per task; invariant task by task (done ++ remaining = answer); the weights of C143 summed over the tasks; a run in which two callbacks overtake each other as the refutation, and the follower's state from calls sorted by task as the part that holds |
| C146 | rules between lamps (refuted in part) | C143's, C144's and C145's systems with a callback that obeys a list of rules; the cost of a call is one plus the weights of the points it is aimed at, the weight of a lamp grows with its number so that each answer weighs less than its event; the follower's state from the last of the calls aimed at it, all others being harmless to it; a rule for a lamp that does not exist as the refutation for callbacks that stop at an error |
| C147 | what callbacks that send commands are told of the house | the listener's part of C143's, C144's and C145's systems; the last event about a point (`story_last`) and the point's past states (`story_past`) from C125, applied to the one history made by the calls of callbacks and others; carried along `surely` to the end of every schedule |
| C148 | several applications in one house (refuted in part) | one listener and one list of remaining calls per task for each application, events broadcast to all; projection onto each application, which is a run of C145's system in which the others are other people; calls bounded by adding up the applications' shares of each event's weight; termination by the calls left, all wires and all queues; counting of events against all applications' calls for those that never rest |

## 3. Trusted base

* Coq 8.16.1 kernel and `coqchk`.
* `Print Assumptions` output is recorded in section 5 for each theorem.
* The reading of the Python source, of the CPython `str`, `re`, `int`, `enum`, `datetime`, `ipaddress` and `asyncio` behaviour used, as stated in the comment of each definition.

## 4. What is modelled and what is not

Modelled, function by function (model file in brackets; the definitions carry the line numbers):

| Source | Model | What is covered |
|:-------|:------|:----------------|
| `tags/*.py` | `Tags` | alphabet check, `Tag`, `TagWithParameters`, `Where.type`, `Who` with its names, `==` and `hash` between tags, strings and ints |
| `messages/*.py` | `Regex`, `Messages`, `Backtrack`, `Store` | all eight classes, their patterns, `parse` (through `parse_message` and called directly), `message`, the attributes, `bytes`, `==`, `hash`, `parse_message`; the cost of the backtracking matcher; aliasing of tag lists |
| `protocol/protocol.py` | `Protocol`, `Queue`, `Sender`, `Log` | its log records; `data_received`, the message queue under every schedule, `pause_writing`, `resume_writing` and `send_message` against asyncio's write buffer, loss of the connection |
| `auth/open.py` | `AuthOpen` | `own_calc_pass` on 32-bit words |
| `auth/hmac.py`, `auth/enum.py` | `AuthHmac`, `Sha` | both HMACs, key creation, the hex and digit encodings, UTF-8 with its refusal of lone surrogates; theorems hold for arbitrary hash functions and MACs, C126 is about SHA-1, SHA-256 and HMAC as computed in `Sha` |
| `exceptions.py` | `PyStr`, `Errors` | the classes; the attributes `message` and `tag` at every place that raises `InvalidMessage` or `InvalidTag` |
| `client/base.py`, `client/session.py` | `Client`, `Restart`, `Starts`, `Early`, `Timed`, `Conc`, `Line`, `Log`, `Handler` | log records and exception texts of `start`, `_exception_handler` and its place on the loop; `start`, both authentications, `send_message`, `read_message`, `close`; several connections of one client with their futures and queues; the time taken; several tasks using one client, or starting it |
| `client/client.py` | `Dispatch`, `Loop`, `Loops`, `Anew`, `Tasks`, `Collect`, `Shutdown`, `Objects`, `LoopLog`, `Reflex`, `Failing`, `Unlocked`, `Apps` | log records of `loop` and `_dispatch_callbacks`; `get_item`, `loop`, `_dispatch_callbacks`, `_check_task_result`; the item objects with the client each of them keeps |
| `items/base.py`, `items/utils.py` | `Items`, `Dispatch`, `Custom`, `Making` | constructors with `who=`, `repr` and `str`; classes of the application and `ITEM_TYPES`; construction, the `create_*` and `send_*` methods, `_single_dim_req`, `_create_tasks` |
| `items/lighting/*.py`, `automation.py`, `camera.py` | `Lighting`, `Dispatch` | every command, request, callback registration and `call_callbacks` |
| `items/gateway/gateway.py` | `PyDate`, `Gateway`, `Dispatch` | every method; the proleptic Gregorian calendar, time zones, IPv4 networks |
| `items/energy/*.py` | `PyFloat`, `Energy`, `Dispatch` | every method; binary64 rounding of decimal integers |
| `examples/*/main.py` | `Examples`, `Watchers` | `run` and the callbacks of all eleven programs: what they print and log themselves, the calls and their order; `asyncio.sleep` has no effect; not the argument parser nor the configuration of `logging` |

CPython and its library are modelled where the code calls them: `str.split/strip/removeprefix/count`, `int()` with its limit
of 4300 digits and the digits of Unicode 14, `str(int)`, the `re` patterns (denotation, derivatives, backtracking), `float()` of digit strings, `datetime`
constructors, `ipaddress.IPv4Network`, `asyncio.Queue`, `asyncio.Lock`, `Task.cancel`, `asyncio.timeout`, the selector transport's buffer.

Not modelled:

* the texts of the log records of `_check_task_result`; elsewhere than in `Errors`, `Log` and `LoopLog` exceptions are compared by class only, and there the texts that Python itself composes are parameters, except that of `int()`;
* the clock, except where a theorem file says so: a timeout or a sleep may end at any moment;
* DNS, TCP and `create_connection` beyond "it succeeds or raises OSError";
* how hard it is to find collisions of SHA-1, SHA-256 and HMAC (theorems name the colliding texts instead), `secrets`, the constant-time claim of `compare_digest`;
* memory limits, threads (the library is used from one event loop);
* the bodies of user callbacks, except those of the examples (`Watchers`) and bodies that answer an event with calls on a command client (`Reflex`, `Failing`, `Unlocked`, `Apps`);
* Python versions: the model follows 3.11 to 3.12, and the one difference which matters from 3.13 on is the parameter `v` of `Dispatch`.

## 5. Assumptions reported by Coq

Every theorem named in `MANIFEST.json` is followed by `Print Assumptions` in its `Prop*.v` file.
Each of them prints `Closed under the global context`: no axiom is used, neither of the standard library nor of this development.
The development uses no `Axiom`, `Parameter`, section-less `Variable` or `Hypothesis`, no `Admitted`, and switches off no check.
Whole-library listings also show seven constants `Coq.ssr.ssrunder.Under_rel.*`. They come with the standard library's
`ssr` files which are loaded with the tactics; no theorem depends on them.

## 6. Testing the theorems

`seeded/LOG.jsonl` records, one line each, the edits made to a scratch copy of the model to imitate realistic bugs,
the claim each edit breaks, the theorems that failed, and the theorems tightened in response.

## 7. Fidelity of the model

* `Conform.v` evaluates the assertions of the project's own unit tests (`/repo/tests`) on the model. They are examples, not theorems.
* The models of library functions were compared with CPython 3.11 on about 18000 random inputs: `split`, `strip`, `removeprefix`,
  `int()`, `str(int)`, `date`, `timedelta`, `timezone`, number formatting, `IPv4Network`, `float()`, hexadecimal text and `re` matching.
  One difference was found and repaired: `int()` does not skip U+001C to U+001F.
* `Sha.v` was compared with `hashlib` and `hmac` on 324 random keys and messages of up to 300 bytes; no difference was found.
* None of the project's code was run for this.
