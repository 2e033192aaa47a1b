{"id": "C01", "title": "Tag construction accepts exactly the protocol alphabet", "statement": "Building a tag from a str succeeds exactly when every character is an ASCII digit or '#', and the tag's string is then the given string; otherwise InvalidTag is raised. Building it from an int n succeeds exactly when n >= 0 and n has at most the 4300 digits that Python converts, and the string is then the canonical decimal numeral of n; a negative int or a bool raises InvalidTag.", "quantifier": "every Unicode string and every integer", "why_tests_cant": "the input space is infinite (all Unicode strings, all integers); tests sample a handful of strings", "anchors": ["pyown/tags/base.py: is_valid_tag, Tag.__init__, Tag.string"]}
{"id": "C02", "title": "A parameterised tag is its tag followed by its parameters", "statement": "For every What/Where/Dimension tag, joining `tag` and `parameters` with '#' gives back the tag's string, no component contains '#', and `with_parameter(p)` (p a non-negative int or a '#'-free digit string) keeps `tag`, keeps all previous parameters and appends exactly p.", "quantifier": "every valid tag string, every chain of with_parameter calls of any length", "why_tests_cant": "arbitrary-length parameter chains and all tag strings", "anchors": ["pyown/tags/base.py: TagWithParameters.tag, parameters, with_parameter; Tag.with_parameter"]}
{"id": "C03", "title": "Tag equality is an equivalence and agrees with hashing", "statement": "Among tags and strings, == is reflexive, symmetric and transitive and equal values have equal hashes, whatever the str hash function; this is what the (who, where) item cache relies on. When ints are included the contract fails: Tag('5') == 5 but their hashes are those of '5' and of 5, and == is not transitive.", "quantifier": "all tags, strings and ints; every string-hash function (hash randomisation)", "why_tests_cant": "quantifies over all values and over all hash seeds", "anchors": ["pyown/tags/base.py: Tag.__eq__, Tag.__hash__"]}
{"id": "C04", "title": "WHERE classification follows the address tables", "statement": "For every WHERE string, `type` returns the class the documentation assigns: '0' general; 1..9, 00, 100 ambient; other strings starting with a digit (except those starting with '0' followed by a non-digit) light point; '#g' group; '#a#b' local bus; everything else raises ValueError. Each string gets exactly one class.", "quantifier": "every valid WHERE string of any length", "why_tests_cant": "infinitely many address strings; the source itself carries a TODO saying it is untested", "anchors": ["pyown/tags/where.py: Where.type, WhereType"]}
{"id": "C05", "title": "WHO lookup and names are total on the enumeration", "statement": "Who(x) succeeds exactly for the 22 listed numbers and prints back as x, and every Who member has a human-readable name. No two members share a name, and the diagnostic systems are those with four digits; but for GATEWAY, CEN_1 and CEN_2 the name reads as the name of the member. The second half is refuted: asking for the name of five members raises KeyError.", "quantifier": "every string x; every enum member", "why_tests_cant": "all strings; failure is on members no test touches", "anchors": ["pyown/tags/who.py: Who, Who.name, who_map"]}
{"id": "C06", "title": "parse_message fails only in documented ways", "statement": "For every str, parse_message either returns a message, or raises InvalidMessage, or (unknown WHO only) ValueError; it never raises IndexError, KeyError or InvalidTag. The set of inputs for each outcome is characterised exactly.", "quantifier": "every Unicode string", "why_tests_cant": "every possible gateway output, including malformed and hostile input", "anchors": ["pyown/messages/base.py: parse_message", "pyown/messages/dimension.py", "pyown/messages/normal.py", "pyown/messages/status.py"]}
{"id": "C07", "title": "The accepted language is exactly the OpenWebNet frame shape", "statement": "parse_message gets past validation exactly when the whitespace-stripped text is '*' followed by any mix of digits, '#' and '*', followed by '##', and '##' occurs exactly once (counted left to right without overlap) in the raw text.", "quantifier": "every Unicode string", "why_tests_cant": "regular-language equality over all strings", "anchors": ["pyown/messages/base.py: BaseMessage._regex, parse_message"]}
{"id": "C08", "title": "Messages are classified by tag structure", "statement": "The class of the parsed message is the one given by an independent, tag-by-tag description of the frame: ACK, NACK, dimension request, dimension writing, dimension response, normal, status request, and generic only when none applies. Registration order of the classes is irrelevant except where two patterns overlap, where the documented winner is returned.", "quantifier": "every frame with any number of tags", "why_tests_cant": "overlapping regular expressions tried in import order; tests cover a few frames", "anchors": ["pyown/messages/base.py: parse_message", "pyown/messages/dimension.py: DimensionRequest, DimensionWriting, DimensionResponse (regexes)"]}
{"id": "C09", "title": "Printing then parsing gives the message back", "statement": "For every message of every class built from valid tags (known WHO; tags whose text has no '##'; request and writing dimensions without parameters; response dimensions not starting with '#'; at least one value in a writing/response) parse_message(str(m)) == m. Without the side conditions the round trip is refuted: zero-value writings, parameterised dimension requests and parameterised dimension writings come back as different messages.", "quantifier": "every message of every class, any number of values", "why_tests_cant": "all constructible messages", "anchors": ["pyown/messages/base.py: parse_message, GenericMessage.message", "pyown/messages/dimension.py: message, parse"]}
{"id": "C10", "title": "Parsing then printing gives the frame back", "statement": "If parse_message(s) returns m then str(m) is s stripped of surrounding whitespace, except exactly for dimension writings and responses that carry no value and for dimension responses whose dimension is written with a leading '#'.", "quantifier": "every string that parses", "why_tests_cant": "all accepted inputs", "anchors": ["pyown/messages/base.py: parse_message", "pyown/messages/dimension.py: DimensionWriting.parse, DimensionResponse.message"]}
{"id": "C11", "title": "Two different messages never share a wire form", "statement": "Well-formed messages (as in C09) with the same wire text are equal, so the gateway can never receive one command when another was meant.", "quantifier": "every pair of well-formed messages", "why_tests_cant": "pairs of arbitrary messages", "anchors": ["pyown/messages/dimension.py: message", "pyown/messages/normal.py: NormalMessage.message", "pyown/messages/status.py: StatusRequest.message"]}
{"id": "C12", "title": "Every message built from validated tags can be encoded", "statement": "The bytes property succeeds for every message whose tags were validated, produces only digits, '*' and '#', starts with '*' and ends with '##'; a GenericMessage constructed directly from arbitrary strings can fail with UnicodeEncodeError.", "quantifier": "every message", "why_tests_cant": "all tag contents", "anchors": ["pyown/messages/base.py: BaseMessage.bytes, GenericMessage.__init__"]}
{"id": "C13", "title": "Message equality and hashing agree", "statement": "Message == is an equivalence relation over all classes (including the Writing/Response subclass pair), equal messages print identically, and equal hashable messages hash equally. Hashing a GenericMessage always raises TypeError (refutes 'every message is hashable').", "quantifier": "all pairs/triples of messages, all hash functions", "why_tests_cant": "all pairs and triples", "anchors": ["pyown/messages/base.py: BaseMessage.__eq__, __ne__, __hash__"]}
{"id": "C14", "title": "ACK and NACK are recognised exactly", "statement": "parse_message returns ACK exactly for '*#*1##' and NACK exactly for '*#*0##' (up to surrounding whitespace); no other frame is ever taken for an acknowledgement.", "quantifier": "every Unicode string", "why_tests_cant": "commands report success based on this; all strings must be excluded", "anchors": ["pyown/messages/ack.py: ACK", "pyown/messages/nack.py: NACK", "pyown/messages/base.py: parse_message"]}
{"id": "C15", "title": "Unknown WHO frames become generic messages (refuted)", "statement": "The docstring promises a GenericMessage when the WHO is unknown; in fact every normal/status/dimension frame whose WHO is not one of the 22 known raises ValueError, which is not a ParseError.", "quantifier": "every frame with an unlisted WHO", "why_tests_cant": "infinitely many WHO values", "anchors": ["pyown/messages/base.py: parse_message docstring", "pyown/tags/who.py: Who"]}
{"id": "C16", "title": "Messages packed in one packet are all delivered in order", "statement": "Feeding the protocol any sequence of packets, each the concatenation of whole frames of well-formed messages, queues exactly those messages in order - any number of messages per packet.", "quantifier": "every finite sequence of well-formed messages and every grouping of them into packets", "why_tests_cant": "unbounded message sequences and groupings", "anchors": ["pyown/protocol/protocol.py: OWNProtocol.data_received"]}
{"id": "C17", "title": "Delivery does not depend on TCP segmentation (refuted)", "statement": "The queued messages should depend only on the byte stream, not on how TCP splits it. Refuted: cutting inside a frame can silently deliver a different valid command or raise; proved: the result is segmentation-independent when cuts fall on frame boundaries.", "quantifier": "every byte stream and every way of cutting it into packets", "why_tests_cant": "TCP segmentation is decided by the network", "anchors": ["pyown/protocol/protocol.py: OWNProtocol.data_received"]}
{"id": "C18", "title": "A packet is queued entirely or not at all", "statement": "If data_received raises, the queue is unchanged; otherwise it grows by exactly the parsed frames of the packet in order.", "quantifier": "every byte string and every queue state", "why_tests_cant": "all packets, including those whose n-th frame is malformed", "anchors": ["pyown/protocol/protocol.py: OWNProtocol.data_received"]}
{"id": "C19", "title": "One bad frame discards its good neighbours (refuted isolation)", "statement": "A malformed frame should not affect the valid frames in the same packet. Refuted: any packet containing a malformed frame or unknown WHO delivers nothing.", "quantifier": "every packet", "why_tests_cant": "depends on what the network coalesces", "anchors": ["pyown/protocol/protocol.py: OWNProtocol.data_received"]}
{"id": "C20", "title": "Message delivery is FIFO, lossless and duplicate-free under every schedule", "statement": "With any number of reader tasks, arriving packets, timeouts and cancellations in any interleaving, the messages handed to readers in order of delivery followed by those still queued are exactly the messages received, in order.", "quantifier": "every interleaving of packet arrival, readers, wake-ups, timeouts and cancellations", "why_tests_cant": "all schedules", "anchors": ["pyown/protocol/protocol.py: receive_messages, data_received", "pyown/client/base.py: BaseClient.read_message"]}
{"id": "C21", "title": "A waiting reader is always woken", "statement": "In every reachable state, if the queue holds a message and some reader is waiting, then some reader has already been scheduled to run; timeouts racing with arrivals do not lose the wake-up.", "quantifier": "every interleaving", "why_tests_cant": "race between cancellation and arrival", "anchors": ["pyown/protocol/protocol.py: receive_messages", "pyown/client/base.py: read_message"]}
{"id": "C22", "title": "Nothing is written while the transport is paused", "statement": "In every schedule of senders and of pause/resume notifications, no message is handed to the transport between a pause and the matching resume, and pause/resume never blocks the loop or raises as long as they alternate.", "quantifier": "every interleaving of sender tasks and flow-control callbacks", "why_tests_cant": "all schedules", "anchors": ["pyown/protocol/protocol.py: send_message, pause_writing, resume_writing"]}
{"id": "C23", "title": "Each accepted send is written exactly once and in one piece", "statement": "In every schedule the bytes written are a concatenation of whole frames, one for each send_message call that returned, none duplicated, none interleaved with another.", "quantifier": "every interleaving of sender tasks", "why_tests_cant": "all schedules", "anchors": ["pyown/protocol/protocol.py: send_message"]}
{"id": "C24", "title": "Concurrent sends keep their order (refuted)", "statement": "Sends issued in order should reach the wire in that order; refuted when the transport is paused, proved when it is never paused.", "quantifier": "every interleaving", "why_tests_cant": "all schedules", "anchors": ["pyown/protocol/protocol.py: send_message"]}
{"id": "C25", "title": "The OPEN password answer is a 32-bit decimal number", "statement": "own_calc_pass returns, for every password that spells an integer (blanks around, a sign, decimal digits of any script, single underscores, at most 4300 digits) and every nonce string, the canonical decimal of a number below 2^32, hence a valid tag, and raises ValueError for every other text.", "quantifier": "every password and nonce of any length", "why_tests_cant": "all passwords and nonces", "anchors": ["pyown/auth/open.py: own_calc_pass"]}
{"id": "C26", "title": "own_calc_pass implements the published permutation", "statement": "The result equals an independent specification in which each nonce digit acts on the 32-bit word as: rotate right 7/4/3, rotate left 1/5/12, two byte shuffles, complement, identity.", "quantifier": "every password below 2^32 and every nonce", "why_tests_cant": "all nonces", "anchors": ["pyown/auth/open.py: own_calc_pass"]}
{"id": "C27", "title": "Different passwords give different answers", "statement": "For every nonce containing at least one digit 1-9, two different passwords below 2^32 always give different answers (a wrong password is never accepted by a gateway that compares answers).", "quantifier": "every nonce, every pair of passwords", "why_tests_cant": "all pairs", "anchors": ["pyown/auth/open.py: own_calc_pass"]}
{"id": "C28", "title": "The OPEN exchange keeps the password secret (refuted)", "statement": "An eavesdropper who sees nonce and answer can compute the password (mod 2^32): an explicit inverse exists. With an all-zero nonce the client sends the password itself in the clear.", "quantifier": "every nonce/answer pair", "why_tests_cant": "universal statement about all exchanges", "anchors": ["pyown/auth/open.py: own_calc_pass", "pyown/client/base.py: _authenticate_open"]}
{"id": "C29", "title": "Zero digits and the '#' prefix of the nonce do not matter", "statement": "Deleting any '0' from the nonce leaves the answer unchanged, and passing the nonce with its leading '#', as the client does, gives the same answer as without, whenever the nonce has a digit 1-9 and the password is below 2^32.", "quantifier": "every nonce and password", "why_tests_cant": "all nonces", "anchors": ["pyown/auth/open.py: own_calc_pass", "pyown/client/base.py: start, _authenticate_open"]}
{"id": "C30", "title": "Hex/decimal-pair conversion is lossless", "statement": "digits_to_hex(hex_to_digits(h)) is h in lower case for every hex string; hex_to_digits gives only decimal digits, twice as many as hex digits; it raises ValueError exactly when a character is not a hex digit; digits_to_hex raises ValueError exactly when a character is not a digit and IndexError on every odd-length digit string. On any other digits it gives, pair by pair, the hexadecimal numeral of the pair, so a pair from 16 to 99 gives the same text as the two pairs of its hexadecimal digits: the conversion is only invertible on what hex_to_digits makes.", "quantifier": "every hex string of any length", "why_tests_cant": "all strings", "anchors": ["pyown/auth/hmac.py: hex_to_digits, digits_to_hex"]}
{"id": "C31", "title": "The client never accepts an unproved HMAC server", "statement": "On the HMAC path start() returns normally only if the server's last answer, decoded, equals the HMAC the client computed from its password, the server key and its own fresh key; in particular a NACK or a wrong proof raises InvalidAuthentication or ValueError.", "quantifier": "every server behaviour, every hash function, every client key", "why_tests_cant": "adversarial server", "anchors": ["pyown/client/base.py: _authenticate_hmac", "pyown/auth/hmac.py: server_hmac, compare_hmac"]}
{"id": "C32", "title": "HMAC login works against a compliant gateway (refuted)", "statement": "For every password that UTF-8 can encode (for the others see C132), every keys and hash function, a gateway following the documented exchange (frames '*#...##' with decimal-pair encoding) makes start() raise: the client decodes the proof in the wrong direction.", "quantifier": "every password, key and hash function", "why_tests_cant": "hash modelled as arbitrary", "anchors": ["pyown/client/base.py: _authenticate_hmac", "docs/original hmac document"]}
{"id": "C33", "title": "start() succeeds only through a complete handshake", "statement": "For every sequence of server messages, start() returns normally iff the first message is ACK and the exchange that follows is one of: ACK; a one-tag nonce answered with the OPEN answer and then ACK; the HMAC exchange with a matching proof. In every other case it raises, and which exception is characterised.", "quantifier": "every server script, every session type, every password", "why_tests_cant": "all server behaviours", "anchors": ["pyown/client/base.py: start, _authenticate_open, _authenticate_hmac"]}
{"id": "C34", "title": "The client writes nothing before the gateway's ACK", "statement": "start() writes no byte before having read an ACK; the first write is the session request of the configured session type; the password-dependent answer is only written after a challenge.", "quantifier": "every server script", "why_tests_cant": "all server behaviours", "anchors": ["pyown/client/base.py: start", "pyown/client/session.py: SessionType.to_message"]}
{"id": "C35", "title": "Unsupported HMAC algorithms are refused", "statement": "A '*98*n##' challenge with n other than 1 or 2 makes the client send NACK and raise InvalidAuthentication, and it writes nothing else afterwards.", "quantifier": "every tag n and every later server behaviour", "why_tests_cant": "all server behaviours", "anchors": ["pyown/client/base.py: _authenticate_hmac", "pyown/auth/enum.py: AuthAlgorithm.from_string"]}
{"id": "C36", "title": "Event sessions never send commands", "statement": "In an event session no call to send_message without force, and no method of any item, ever writes to the wire or reads; each raises InvalidSession, or the ValueError or InvalidTag with which every item refuses these arguments before doing anything. The same holds for the methods of items before start() and after close().", "quantifier": "every history of API calls", "why_tests_cant": "all histories", "anchors": ["pyown/client/base.py: send_message, is_cmd_session", "pyown/items/base.py: send_normal_message"]}
{"id": "C37", "title": "A closed client refuses all traffic", "statement": "After close() every send and read raises InvalidSession and writes nothing, until start() is called again.", "quantifier": "every history of API calls", "why_tests_cant": "all histories", "anchors": ["pyown/client/base.py: close, send_message, read_message"]}
{"id": "C38", "title": "The event loop terminates when the client is closed (refuted)", "statement": "loop() is documented to run until the connection is dropped or closed. Refuted: if close() happens while it waits, it stays blocked for ever or fails with AttributeError on the missing transport.", "quantifier": "every schedule of close() against loop()", "why_tests_cant": "schedule dependent", "anchors": ["pyown/client/client.py: Client.loop", "pyown/client/base.py: close"]}
{"id": "C39", "title": "One item object per (WHO, WHERE)", "statement": "Over every history of lookups, get_item returns the same item for the same (WHO, WHERE) text and different items for different ones, creates at most one item per key and never drops one.", "quantifier": "every sequence of get_item calls", "why_tests_cant": "all histories", "anchors": ["pyown/client/client.py: Client.get_item", "pyown/tags/base.py: Tag.__eq__, __hash__"]}
{"id": "C40", "title": "Unsupported WHO is reported as KeyError only", "statement": "get_item raises KeyError exactly when the pair is not cached and the WHO is not one of the four supported ones; item construction errors leave the cache unchanged.", "quantifier": "every WHO and WHERE", "why_tests_cant": "all pairs", "anchors": ["pyown/client/client.py: Client.get_item", "pyown/items/utils.py: ITEM_TYPES"]}
{"id": "C41", "title": "No event can stop the event loop (refuted)", "statement": "The loop should survive every event. Refuted: an energy-management event with an unexpected WHERE (e.g. '*#18*0*113*5##') raises InvalidTag/IndexError out of loop(). Proved: every other parsed message leaves the loop running.", "quantifier": "every sequence of events", "why_tests_cant": "all event sequences", "anchors": ["pyown/client/client.py: Client.loop", "pyown/items/energy/energy.py: EnergyManagement.get_type"]}
{"id": "C42", "title": "Every matching event reaches every registered callback exactly once", "statement": "On Python < 3.13, for every sequence of events none of which ends the loop (C41), the callback invocations are exactly, in event order and registration order, one per registered callback per matching event, with the item of the event's WHERE.", "quantifier": "every event sequence, every set of registered callbacks", "why_tests_cant": "all histories", "anchors": ["pyown/client/client.py: loop, _dispatch_callbacks", "pyown/items/base.py: _create_tasks", "pyown/items/lighting/base.py: call_callbacks"]}
{"id": "C43", "title": "Callbacks fire on the Python version the project pins (refuted)", "statement": "The project pins Python 3.14; there class-level access to the chained classmethod/property returns a bound method, no WHO matches, and no event ever reaches any callback. Nothing else depends on the version: the same messages are read by the same calls, the same items are made and the loops end in the same way (so C38, C41, C97, C98 and C100 hold under every version, but for the calls).", "quantifier": "every event sequence", "why_tests_cant": "all event sequences; version dependent", "anchors": ["pyown/items/base.py: BaseItem.who", "pyown/client/client.py: _dispatch_callbacks", ".python-version"]}
{"id": "C44", "title": "A command succeeds exactly when it is acknowledged", "statement": "send_normal_message and send_dimension_writing write exactly one frame, consume exactly one message, return normally iff it is ACK and raise ResponseError otherwise (TimeoutError if none arrives).", "quantifier": "every reply stream", "why_tests_cant": "all reply streams", "anchors": ["pyown/items/base.py: send_normal_message, send_dimension_writing, _check_ack"]}
{"id": "C45", "title": "A status or dimension request yields all replies up to the ACK", "statement": "The iterator yields exactly the replies preceding the first ACK, in order, consumes the ACK and nothing after it; a NACK or a reply of another kind raises ResponseError after the preceding replies were yielded.", "quantifier": "every reply stream of any length", "why_tests_cant": "unbounded streams", "anchors": ["pyown/items/base.py: send_status_request, send_dimension_request, _single_dim_req"]}
{"id": "C46", "title": "Replies belong to the command that caused them (refuted)", "statement": "Each command should be judged by its own reply. Refuted: after a timeout or a rejected reply, leftovers are taken as the answer to the next command; two tasks sharing a client can swap answers. Proved: with one task and a gateway that answers every command before the next one, answers match.", "quantifier": "every reply timing and every interleaving", "why_tests_cant": "timing and schedules", "anchors": ["pyown/items/base.py: send_normal_message", "pyown/client/base.py: read_message"]}
{"id": "C47", "title": "Item commands are well-formed frames that parse back", "statement": "Every frame written by an item method, for every argument it accepts and every well-formed WHERE, parses back to the message that was meant (with the exceptions found in C09: parameterised dimensions).", "quantifier": "every item method, argument and WHERE", "why_tests_cant": "all argument values", "anchors": ["pyown/items/*", "pyown/items/base.py: create_* methods"]}
{"id": "C48", "title": "Fixed light, automation and camera commands send the documented frame", "statement": "Each fixed command of lights, dimmers, automations and cameras writes exactly *WHO*WHAT*WHERE## (or *7*WHAT## for camera adjustments) with the WHAT number documented for what the method promises, for every WHERE; no two different commands share a frame. (Refuted for turn_on_30_min, which sends the code of 30 seconds, and for free_resources, whose documented frame is *7*9*##.)", "quantifier": "every command method and every WHERE", "why_tests_cant": "all WHERE strings", "anchors": ["pyown/items/lighting/base.py", "pyown/items/lighting/light.py", "pyown/items/lighting/dimmer.py", "pyown/items/automation/automation.py", "pyown/items/camera/camera.py"]}
{"id": "C49", "title": "Dimmer speed and step parameters are usable (refuted)", "statement": "turn_on/turn_off with a speed and up/down_percent with a value or speed should send *1*WHAT#p*WHERE##. Refuted: for every argument the call raises ValueError and nothing is written.", "quantifier": "every speed and value", "why_tests_cant": "all integers", "anchors": ["pyown/items/lighting/dimmer.py: turn_on, turn_off, up_percent, down_percent", "pyown/tags/base.py: TagWithParameters.with_parameter"]}
{"id": "C50", "title": "Range checks on light settings", "statement": "temporization_command, set_hsv, set_white_temperature and display_dial write a frame exactly when their arguments are in the documented range, the frame carries exactly those numbers, and otherwise nothing is written and ValueError (or InvalidTag for negatives in temporization) is raised. (Refuted for the hours of temporization_command: documented 0-255, refused from 24 on.)", "quantifier": "every integer argument", "why_tests_cant": "all integers", "anchors": ["pyown/items/lighting/base.py: temporization_command", "pyown/items/lighting/dimmer.py: set_hsv, set_white_temperature", "pyown/items/camera/camera.py: display_dial"]}
{"id": "C51", "title": "Light event callbacks receive the documented quantity (refuted)", "statement": "Temporisation callbacks should fire on dimension 2 and white-temperature ones on 14, level ones on 1. Refuted: temporisation fires on 1, level on 8, white temperature on 13; and a dimmed light (WHAT 2..10) is reported as off.", "quantifier": "every event", "why_tests_cant": "all events", "anchors": ["pyown/items/lighting/base.py: call_callbacks"]}
{"id": "C52", "title": "Dimmer brightness is in [0,100] (refuted)", "statement": "get_status of a dimmer promises a level in [0-100]; WHAT codes above 10 (timed or blinking states) yield larger numbers; proved: exact value 10*WHAT and in range iff WHAT <= 10.", "quantifier": "every status reply", "why_tests_cant": "all replies", "anchors": ["pyown/items/lighting/dimmer.py: Dimmer.get_status"]}
{"id": "C53", "title": "Gateway date round trip", "statement": "For every valid calendar date, the frame sent by set_date, answered back by get_date, yields the same date, and the weekday field is the true day of the week with 00 for Sunday.", "quantifier": "every date from year 1 to 9999", "why_tests_cant": "3.65 million dates, proved by structure rather than sampled", "anchors": ["pyown/items/gateway/gateway.py: set_date, get_date"]}
{"id": "C54", "title": "Gateway time zone round trip (refuted)", "statement": "set_time followed by get_time should preserve the UTC offset. Refuted: the offset survives for UTC and UTC-2 only (a zone field of four digits is written where three are documented, and read as one sign digit and two digits of hours). Hour, minute and second always survive; every documented answer is read correctly; a time without offset is refused before anything is written.", "quantifier": "every time and every UTC offset", "why_tests_cant": "all offsets", "anchors": ["pyown/items/gateway/gateway.py: _tz_to_own_tz, _parse_own_timezone, set_time, get_time"]}
{"id": "C55", "title": "Gateway date-time round trip (refuted)", "statement": "What set_datetime sends cannot be read back by get_datetime for any date-time: the weekday is missing, so reading raises IndexError.", "quantifier": "every date-time", "why_tests_cant": "all values", "anchors": ["pyown/items/gateway/gateway.py: set_datetime, get_datetime"]}
{"id": "C56", "title": "Gateway addresses are decoded faithfully", "statement": "get_ip/get_netmask return the four transmitted octets in order (leading zeros ignored) and fail otherwise; get_netinfo is the network containing the IP under that mask for every contiguous mask; a mask that is no netmask is read as a host mask if it is one, and anything else raises ValueError.", "quantifier": "every octet string", "why_tests_cant": "all 2^32 addresses and masks", "anchors": ["pyown/items/gateway/gateway.py: get_ip, get_netmask, get_netinfo"]}
{"id": "C57", "title": "Gateway callbacks receive one value (refuted)", "statement": "A gateway callback should receive the item and one value. Refuted for string results: netmask, MAC, model, firmware, kernel and distribution are spread one character per argument.", "quantifier": "every event with a string payload", "why_tests_cant": "all payloads", "anchors": ["pyown/items/gateway/gateway.py: call_callbacks"]}
{"id": "C58", "title": "Energy item address classes", "statement": "Construction of an energy item succeeds exactly for WHERE 1<digits>, 5<digits> and 7<digits>#0..., giving the matching type; other WHEREs raise InvalidTag, except that a '7...' address without a parameter raises IndexError.", "quantifier": "every WHERE string", "why_tests_cant": "all strings", "anchors": ["pyown/items/energy/energy.py: __init__, get_type", "pyown/items/energy/stop_go.py: StopGo.__init__"]}
{"id": "C59", "title": "Energy events with a parameterised dimension reach their callbacks (refuted)", "statement": "Daily, monthly, per-month and since-reset energy events can never reach a callback: with a parameter the dimension is unknown (ValueError), without one the parameter is missing (IndexError).", "quantifier": "every event message", "why_tests_cant": "all messages", "anchors": ["pyown/items/energy/energy.py: call_callbacks"]}
{"id": "C60", "title": "Both Stop&Go decoders agree (refuted)", "statement": "The event decoder and request_status should decode the same value to the same status. Refuted; proved what each decodes (characters in order versus binary digits of the decimal number).", "quantifier": "every 13-digit status value", "why_tests_cant": "8192 statuses times two decoders; proved generally", "anchors": ["pyown/items/energy/energy.py: call_callbacks", "pyown/items/energy/stop_go.py: request_status"]}
{"id": "C61", "title": "Frame validation time is polynomial (refuted)", "statement": "A backtracking matcher, as used by Python's re, takes at least 2^n steps to reject '*' followed by n digits, a non-frame character and '##', so a single malformed frame can freeze the client.", "quantifier": "every n", "why_tests_cant": "asymptotic statement", "anchors": ["pyown/messages/base.py: BaseMessage._regex"]}
{"id": "C62", "title": "A parsed message never aliases mutable state of the parser", "statement": "tags returns a copy: modifying the returned list never changes the message, its wire form or its equality.", "quantifier": "every message and every modification", "why_tests_cant": "all modifications", "anchors": ["pyown/messages/base.py: BaseMessage.tags"]}
{"id": "C63", "title": "One bad frame ends the connection", "statement": "A packet that is not entirely valid makes data_received raise, on which asyncio closes the transport: nothing of that packet and nothing of any later packet is ever delivered. The connection stays open exactly as long as every packet is accepted.", "quantifier": "every sequence of packets", "why_tests_cant": "all histories of packets, including the ones after the error", "anchors": ["pyown/protocol/protocol.py: OWNProtocol.data_received"]}
{"id": "C64", "title": "A send waiting on a paused transport ends when the connection is lost (refuted)", "statement": "A send_message call that waits because the transport is paused should end, with an error, once the connection is lost. Refuted: asyncio never resumes a lost transport, so the lock stays held and the call polls for ever, as does every later one.", "quantifier": "every schedule after the loss", "why_tests_cant": "an infinite wait; all continuations of all schedules", "anchors": ["pyown/protocol/protocol.py: OWNProtocol.send_message, pause_writing, resume_writing, connection_lost"]}
{"id": "C65", "title": "A send on a lost connection reports an error (refuted)", "statement": "After the connection is lost, and until close(), send_message returns normally although nothing reaches the wire any more.", "quantifier": "every message and every schedule after the loss", "why_tests_cant": "all schedules", "anchors": ["pyown/protocol/protocol.py: OWNProtocol.send_message, connection_lost"]}
{"id": "C66", "title": "A failed login leaves the client closed (refuted)", "statement": "After start() raises (wrong password, refused handshake, timeout) the client should be unusable until it is started again. Refuted: after every exception raised on an established connection the client still counts as started, and in a command session the next send_message is written to the unauthenticated connection.", "quantifier": "every server script, every exception of start(), every message", "why_tests_cant": "all server behaviours", "anchors": ["pyown/client/base.py: start, send_message"]}
{"id": "C67", "title": "Light settings use the documented dimension numbers (refuted)", "statement": "Every light setting is written to, and every light quantity requested from, the dimension number of the WHO=1 table. Holds for temporisation, level, HSV and reading the white temperature; refuted for writing the white temperature (13 instead of 14) and for reading the working time (3 instead of 8).", "quantifier": "every WHERE and argument", "why_tests_cant": "all WHERE strings", "anchors": ["pyown/items/lighting/dimmer.py: set_white_temperature", "pyown/items/lighting/base.py: request_working_time_lamp"]}
{"id": "C68", "title": "set_brightness_with_speed checks its range (refuted)", "statement": "A level outside 100-200 or a speed outside 0-255 should be refused before anything is written. Refuted: every natural number is sent.", "quantifier": "every pair of integers", "why_tests_cant": "all integers", "anchors": ["pyown/items/lighting/dimmer.py: set_brightness_with_speed"]}
{"id": "C69", "title": "Light requests decode every reply", "statement": "For every sequence of replies that carry enough numbers (leading zeros, a '#' and extra values allowed) the five dimension requests write one frame and yield, in order, the WHERE and exactly those numbers, then end; a reply with too few numbers ends the request with IndexError after the earlier ones have been yielded.", "quantifier": "every reply sequence", "why_tests_cant": "all reply sequences of any length", "anchors": ["pyown/items/lighting/base.py: temporization_request, request_working_time_lamp", "pyown/items/lighting/dimmer.py: request_current_brightness_speed, request_current_hsv, request_current_white_temperature"]}
{"id": "C70", "title": "Light.get_status reports every light that answers (refuted)", "statement": "Each reply should be reported with its WHERE. Proved: WHAT 1 is reported as on, WHAT 0 as off; refuted: a light in any other state (dimmed, timed, blinking) is silently left out.", "quantifier": "every reply sequence", "why_tests_cant": "all reply sequences", "anchors": ["pyown/items/lighting/light.py: Light.get_status"]}
{"id": "C71", "title": "Automation.get_status decodes every reply", "statement": "For every sequence of replies stop/up/down the WHERE and the state are yielded in order; any other WHAT ends the request with ValueError and leaves the remaining replies unread.", "quantifier": "every reply sequence", "why_tests_cant": "all reply sequences", "anchors": ["pyown/items/automation/automation.py: get_status"]}
{"id": "C72", "title": "get_macaddress returns the MAC address (refuted)", "statement": "The six transmitted values are decimal and are joined with colons unchanged, so for every MAC address the result differs from its hexadecimal notation. Any other number of values raises ValueError.", "quantifier": "every MAC address", "why_tests_cant": "all 2^48 addresses", "anchors": ["pyown/items/gateway/gateway.py: get_macaddress"]}
{"id": "C73", "title": "Every device type can be read", "statement": "get_model returns the transmitted type if it is a known model and the generic model for every other value, and never fails on it. Refuted for the documentation: of the documented types 6, 7, 11 and 13 the last is reported as generic.", "quantifier": "every answer", "why_tests_cant": "all values", "anchors": ["pyown/items/gateway/gateway.py: get_model, GatewayModel", "docs/original/who13.md"]}
{"id": "C74", "title": "Versions and uptime are decoded exactly", "statement": "The firmware, kernel and distribution versions are the first three values joined with dots, fewer values raise IndexError; the uptime is exactly the sum of days, hours, minutes and seconds, or OverflowError from 10^9 days on.", "quantifier": "every answer", "why_tests_cant": "all values, including values with thousands of digits", "anchors": ["pyown/items/gateway/gateway.py: get_firmware, get_kernel_version, get_distribution_version, get_uptime"]}
{"id": "C75", "title": "Energy commands write the documented frames (daily report refuted)", "statement": "Every energy command method writes exactly the frame of the protocol documentation for its arguments and succeeds exactly on an ACK; a negative argument is refused with InvalidTag before anything is written. Refuted for start_sending_daily_totalizers_hourly: it writes day before month where the documentation has month before day, so the frame is right only when both are equal; and with default arguments the clock is read twice, so a date that does not exist can be asked for at midnight.", "quantifier": "every command, argument, WHERE, clock reading and answer", "why_tests_cant": "Tests use a few fixed arguments and a single clock value.", "anchors": ["pyown/items/energy/energy.py: start_sending_*, force_actuator_*, reset_totalizers", "docs/original/who18.md"]}
{"id": "C76", "title": "get_actuators_info decodes the documented answer (refuted)", "statement": "The documented answer carries six values of one digit. Refuted: the code indexes the characters of the first value, so every documented answer raises IndexError; a single value of six digits is decoded digit by digit.", "quantifier": "every answer", "why_tests_cant": "The existing behaviour can only be settled for all answers.", "anchors": ["pyown/items/energy/energy.py: get_actuators_info", "docs/original/who18.md"]}
{"id": "C77", "title": "Power and energy are returned as the nearest float", "statement": "The power, total, monthly, daily and per-month requests write the documented dimension request and return the binary64 number nearest to the transmitted one (ties to even, infinity on overflow), which is exact up to 2^53; a value that is not a number raises ValueError.", "quantifier": "every value text, every month and year", "why_tests_cant": "Rounding has to be right for every number.", "anchors": ["pyown/items/energy/energy.py: get_active_power, get_energy_unit_totalizer, get_energy_unit_per_month, get_partial_totalizer_current_month, get_partial_totalizer_current_day"]}
{"id": "C78", "title": "Totalizers, instant power and differential level", "statement": "get_totalizers returns exactly the energy and the date and time transmitted for every valid date; the instant-power methods write dimension 1200#<type> with the interval (0 to stop); the differential level is the transmitted number.", "quantifier": "every totalizer number, date, time, energy, power type and interval", "why_tests_cant": "All dates and numbers.", "anchors": ["pyown/items/energy/energy.py: get_totalizers, start_sending_instant_power, stop_sending_instant_power, get_differential_current_level"]}
{"id": "C79", "title": "Camera events reach the camera callbacks (refuted)", "statement": "A callback registered on Camera should be called for video-door events. Refuted: WHO 7 is missing from ITEM_TYPES, so the loop drops every such event before dispatch and no camera callback is ever called; get_item fails with KeyError for every camera address. Asked directly, Camera.call_callbacks reports exactly the NormalMessages whose WHAT is one of the documented camera commands.", "quantifier": "every history of events and registrations", "why_tests_cant": "all histories", "anchors": ["pyown/client/client.py: Client.loop, get_item", "pyown/items/utils.py: ITEM_TYPES", "pyown/items/camera/camera.py: call_callbacks"]}
{"id": "C80", "title": "One callback's signature does not affect the others (refuted)", "statement": "Each registered callback should be called on its own. Refuted: a callback that cannot take the number of arguments of an event makes task creation fail, so every callback registered after it is not called for that event. Proved: exactly the callbacks before it are called, once each, in order.", "quantifier": "every list of registered callbacks and every event", "why_tests_cant": "all lists", "anchors": ["pyown/items/base.py: BaseItem._create_tasks", "pyown/client/client.py: _dispatch_callbacks"]}
{"id": "C81", "title": "Accepting a packet takes polynomial time", "statement": "A packet whose frames are all valid is recognised with at most a cubic number of character tests per message, and, for frames as the library writes them, at least one test per character (two if the message has a class of its own) (the generic validation alone is linear), whatever its length and content: the freeze of C61 needs a malformed frame.", "quantifier": "every accepted packet", "why_tests_cant": "asymptotic statement about all valid inputs", "anchors": ["pyown/messages/base.py: BaseMessage._regex, parse_message", "pyown/messages/*.py: _regex", "pyown/protocol/protocol.py: data_received"]}
{"id": "C82", "title": "A GenericMessage does not change behind its user's back (refuted)", "statement": "A message built with GenericMessage(tags) should keep the tags it was built from. Refuted: it keeps the caller's list itself, so for every history it reads, compares and is sent as the current content of that list; every other class and every parsed message is immutable (C62).", "quantifier": "every history of list modifications", "why_tests_cant": "all histories", "anchors": ["pyown/messages/base.py: GenericMessage.__init__"]}
{"id": "C83", "title": "Errors of callbacks are reported, each once (refuted in two cases)", "statement": "Up to Python 3.12 (see C43): when a callback raises, the error is logged exactly once, in registration order, and neither the event loop nor other callbacks are affected. Refuted: as long as another callback of the same event goes on (possibly for ever) nothing is reported, and if a later callback cannot take the arguments the errors of the earlier ones are never logged so (the event loop's handler is told of them when Python collects the calls, C135).", "quantifier": "every history of events, of ends of callbacks in any order and of the watching tasks", "why_tests_cant": "all interleavings of callback completions", "anchors": ["pyown/client/client.py: _check_task_result", "pyown/client/client.py: _dispatch_callbacks", "pyown/items/base.py: _create_tasks"]}
{"id": "C84", "title": "A restarted client begins with a clean connection", "statement": "After start(), and until the next start() or close(), read_message returns exactly the messages that arrived on the new connection, in order from the first, whatever happened before: failed starts, earlier connections that still receive packets, unread messages. (Each start after the first logs an InvalidStateError, which has no other effect.)", "quantifier": "every history of starts, closes, packets on any connection, losses and reads", "why_tests_cant": "all histories over several connections", "anchors": ["pyown/client/base.py: start", "pyown/client/base.py: close", "pyown/client/base.py: read_message", "pyown/protocol/protocol.py: connection_made", "pyown/protocol/protocol.py: connection_lost"]}
{"id": "C85", "title": "close() leaves no connection open (refuted)", "statement": "After close() the client should have no open connection. Refuted: a second start() without close(), for instance after a failed login, abandons the first connection and nothing the client does ever closes it. Proved when the client is closed, or its connection has ended, before each new start.", "quantifier": "every history of starts, closes, packets and losses", "why_tests_cant": "all histories", "anchors": ["pyown/client/base.py: start", "pyown/client/base.py: close"]}
{"id": "C86", "title": "Commands and start() end in bounded time", "statement": "With a transport that is not paused, every command method of an item ends within 5 seconds of being called, and start() within 20 seconds of the connection being made, whatever the gateway sends and whenever; a TimeoutError from silence comes after exactly 5 seconds without a message.", "quantifier": "every item, every command, every sequence of arrivals", "why_tests_cant": "arrival times are unbounded", "anchors": ["pyown/client/base.py: read_message, start", "pyown/items/base.py: _read_message, send_normal_message, send_dimension_writing"]}
{"id": "C87", "title": "Requests end in bounded time (refuted)", "statement": "A status or dimension request should end within a fixed time. Refuted: each reply restarts the 5 second limit, so a gateway that keeps replying keeps the request running beyond any bound. What holds: a request that reads n messages ends within 5(n+1) seconds, with TimeoutError exactly 5 seconds after the last message when the gateway falls silent.", "quantifier": "every request and every sequence of arrivals", "why_tests_cant": "arrival times and the number of replies are unbounded", "anchors": ["pyown/items/base.py: send_status_request, send_dimension_request, _single_dim_req", "pyown/client/base.py: read_message"]}
{"id": "C88", "title": "The tags and attributes of a message are those of its frame", "statement": "For every frame that parse_message accepts, message.tags is the list of the tags of the frame without the '#' that marks requests and writes; who, where, what, dimension and values are the tags in the positions of the syntax; and messages that differ in class or tags have different hashes as far as the hashes of their parts differ.", "quantifier": "every frame and every message", "why_tests_cant": "tag lists are unbounded", "anchors": ["pyown/messages/base.py: BaseMessage.tags, who, where, __hash__", "pyown/messages/dimension.py: dimension, values"]}
{"id": "C89", "title": "parse() of a message class accepts exactly its own tag lists (refuted)", "statement": "SomeMessage.parse(tags) should accept exactly the tag lists of its class. Refuted: ACK.parse and NACK.parse accept every list whose first tag is '#' or whose second is '1' (or '0'), so each accepts the other's tags; the classes without values ignore extra tags. What holds: the exact set of accepted lists of each class, the message made from it and the exceptions raised otherwise.", "quantifier": "every class and every list of tags", "why_tests_cant": "all lists", "anchors": ["pyown/messages/ack.py: ACK.parse", "pyown/messages/nack.py: NACK.parse", "pyown/messages/normal.py: NormalMessage.parse", "pyown/messages/dimension.py: DimensionWriting.parse", "pyown/messages/base.py: GenericMessage.parse"]}
{"id": "C90", "title": "Concurrent calls on one client get their own answers (refuted)", "statement": "When several tasks use items of one client at once, each command and request should get the answer to its own frame. Refuted: nothing ties a reader to its frame, so a task that starts a command between the arrival of an answer and the run of the task it was for takes it, and a request interleaved with another call swaps answers with it even when every step runs in order. What holds: when there are only commands, no timeouts, and woken readers run before further calls, the j-th command written gets the j-th answer, and every answered command ends.", "quantifier": "every number of tasks, every interleaving of calls, packets and steps", "why_tests_cant": "schedules are unbounded", "anchors": ["pyown/items/base.py: send_normal_message, send_status_request, send_dimension_request", "pyown/client/base.py: send_message, read_message", "pyown/protocol/protocol.py: receive_messages"]}
{"id": "C91", "title": "Messages are spaced by the delay argument (refuted)", "statement": "OWNProtocol.send_message waits delay seconds before writing, so that messages sent one after the other never reach the gateway closer together than delay.", "quantifier": "Every list of messages, every water mark, every schedule.", "why_tests_cant": "A test server accepts messages at any rate; that no run is unspaced is a statement about all bursts.", "anchors": ["pyown/protocol/protocol.py: send_message"]}
{"id": "C92", "title": "A send waiting for the transport is eventually written (refuted)", "statement": "A call of send_message that sleeps because the transport is paused is written once the transport resumes, whatever the other tasks send meanwhile.", "quantifier": "Every schedule of sends, drains and wake-ups, every number of pauses.", "why_tests_cant": "Starvation needs an unbounded schedule in which the buffer fills again before each wake-up; no test run is that long.", "anchors": ["pyown/protocol/protocol.py: send_message", "pyown/protocol/protocol.py: resume_writing"]}
{"id": "C93", "title": "Items of a loop with a command client can send commands (refuted)", "statement": "Client.loop(client=c) hands the callbacks items that send with c, so that with a connected command client every command of such an item is written.", "quantifier": "Every history of get_item calls, loop events and assignments to item.client, every item and message.", "why_tests_cant": "Which client an item keeps depends on the whole history of lookups; tests look an item up once.", "anchors": ["pyown/client/client.py: get_item", "pyown/client/client.py: loop", "pyown/items/base.py: client"]}
{"id": "C94", "title": "A callback gets an item of the class it was registered on, at the WHERE of the event (refuted)", "statement": "A callback registered with X.on_... is called with an instance of X whose where is the WHERE of the event.", "quantifier": "Every history of lookups and events, every registry, every event.", "why_tests_cant": "The class of the item is fixed when the item is first seen and depends on ITEM_TYPES only; a test would have to cover every event and every registering class.", "anchors": ["pyown/client/client.py: get_item", "pyown/client/client.py: _dispatch_callbacks", "pyown/items/lighting/base.py: call_callbacks", "pyown/items/lighting/dimmer.py: on_luminosity_change"]}
{"id": "C95", "title": "The OPEN login succeeds exactly with the gateway's password", "statement": "Against a gateway that greets, sends a nonce and compares the answer with the published transform of its own password q, start() returns if the client's password is a number equal to q modulo 2^32, raises InvalidAuthentication if it is another number, and raises ValueError if it is not a number. No other outcome is possible unless the gateway falls silent, and such an exchange always exists.", "quantifier": "Every client password, gateway password, nonce and session type.", "why_tests_cant": "Tests fix a few password/nonce pairs; the claim ranges over all of them and over both sides of the exchange.", "anchors": ["pyown/client/base.py: start", "pyown/client/base.py: _authenticate_open", "pyown/auth/open.py: own_calc_pass"]}
{"id": "C96", "title": "An HMAC login cannot be replayed or reflected", "statement": "The same gateway messages log a client in twice only if it drew a key with the same digest or two different texts, which are named, have the same MAC under the same key; and the client's own proof sent back to it logs in only if the text it signs and the text it checks have the same MAC. Without an OPEN challenge a password that UTF-8 can encode matters only through its digests.", "quantifier": "Every password, every random key, every gateway transcript, every hash and every MAC with byte values.", "why_tests_cant": "The random key and the adversary's messages range over unbounded sets; tests use recorded values.", "anchors": ["pyown/client/base.py: _authenticate_hmac", "pyown/auth/hmac.py: server_hmac", "pyown/auth/hmac.py: create_key"]}
{"id": "C97", "title": "Events wait for loop(), before the first call and after a failure", "statement": "Messages that arrive while no loop is running are kept (the calls: up to Python 3.12, see C43). When loop() is called, late or again after it raised, it handles them in order of arrival, with the callbacks registered by then; the events that loops got to, followed by the unread ones, are exactly those that arrived. Only an energy event from an address that is not an energy address ends a loop on an open connection. On a command session or without a connection the call raises InvalidSession, and on a lost connection it returns at once.", "quantifier": "Every history of packets, registrations, look-ups, resumptions and calls of loop() when none is running.", "why_tests_cant": "The property is about all interleavings of arrivals, registrations and calls, of any length.", "anchors": ["pyown/client/client.py: loop", "pyown/protocol/protocol.py: data_received"]}
{"id": "C98", "title": "What arrived before the connection ended is handled by a later loop() (refuted)", "statement": "A message received before the connection was lost or closed is handled when loop() is called afterwards.", "quantifier": "Every history up to the loss and every continuation.", "why_tests_cant": "A test shows one loss; the claim is about whatever the application does afterwards.", "anchors": ["pyown/client/client.py: loop", "pyown/client/base.py: close"]}
{"id": "C99", "title": "Tasks that share a client each see their own calls one after the other", "statement": "Several asyncio tasks use items of one command client in any interleaving of calls, packets, wakeups and timeouts. For each task there is a sequence of messages and silences on which its calls, made one after the other as if it were alone, write the same frames and give the same results; the messages of these sequences are exactly the messages the gateway sent, each given to one task, in order of arrival. A silence occurs only where a call was timed out, and a timed-out call ends with TimeoutError even when a message arrives before its task runs; that message stays in the queue. If one task uses the client, its sequence is what the gateway sent.", "quantifier": "all numbers of tasks, schedules, packets, timeouts", "why_tests_cant": "tests drive one task with prepared answers; the claim is that this is what any task of any schedule can observe", "anchors": ["pyown/client/base.py: BaseClient.read_message", "pyown/items/base.py: BaseItem.send_normal_message", "pyown/items/base.py: BaseItem.send_status_request", "pyown/protocol/protocol.py: OWNProtocol.data_received"]}
{"id": "C100", "title": "Concurrent readers of an event client share the events", "statement": "(The callbacks: up to Python 3.12, see C43.) However many tasks call loop() and read_message() on one event client, and in whatever order they run, are woken or are cancelled: every message that arrives is taken by exactly one of them, in order of arrival; a message taken by loop() starts exactly its callbacks, a message taken by read_message() is what that call returns; a loop fails only by a message without a factory or with a broken address that it took itself, and the other calls go on; when nothing more is scheduled and some call still waits, nothing is unread.", "quantifier": "for every number of tasks, every history of calls, packets, scheduled steps, cancellations and registrations on an open connection, every packet content that decodes", "why_tests_cant": "The interleavings of several loops and reads with packets and cancellations are unbounded; a test runs a few of them.", "anchors": ["pyown/client/client.py: Client.loop", "pyown/client/base.py: BaseClient.read_message"]}
{"id": "C101", "title": "While a loop runs, every event reaches the callbacks (refuted)", "statement": "While loop() runs, an event that arrives is dispatched to its callbacks, also if the application calls read_message() now and then. Refuted: a read_message() that waits in front of the loop gets the event, and no callback is ever called for it.", "quantifier": "for every registered callbacks, every packet with one message, every continuation of the history", "why_tests_cant": "That no continuation delivers the event is a statement about all later histories.", "anchors": ["pyown/client/client.py: Client.loop", "pyown/client/base.py: BaseClient.read_message"]}
{"id": "C102", "title": "Calls that do not overlap get their own answers", "statement": "If the tasks that share a command client make one call at a time between them (a command or a status or dimension request, consumed to its end), no call times out, and the gateway answers every call with a whole answer, in order, then every call ends with the meaning of its own answer, whichever task made it and however the bytes are cut into packets; and after the last one nothing is left unread.", "quantifier": "for every number of tasks, every history of calls and packets in which no call starts while another is in progress, every way the gateway splits its answers into packets", "why_tests_cant": "The histories, the answers and the packet boundaries are all unbounded; a test runs one conversation.", "anchors": ["pyown/client/base.py: BaseClient.read_message", "pyown/items/base.py: BaseItem.send_normal_message", "pyown/items/base.py: BaseItem.send_status_request", "pyown/protocol/protocol.py: OWNProtocol.data_received"]}
{"id": "C103", "title": "Leaving the replies of a request early disturbs nothing (refuted)", "statement": "If the consumer of send_status_request(), send_dimension_request() or one of the getters built on them leaves its loop before the last reply (by break, or by an exception of its own), the calls that follow on the same client are not affected. Refuted: nothing takes the remaining replies. Every later request of the same kind yields the replies of the request before it and reports success; requests of the other kind and commands fail with ResponseError once for every reply left over; then a command takes the ACK of the abandoned request for its own and all further verdicts are shifted. Requests consumed to their end do get their own replies.", "quantifier": "for every consumer, every place where it leaves, every number of remaining replies, every sequence of later requests or commands and of answers to them", "why_tests_cant": "The shift never heals by itself: that is a statement about all later sequences of calls, which a test can only sample.", "anchors": ["pyown/items/base.py: BaseItem.send_status_request", "pyown/items/base.py: BaseItem.send_dimension_request", "pyown/items/base.py: BaseItem.send_normal_message"]}
{"id": "C104", "title": "What was set is what is read back (refuted for the white temperature)", "statement": "Every sequence of lighting and automation calls on one command client, with a gateway that does what the documentation says for the points behind it (single points, groups, everything): each call does to the points it is aimed at what it stands for, yields what they report in their order, and raises ResponseError exactly when nobody is at the address; nothing is left unread for the next call. What becomes of a point depends only on the calls aimed at it. After turn_on, turn_off, a level, a shutter command, a timer, brightness with speed or HSV was set, and nothing else was aimed at the point, the corresponding request reports exactly this. Refuted for the white temperature, which is written to one dimension and read from another.", "quantifier": "for every house, every address scheme, every reaction of the points to commands, every sequence of calls", "why_tests_cant": "Needs all houses, all group schemes and all sequences of calls; a test has one simulated gateway and a few calls.", "anchors": ["pyown/items/lighting/base.py: BaseLight.turn_on", "pyown/items/lighting/base.py: BaseLight.temporization_request", "pyown/items/lighting/dimmer.py: Dimmer.set_hsv", "pyown/items/lighting/dimmer.py: Dimmer.get_status", "pyown/items/base.py: BaseItem.send_status_request", "pyown/items/base.py: BaseItem.send_dimension_request"]}
{"id": "C105", "title": "What one client does, the callbacks of another are told", "statement": "On Python < 3.13: one client makes any sequence of lighting and automation calls, another one runs loop() on an event session with the same gateway, which reports every state it changes. However the events are grouped into packets and whenever the loop runs, it calls for each event, in order, exactly the callbacks registered for it, once each, with the item of the point and its new state; afterwards the loop waits and nothing is unread. In particular a command is told, for every point it is aimed at, to every callback registered for that kind of point, whatever was done before and after it.", "quantifier": "for every house, every sequence of calls, every grouping of the event frames into packets, every schedule of the loop, every registry", "why_tests_cant": "Needs all sequences of calls, packet groupings and schedules of two clients and a gateway; a test runs one of them.", "anchors": ["pyown/client/client.py: Client.loop", "pyown/client/client.py: Client._dispatch_callbacks", "pyown/items/lighting/base.py: BaseLight.call_callbacks", "pyown/items/base.py: BaseItem.send_normal_message"]}
{"id": "C106", "title": "Parse errors carry the text that caused them (refuted for ACK.parse, StopGo and two callbacks)", "statement": "`InvalidMessage.message` and `InvalidTag.tag` are documented as the message or tag that caused the error. When parse_message rejects a text with InvalidMessage, the attribute is that text, at most without the white space around it, and is itself not a frame; when a packet is rejected, it is the first frame of the packet that cannot be parsed, every earlier one being fine. InvalidTag from a tag constructor or from the parse of a message class carries a text outside the tag alphabet: the text given, or one of the tags given (for a generic message the first bad one). NACK.parse reports the frame of its tags, an energy item its address, request_status the first message that is not a Stop&Go answer, and call_callbacks of lights, automations and cameras the message. Refuted: ACK.parse reports the constant sentence 'Invalid ACK message' whatever it was given; StopGo with the address of another energy item has a sentence in `tag`; call_callbacks of gateway and energy items have a sentence in `message`. The attributes change nothing else: the functions without them are those of the other properties.", "quantifier": "every text, packet, tag list, constructor argument, address, message list and message", "why_tests_cant": "The bad part can be anywhere in an unbounded text, packet or list; tests look at the class of the exception only.", "anchors": ["pyown/exceptions.py:51-80", "pyown/messages/base.py:168-223", "pyown/messages/ack.py:37-46", "pyown/messages/nack.py:37-46", "pyown/protocol/protocol.py:64-95", "pyown/items/energy/energy.py:47-67", "pyown/items/energy/stop_go.py:19-123"]}
{"id": "C107", "title": "A whole visit: start(), any calls, close()", "statement": "Against a gateway that greets, asks for no password or for the OPEN one, and serves orders only to those it let in: start() of a client succeeds exactly if the password opens the lock (equal modulo 2^32), raises InvalidAuthentication if it is another number and ValueError if it is no number (and only if one is asked for); nothing is left unread and nothing has happened to the installation. After a successful start every sequence of lighting and automation calls does what the calls stand for, yields what the points aimed at report, and fails only where nobody is (C104). After a failed start the installation never changes, whatever is called: after a refusal every call raises TimeoutError; after the ValueError the first call raises ResponseError (its frame is taken for the answer to the challenge) and the others TimeoutError; none of them raises InvalidSession. Before start(), after close() and on an event client every such call raises InvalidSession and writes and reads nothing.", "quantifier": "every password, lock, nonce, house, gateway behaviour, sequence of calls and script of the connection", "why_tests_cant": "The outcome of each call depends on the login and on all calls before it; tests run single calls against a mock.", "anchors": ["pyown/client/base.py:69-249", "pyown/auth/open.py:4-58", "pyown/items/base.py:103-304"]}
{"id": "C108", "title": "Sessions with the gateway's clock and the energy meters", "statement": "Against a house that also holds the gateway's own data (time, date, IP address, netmask, MAC address, model, firmware, uptime, date and time, kernel, distribution) and energy meters (power, totalizers, differential level): every sequence of calls of lighting, automation, gateway and energy items does what the calls stand for; each get_... returns what the first point aimed at that has the dimension says, raises ResponseError exactly if nobody is there or nobody has the dimension, and leaves nothing unread. A date that set_date wrote is the date that get_date returns later, whatever other calls come between; a time comes back with its hour, minute and second, and with the hours that the first two digits of the written zone give (C54).", "quantifier": "every house whose values can be read, gateway behaviour, sequence of calls and script of the connection", "why_tests_cant": "The answer of one call depends on all the calls before it; tests run single calls against a mock with one canned reply.", "anchors": ["pyown/items/gateway/gateway.py:107-445", "pyown/items/energy/energy.py:129-354", "pyown/items/base.py:103-304"]}
{"id": "C109", "title": "The log is a transcript of the traffic (refuted in part)", "statement": "With logging at DEBUG, the records of the connection tell what was received and sent: for each accepted packet that held a message one record with the messages of that packet, in order, which together are exactly what was queued; for each message given to the transport one record with its text, in order; two histories with the same records received the same messages and sent the same frames. A packet that is refused leaves a WARNING with its bytes in hexadecimal if it is not ASCII, or with the text that is no message, then two ERROR records, and ends the connection. At INFO a connection on which nothing is refused shows only its beginning and its end. Refuted in part: after the end of the connection 'Sent message' is logged though nothing is written, and a packet with an unknown WHO leaves no WARNING.", "quantifier": "every history of packets, sends, pauses, resumptions, close and loss, and every text Python composes", "why_tests_cant": "A statement about all histories, and about the injectivity of the texts; tests do not look at the log.", "anchors": ["pyown/protocol/protocol.py:45-122", "pyown/client/base.py:260-273", "pyown/messages/base.py:64-65", "pyown/exceptions.py:57-81"]}
{"id": "C110", "title": "The log and the exceptions of start() do not reveal the password (refuted)", "statement": "For a given conversation with the gateway, the records of start() at INFO and the text of the exception it raises are the same for all passwords, up to whether the login succeeds, if int() reads the password, or the gateway asks for the HMAC algorithm or none and UTF-8 can encode the password. Refuted: at DEBUG, with the OPEN algorithm, the record of the reply together with the nonce gives the password away (modulo 2^32); and a password that is no number, on an OPEN challenge, is spelt out by the ValueError of start().", "quantifier": "every conversation, password, nonce, random bytes and hash functions", "why_tests_cant": "A statement about all pairs of passwords (a hyperproperty); tests compare single outcomes.", "anchors": ["pyown/client/base.py:81-206", "pyown/protocol/protocol.py:107-122", "pyown/auth/open.py:9-58"]}
{"id": "C111", "title": "Every answer about the gateway's clock is read or refused", "statement": "Whatever values the gateway sends: get_time, get_date, get_datetime and get_uptime return exactly if the values needed are numbers of a time of day, of a date of the calendar, of a zone of less than a day, of an uptime below 10^9 days, and then return those numbers; they raise OverflowError exactly if the values are numbers of which one is no C int (for the uptime: 10^9 days or more); get_datetime and get_uptime raise IndexError exactly if the answer ends early and what is there are numbers; in every other case ValueError. The day of the week is not looked at.", "quantifier": "every list of values that can be received and every script that answers", "why_tests_cant": "Four decoders with four kinds of outcome over all texts of all values; tests use a handful of well-formed answers.", "anchors": ["pyown/items/gateway/gateway.py:107-118", "pyown/items/gateway/gateway.py:135-159", "pyown/items/gateway/gateway.py:178-202", "pyown/items/gateway/gateway.py:331-382"]}
{"id": "C112", "title": "The log of loop() accounts for the events (refuted in part)", "statement": "For every history of packets, registrations and wake-ups of an open event connection in which no event lacks a place, the log is the concatenation of one account per event the loop got to, in order, and the account of an event is determined by the event and the callbacks registered: nothing if its callbacks were called or it answers a command; a warning for an unparsed message; an info for a system without items; a warning for the wrong kind of message; an error if a callback or the values were refused; two warnings for an unknown gateway model. Refuted in part: events no callback can be registered for leave no record; 'Item not found' is written only about items that were found; nothing is recorded about an event without a place, which ends the loop; from Python 3.13 on every item event is reported as 'Item not found'. No other record is ever written.", "quantifier": "every history, every set of callbacks, every Python version", "why_tests_cant": "Which records are written depends on the whole history and on all texts of events; tests look at single records.", "anchors": ["pyown/client/client.py:105-171", "pyown/items/gateway/gateway.py:51-59"]}
{"id": "C113", "title": "The example programs do and show what they say", "statement": "light_01, automation_01, energy_management_01 and gateway_01, run against a gateway with any house, lock and password: with the right password they make the calls of their plan in order, each with the effect it stands for, show exactly the lines of the plan for what the house then says, and end at the first call that is refused, without closing the client; with a wrong password or one that is no number nothing is shown and nothing happens to the house; such a run is always possible and none waits in vain. light_01 switches everything at 32 on with WHAT 11 and shows one line per lamp there that then reports 0 or 1; automation_01 sends up, stop, down, stop to 15; energy_management_01 shows the power of the first meter to answer; gateway_01 shows address, model name, clock and kernel, up to the first not answered. camera_01, custom_message_01 and custom_message_02, whatever the gateway answers: exactly the frames written, messages read and lines shown.", "quantifier": "every house, lock, password and hash for the four; every script of answers for the other three", "why_tests_cant": "The examples talk to a real gateway and have no tests; what they show depends on all states of the house and on every answer.", "anchors": ["examples/light_01/main.py", "examples/automation_01/main.py", "examples/energy_management_01/main.py", "examples/gateway_01/main.py", "examples/camera_01/main.py", "examples/custom_message_01/main.py", "examples/custom_message_02/main.py"]}
{"id": "C114", "title": "The event examples tell what happens (refuted in part)", "statement": "light_02, automation_02, energy_management_02 and gateway_02: after a login, for every history of packets, the lines told are exactly those of the events the loop got to, in order of arrival and one at most per event: a lamp is on (WHAT 1) or off, a shutter is up, down or stopped, a meter's power, the gateway's time; the program waits for more or has been ended by an energy event from no energy address. While another client makes any calls in a house, light_02 and automation_02 tell one line per reported lamp or shutter; beside automation_01, automation_02 tells up, stopped, down, stopped for every shutter at 15. With a wrong password nothing is told. Refuted in part: every state of a lamp but 1 is told as off, so beside light_01, behind a gateway that reports the timed command as given, light_02 says off of every lamp just switched on; from Python 3.13 on nothing is ever told.", "quantifier": "every history of packets, house, gateway, password and Python version", "why_tests_cant": "What is told depends on the order and grouping of packets and on what another client does; the examples have no tests.", "anchors": ["examples/light_02/main.py", "examples/automation_02/main.py", "examples/energy_management_02/main.py", "examples/gateway_02/main.py"]}
{"id": "C115", "title": "What a client keeps of the events is bounded by the house (refuted for a hostile gateway)", "statement": "While loop() runs, the client keeps of all events it has handled only one item for each (WHO, WHERE) that an event or get_item() named and that has an item class; the unread messages are those that arrived since it last ran. In a house with finitely many addresses the items never outnumber the addresses, however long it runs. Refuted as a bound for every gateway: n small packets with n addresses leave n items for ever, and while nobody reads (a command client, or before loop()) every message that arrives is kept.", "quantifier": "every history of packets, registrations, look-ups and wake-ups, of any length", "why_tests_cant": "A leak shows only after arbitrarily many events; a test sees a few.", "anchors": ["pyown/client/client.py:55-77", "pyown/client/client.py:115-143", "pyown/protocol/protocol.py:64-95"]}
{"id": "C116", "title": "A whole visit to a gateway with the HMAC lock works as with the OPEN one (refuted)", "statement": "Against every gateway that sends the frames documented for the HMAC login, however it checks and computes proofs: start() never succeeds, whatever the password (of one that UTF-8 cannot encode, C132 tells the outcome). If the gateway takes the client's answer, start() ends with ValueError while the gateway waits for the confirmation; otherwise with InvalidAuthentication or TimeoutError; a gateway that wants the documented form *#Rb*HMAC## never takes the answer. A program that goes on all the same does nothing to the house: every call times out. Every program of the shape of the examples ends in start() and shows nothing.", "quantifier": "every password, algorithm, nonce, random bytes, hash and MAC functions, checking rule, house and list of calls", "why_tests_cant": "It needs every way a gateway may check proofs and every program that follows; tests have no gateway.", "anchors": ["pyown/client/base.py:98-206", "pyown/auth/hmac.py:17-163", "docs/original/hmac.md"]}
{"id": "C117", "title": "After the connection breaks, the verdicts tell what was done (refuted for a break inside a frame)", "statement": "Every sequence of lighting and automation calls on one command client, and a connection (or gateway) that stops at an arbitrary point between frames: the calls before that point have done and returned what they do in an undisturbed session; the call during which it stopped raises TimeoutError, its order was obeyed or not, and what it yielded is what the first of the points asked reported; every later call raises TimeoutError, yields nothing and does nothing; nothing else can happen, and all of this can. So all calls with a verdict come first and are done, and at most one of those that timed out was done. Making the calls that timed out again on a new connection leads to the house of an undisturbed session if the first of them may be done twice (refuted for step dimming, which is done twice). Refuted for a break inside a frame: the piece is read as a whole frame, and a lamp that does not exist is reported.", "quantifier": "every sequence of calls, house, gateway behaviour and point of the break", "why_tests_cant": "A test breaks the connection at a few chosen points; the claim is about all of them.", "anchors": ["pyown/protocol/protocol.py:50-95", "pyown/protocol/protocol.py:107-132", "pyown/client/base.py:208-242", "pyown/items/base.py:103-149", "pyown/items/base.py:200-287"]}
{"id": "C118", "title": "Tasks that share one client one call at a time work on the house as one (refuted without the lock)", "statement": "Any number of tasks share one command client and make one lighting or automation call at a time between them (a lock around the calls), in any order; the gateway obeys each order as it arrives and its answers reach the client in packets cut anywhere between frames. Then the house goes through the calls in the order in which they start; every call that ended has the result it has in that story, and the messages its task read are exactly those on which the call made alone yields what the story says; at most one call is in progress, and once everything has arrived and nothing is scheduled every call has ended and nothing is left unread. In particular what one task set is what another task reads afterwards. Refuted without the lock: a command that was obeyed is reported as failed because its task read a report meant for another task, which misses it.", "quantifier": "every number of tasks, schedule, sequence of calls, house, gateway behaviour and split into packets", "why_tests_cant": "A test runs one interleaving with a few packets; the claim is about every schedule of any number of tasks.", "anchors": ["pyown/protocol/protocol.py:66-132", "pyown/client/base.py:208-242", "pyown/items/base.py:103-149", "pyown/items/base.py:200-287"]}
{"id": "C119", "title": "Calls over the whole line: flow control, tasks, packets and house together (refuted without the lock)", "statement": "Any number of tasks make calls on one client whose transport pauses and resumes while the socket takes the bytes in arbitrary pieces. Whatever happens, the calls that go on to read an answer are exactly those whose frames the transport was given, in the same order. If the tasks make one call at a time between them and nothing is cancelled, timed out or lost, then the bytes written and buffered are the whole frames of the calls in the order in which the calls were made (but for at most one call that still waits for the transport); and, the gateway obeying the frames in order whenever it gets to them and answering in packets cut anywhere between frames, the house goes through the calls in that order, every call that ended has the result and has read the messages that it has in that story, at most one call has not ended (none when nobody is in the middle of a call), and once everything was obeyed and has arrived all calls have ended and nothing is unread. Refuted without the lock: a call that is made later overtakes one that waits for a paused transport, so a lamp switched on and then off stays on although every call succeeds.", "quantifier": "every number of tasks, schedule, water marks, division of the bytes by the socket, sequence of calls, house, gateway behaviour and split into packets", "why_tests_cant": "A test sees one interleaving, and a paused transport needs more than 64 KiB of unsent data; the claim is about every schedule of senders, transport, gateway and readers.", "anchors": ["pyown/protocol/protocol.py:66-132", "pyown/client/base.py:208-242", "pyown/items/base.py:103-149", "pyown/items/base.py:200-287"]}
{"id": "C120", "title": "Tasks that make one call at a time never wait for a paused transport (refuted without the lock)", "statement": "Any number of tasks make one lighting or automation call at a time between them, and the gateway deals with a frame once all of its bytes have arrived. Then, whatever the transport's water marks and however slowly the socket takes the bytes, no call ever sleeps in send_message; whenever nobody is in the middle of a call nothing is left in the transport's buffer and it is not paused; and the buffer never holds more than the end of the frame of the last call. Refuted without the lock: a second call made while the frame of the first is buffered has to wait.", "quantifier": "every number of tasks, schedule, pair of water marks, division of the bytes by the socket, sequence of calls, house and gateway behaviour", "why_tests_cant": "A paused transport depends on the socket and on how much is unsent; a test on a local socket never sees one, and the claim is about every schedule.", "anchors": ["pyown/protocol/protocol.py:97-122", "pyown/client/base.py:208-223", "pyown/items/base.py:103-149", "pyown/items/base.py:200-287"]}
{"id": "C121", "title": "Clients with a connection each need no lock between them: their calls are linearizable", "statement": "Several clients, each with a connection of its own, use one house at the same time. Each makes one lighting or automation call at a time; calls of different clients overlap in any way, and the gateway serves the connections in any order. Then there is one order of all calls that were obeyed, which keeps the order of each client and puts a call that had ended before another one started in front of it; the house goes through these calls one after the other, and each client gets exactly the results and messages that this sequence gives. So what one client set is what another one reads afterwards, unless a third call set something else meanwhile. When a client is at rest and nothing is on its way, all its calls have ended and nothing is unread.", "quantifier": "every number of clients and tasks, interleaving of their calls, order of service, pair of water marks, division of bytes into packets, house and gateway behaviour", "why_tests_cant": "Linearizability speaks about every interleaving of several clients and every order of service; a test runs one.", "anchors": ["pyown/items/base.py:200-287", "pyown/client/base.py:192-223", "pyown/protocol/protocol.py:97-152"]}
{"id": "C122", "title": "A timeout does not disturb the calls after it (refuted: the verdicts lag behind)", "statement": "Tasks make one lighting or automation call at a time, and any of them may end with TimeoutError. What the house does is not affected: it obeys the calls in the order in which they were made, each once, including those that timed out. What the callers are told is: the answers form one stream from which the calls take in order, so a call that times out leaves its answer, or the rest of it, to the next ones; when the calls are commands, a verdict that is not a timeout is that of the call made as many calls earlier as there were timeouts before. Refuted: a client is told that an effective command timed out and that a refused one was done, and the refusal is left for the next call.", "quantifier": "every number of tasks, schedule, set of calls that time out, pair of water marks, division into packets, house and gateway behaviour", "why_tests_cant": "When a timeout happens and what arrives after it depends on the network; the claim is about every schedule, and the effect appears only in later calls.", "anchors": ["pyown/items/base.py:103-149", "pyown/items/base.py:200-287", "pyown/client/base.py:192-241", "pyown/protocol/protocol.py:97-152"]}
{"id": "C123", "title": "A client that opens a new connection after a timeout is told the truth and has left the old call behind (refuted in part)", "statement": "Several connections reach one gateway; on each of them lighting and automation calls are made one after the other and may end with TimeoutError. There is one order of all calls the gateway obeyed, which keeps the order of every connection, and the house went through the story of these calls. Every call answered on a connection on which no earlier call timed out is told what that story says of it, and has read exactly the messages that belong to it; it comes before every call that started later, on whichever connection. So a client that gives up a connection after a timeout is never told the verdict of another call, unlike one that carries on (C122). Refuted: the call that timed out may still take effect after later calls on the new connection; the lamps end up on although the last call, off, was confirmed.", "quantifier": "every number of connections and tasks, schedule, set of calls that time out, order of service, pair of water marks, division into packets, house and gateway behaviour", "why_tests_cant": "Which call times out and when the gateway gets to it is decided by the network and by the other clients; the claim is about all interleavings.", "anchors": ["pyown/items/base.py:103-149", "pyown/items/base.py:200-287", "pyown/client/base.py:192-241", "pyown/client/base.py:111-190", "pyown/protocol/protocol.py:97-152"]}
{"id": "C124", "title": "Lost connections and cancelled calls in front of a house (verdicts after a timeout refuted)", "statement": "Several connections reach one gateway, any of which may be lost at any moment; calls are made one after the other on each, may time out, and may be cancelled while their message waits for a paused transport. The house goes through the story of calls whose messages the transport had taken: of each connection the first so many, in an order that keeps that of every connection. So a call cancelled before it was sent, or made on a lost connection, has no effect, and what was taken before the loss is obeyed in order up to some point. A call answered on a connection on which no earlier call timed out is told what that story says of it, and comes before every call started later. Refuted after a timeout: the late answer to a call that timed out is given to a call made on the lost connection, which is told that it was done although it was never sent.", "quantifier": "every number of connections and tasks, schedule, moment of loss, cancellation and timeout, order of service, pair of water marks, division into packets, house and gateway behaviour", "why_tests_cant": "The claim ranges over every moment at which a connection can break and a task can be cancelled, in every interleaving of several clients.", "anchors": ["pyown/items/base.py:103-149", "pyown/items/base.py:200-287", "pyown/client/base.py:192-241", "pyown/protocol/protocol.py:43-152"]}
{"id": "C125", "title": "A client that listens while others command knows the state of the house", "statement": "Up to Python 3.12 (see C43): several clients make calls on one house; the calls may time out or be cancelled and the connections be lost. Another client runs loop(). For each event that has arrived there, in order, exactly the callbacks registered for it are called, with the item of the point and its state. When all events have arrived, what a callback was told last about a point is the state the point is in, and a point it was never told about is in the state it was in at first; at any earlier moment it is a state the point was in after some of the calls. A command that one of the clients was told in time to be done has been heard for every point it is aimed at.", "quantifier": "for all houses without two points of the same WHO and address, gateways, numbers of clients and of tasks, histories of the connections (including timeouts, cancellations, losses, pauses), packets, registered callbacks, moments at which items are looked up and the loop runs", "why_tests_cant": "the events of one client depend on the order in which the gateway gets to the calls of all the others; a test fixes one order and one grouping of the events into packets", "anchors": ["pyown/client/client.py", "pyown/client/base.py", "pyown/protocol/protocol.py", "pyown/items/base.py", "pyown/items/lighting/base.py", "pyown/items/automation/automation.py"]}
{"id": "C126", "title": "The login with Python's own SHA-1, SHA-256 and HMAC (refuted in part)", "statement": "With the hash functions and the HMAC of Python's library, every digest has 20 or 32 bytes, everything that is hashed is hashed whole, and the client, with a password that UTF-8 can encode, answers an HMAC challenge with two numbers of 80 or 128 decimal digits: the digest of its key and the HMAC of the text of the manual. Refuted: a gateway with the right password can then log the client in. A login over the wire succeeds only if each of the 20 or 32 bytes of the proof is below ten; in a session with the password 12345, with either algorithm, nothing the gateway can send is accepted.", "quantifier": "for all passwords, keys, challenges, messages hashed (up to 2^61 bytes for injectivity) and gateway transcripts; the refutation: for everything the gateway sends after a challenge", "why_tests_cant": "a test compares a few digests with recorded ones and feeds back one recorded proof; it cannot range over everything a gateway could send", "anchors": ["pyown/auth/hmac.py: client_hmac", "pyown/auth/hmac.py: server_hmac", "pyown/auth/hmac.py: create_key", "pyown/client/base.py: _authenticate_hmac"]}
{"id": "C127", "title": "A client that listens and then asks knows the state of the house (refuted for the last word)", "statement": "Up to Python 3.12 (see C43): a client runs loop() while it and others command and ask on other connections. When a status request was answered in time and all events have arrived, the state of each point the request was for is what a callback was told last about it or, if none was ever told anything about it, what the request yielded. Refuted: that the word which came last is right. An answer that is older than an event can arrive after it, and nothing follows; and if the request is answered before the client listens, the change between the two is never told.", "quantifier": "for all houses without two points of the same WHO and address, gateways, numbers of clients, histories of the connections (timeouts, cancellations, losses, pauses), packets, registered callbacks and moments at which the loop runs", "why_tests_cant": "whether the answer or the event comes first depends on two connections and on the order in which the gateway serves the clients; a test fixes one order", "anchors": ["pyown/client/client.py: loop", "pyown/client/base.py: read_message", "pyown/items/base.py: send_status_request", "pyown/items/lighting/base.py", "pyown/items/automation/automation.py"]}
{"id": "C128", "title": "Every event of the protocol documentation reaches the callbacks (refuted for most)", "statement": "While an installation sends the events documented in docs/original, in any number, order and packets, the client stays connected and loop() goes on. What becomes of each event is known from its frame alone: on/off and step levels of lights, colours, the three states of automations, the gateway's values, single measures, the differential level and the whole state of a Stop&Go device start each callback registered for them, in order, with the item and the values; nothing else starts a call. Refuted: that the other documented events are told. Dimmer levels, shutter states and reports of meters end in two warnings; timers, white temperatures and single Stop&Go bits are passed over silently; all of WHO 0, 4, 5, 7, 14-17, 22, 24, 25 and 1004 leave at most one record. Refuted too: that a documented answer is survived. The auxiliaries' answers *9*k*n## close whatever connection they arrive on.", "quantifier": "for all sequences of documented frames (every address, number and value of the documented shape), packets of whole frames, registered callbacks, items asked for and moments at which the loop runs", "why_tests_cant": "the documentation describes families of frames with parameters; a test sends some of them, one at a time", "anchors": ["pyown/client/client.py: loop", "pyown/client/client.py: _dispatch_callbacks", "pyown/messages/base.py: parse_message", "pyown/tags/who.py: Who", "docs/original"]}
{"id": "C129", "title": "Every documented command can be sent and everything sent is documented (refuted in part)", "statement": "The methods of the item classes, called with any arguments Python accepts and answered in any way, write one explicit family of frames for each system: every frame of it can be written by some call, and no call writes another. The documented commands of docs/original for lights, automations, video door entry, gateway and energy split exactly in two: those marked as sendable are each written by a method of the class of their system, at every address; the others are never written by any method of any item of that system. Refuted thereby: that every documented command can be sent. Switching and stepping with a speed, translated commands, timers of 24 hours or more, the lamp's lifetime, the writing of white temperature, all advanced shutter commands, freeing the audio/video resources as documented, setting the gateway's time or date and time, and the monthly energy of a year before 2010 cannot be said. Refuted too: that all that is sent is documented. White temperature is written to dimension 13, the camera's free is *7*9##, the gateway is given a zone of four characters and a date without its weekday, and energy dimensions are asked for without their parameters; none of these frames is a documented command for any address.", "quantifier": "for all items that can send, addresses, methods, arguments and answers; for all documented commands with every value of each parameter", "why_tests_cant": "a test sends some frames; that a frame cannot be sent by any call is a claim about all of them", "anchors": ["pyown/items/lighting/dimmer.py: Dimmer", "pyown/items/automation/automation.py: Automation", "pyown/items/camera/camera.py: Camera", "pyown/items/gateway/gateway.py: Gateway", "pyown/items/energy/energy.py: EnergyManagement", "docs/original"]}
{"id": "C130", "title": "What the methods make of the documented answers (refuted in part)", "statement": "For each request that docs/original documents with its answer on the command connection, for lights, dimmers, shutters, the gateway, energy meters and Stop&Go devices, the bytes of the answer are read as the messages they stand for and the method that asked yields, returns or raises exactly what a table says, whatever the values; what comes after the answer stays unread. Nearly all rows are what a user would expect: states and levels of each address, time, date, addresses, versions, uptime, measures, totalizers, levels and status bits. Refuted: that every such request obtains its answer. The level, the timer, the colour and the white temperature of a light are told on the event connection, so the iterators that ask for them end empty; the actuators' flags raise IndexError; a documented model is read as unknown; and request_working_time_lamp asks for dimension 3, whose documented answer lists the lights that are on: with one or more of them it raises ResponseError and leaves the others and the ACK unread, after which as many commands as there were other lights fail whatever the gateway answers, the next succeeds whatever it answers, and every later one reports the verdict of an earlier command.", "quantifier": "for all items that can send, addresses, values in the documented ranges, messages that follow and commands issued afterwards", "why_tests_cant": "a test feeds one answer of its author's choosing; the claim is for every documented answer and for all later commands", "anchors": ["pyown/items/lighting/base.py: BaseLight.request_working_time_lamp", "pyown/items/lighting/dimmer.py: Dimmer", "pyown/items/gateway/gateway.py: Gateway", "pyown/items/energy/energy.py: EnergyManagement", "pyown/items/energy/stop_go.py: StopGo", "pyown/items/base.py: BaseItem.send_dimension_request", "docs/original"]}
{"id": "C131", "title": "The exceptions of each method (refuted in part)", "statement": "Each method of the items has a row of exceptions: InvalidSession, TimeoutError and ResponseError for all, and for some of them ValueError, InvalidTag, IndexError, OverflowError or InvalidMessage. Called with arguments of the annotated types, on an item whose WHERE is a tag, a method raises no exception outside its row whatever arrives and whatever does not; and each exception of the row is raised by some call, with messages that the parser does make of some text. Refuted: that OWNException, as its docstring says, catches all exceptions of the package, since every method can raise TimeoutError, and all but those that only send a fixed or a given text can raise a ValueError, an IndexError or an OverflowError for an argument or an answer; and that the sections Raises of the docstrings are complete: what they list can happen, but none of them lists all that can.", "quantifier": "for all items, methods, arguments of the annotated types, and sequences of messages and silences", "why_tests_cant": "a test shows one exception of one call; that no other can escape is a claim about all arguments and all answers", "anchors": ["pyown/exceptions.py:15-22", "pyown/items/base.py:200-304", "pyown/items/lighting/dimmer.py:14-208", "pyown/items/gateway/gateway.py:135-445", "pyown/items/energy/energy.py:69-354", "pyown/items/energy/stop_go.py:53-123"]}
{"id": "C132", "title": "The exceptions that start() documents are those it raises (refuted)", "statement": "Once the connection exists, start() raises exactly TimeoutError, InvalidAuthentication and ValueError, each of them for every password and some messages that the parser does make, and UnicodeEncodeError for every password with a lone surrogate, as soon as an HMAC gateway sends its key. Its docstring names TimeoutError, and InvalidSession if the server requires an unknown authentication algorithm. Refuted: InvalidSession is never raised, an unknown algorithm raises InvalidAuthentication, and a password that is not a number raises ValueError in front of the OPEN lock whatever the challenge, so that neither the documented exceptions nor OWNException cover a mistyped password.", "quantifier": "for all passwords, random bytes, hash functions with byte results, sessions, and sequences of parsed messages and silences", "why_tests_cant": "a test shows one exception for one exchange; that no other exception can escape, and that a documented one never does, is a claim about all exchanges", "anchors": ["pyown/client/base.py:81-206", "pyown/auth/open.py:4-60", "pyown/auth/hmac.py:130-145"]}
{"id": "C133", "title": "Creating a client leaves the application's error reports as they were (refuted)", "statement": "BaseClient.__init__ sets the exception handler of the event loop, which belongs to the application too, and nothing ever sets it back. After any history of the loop a report (call_exception_handler) goes to the handler of the latest of: the application's set_exception_handler, the creation of a client. If that is a client, the report becomes one ERROR line of \"pyown.client\" with the message and the text of the exception, then the stack of the task, or a line for the protocol, or a line for the transport. Refuted: that a handler set by the application is told of every report (it is told exactly as long as no client is created, close() changes nothing); that every report is seen by somebody (those without an exception, such as 'Task was destroyed but it is pending!', are lost); that a report names the class of the exception (only its text is there, which may be empty, and there is no traceback); that a client used again and again logs no errors while nothing goes wrong (each connection after the first makes one error of its beginning and one of its end, since the two futures are made once, and an exception that ended the first connection is reported when the client is collected).", "quantifier": "for all histories of handlers set, clients created, connections made and lost, clients collected and reports, and for all contexts", "why_tests_cant": "the handler is global state of the loop: a test of the client sees neither the application's own reports nor what is missing after the client was created, closed or collected in some other order", "anchors": ["pyown/client/base.py:64-68", "pyown/client/base.py:243-249", "pyown/client/base.py:260-275", "pyown/protocol/protocol.py:45-62"]}
{"id": "C134", "title": "Whatever gateway is at the end of the line, locked calls are served one after the other; the date one task sets is the date another reads", "statement": "Let tasks share one command client, with calls that do not overlap (a lock), no timeouts, cancellations or lost connection, over a socket that pauses and resumes writing whenever it likes. At the other end stands anything at all that deals with frames in order, at any time, gives each call a whole answer (one message for a command; replies of the kind asked for and an ACK or a refusal for a request), and whose frames arrive in packets cut anywhere between frames. Then it has dealt with the first j calls exactly as if they had been made one after the other; the first k calls have ended, each having read the answer to it and nothing else; at most one call has not ended; and when nothing is left to do all have ended and nothing is unread. For a house with its own clock and energy meters the calls of the gateway item and of energy items make exactly the sequential story of C108, and each method returns what that story says. In particular the date that one task sets is what get_date returns to any task afterwards.", "quantifier": "all servers (states and answer relations) with whole answers, all watermarks, all numbers of tasks, all schedules of calls, wake-ups, drains and packets; all houses, gateways and sequences of calls", "why_tests_cant": "The server, the schedule and the cutting into packets are arbitrary; a test fixes one of each", "anchors": ["pyown/protocol/protocol.py:45-131", "pyown/items/base.py:95-304", "pyown/items/gateway/gateway.py:100-516", "pyown/items/energy/energy.py:60-631"]}
{"id": "C135", "title": "A callback is not lost to the garbage collector, and no error with it (refuted in part)", "statement": "The client keeps no reference to the tasks that it starts for callbacks, nor to the task that watches them. Still, with any objects of the application and any collections by Python: a callback that could be resumed is never collected, nor is the task that will report the errors of the same event; collections change neither what has been logged nor what can happen next; if one task of an event is collected then all those that still go on, and they could never have ended; an exception of a callback is reported exactly once, by the client's log or else by the loop's exception handler when the task is collected (so also the errors of callbacks that were called before one that cannot take the arguments, C83). Refuted: a callback that waits for something nobody else refers to disappears, and with the library's handler in place nothing is logged about it, not even asyncio's 'Task was destroyed but it is pending!'; only the errors of callbacks of the same event that had raised get a line.", "quantifier": "every history of events, ends of callbacks, changes of the application's references and collections", "why_tests_cant": "all histories and all points at which Python may collect", "anchors": ["pyown/client/client.py: _dispatch_callbacks", "pyown/client/client.py: _check_task_result", "pyown/items/base.py: _create_tasks", "pyown/client/base.py: _exception_handler"]}
{"id": "C136", "title": "start() calls that overlap, are cancelled or are closed upon (refuted in part)", "statement": "A start() that no other start() and no close() interrupts behaves as the handshake with what arrives on its own connection: it writes there only, reads from there only, and returns or raises what that handshake does, whatever was done on the client before, whatever arrives on the connections of earlier starts, and wherever its waiting is interrupted, timed out or cancelled. Once a later start() has its connection, or close() was called, nothing is written to an earlier connection again. However calls of start() are interleaved, one that returns has gone through a complete handshake of its own, with messages that it took itself, and wrote exactly the frames of that handshake. A start() that waits for a message when close() is called, with none unread, never returns normally. Refuted: that overlapping calls of start() succeed where a single one does. At a gateway without password, of two or more calls that connect before the first is answered never all return, at most two do, and none but the last connected if that one does; the others write to the last connection and take each other's answers, and the earlier connections stay open and silent. Refuted also: that start() raises when the client is closed meanwhile (it returns if the last answer was already received); that a start() which is cancelled or times out leaves the client unstarted or its connection closed.", "quantifier": "any number of start() calls on one client, every interleaving of their waits with connections, messages, ends of connections, timeouts, cancellations and close()", "why_tests_cant": "all interleavings of any number of calls", "anchors": ["pyown/client/base.py: start", "pyown/client/base.py: read_message", "pyown/client/base.py: send_message", "pyown/client/base.py: close", "pyown/client/base.py: _authenticate_open", "pyown/client/base.py: _authenticate_hmac"]}
{"id": "C137", "title": "A client refuses work until start() has returned (refuted)", "statement": "While start() is under way, calls of other tasks should be refused or wait. Proved: before the first connection every call that sends or reads raises InvalidSession and nothing is written. Refuted from then on: the call's frame is written in the middle of the handshake and either side may take the other's message. While the greeting lies unread any command of any item returns at once, whatever the gateway makes of it; at a gateway that refuses commands before a session is requested, a refused command returns normally and the start() next to it, which would have succeeded alone, raises InvalidAuthentication. What holds in every interleaving of starts and calls: a start() that returns has gone through a complete handshake with messages that it took itself, and a command that returns wrote exactly its frame and took exactly one message, an ACK.", "quantifier": "every interleaving of any number of start() calls and calls of other tasks, with connections, messages, ends, timeouts, cancellations and close()", "why_tests_cant": "all interleavings of any number of tasks", "anchors": ["pyown/client/base.py: start", "pyown/client/base.py: send_message", "pyown/client/base.py: read_message", "pyown/items/base.py: send_normal_message"]}
{"id": "C138", "title": "Item classes of the application get the events of their WHO (refuted in part)", "statement": "BaseItem and ITEM_TYPES are documented, so an application may define item classes of its own. Proved: in every history, classes that are only defined change neither the items nor what the library's callbacks get nor what ends the loop, and they never get an event that the library reports to suitable callbacks. Refuted for every WHO not in ITEM_TYPES: no class gets any of its messages. With a class put into ITEM_TYPES before the first item of its WHO is asked for: for a WHO without a class in the library every message reaches the first class defined for it, with an item of the class listed; for a WHO of the library every reported event reaches the registered callbacks with an item of the class listed, if that derives from Gateway or EnergyManagement in their place (so camera events reach Camera's callbacks, and Dimmer's callbacks get a Dimmer); a class which does not derive from them cuts off every callback of that WHO. Put there later it changes no item that is there. From Python 3.13 on no class gets anything. For a WHO of the library the requests (status, dimension), which the library's class refuses, go to the application's class.", "quantifier": "every set of application classes with any call_callbacks, every assignment to ITEM_TYPES, every history of lookups and events, every message", "why_tests_cant": "all classes an application may define, all histories", "anchors": ["pyown/client/client.py: get_item", "pyown/client/client.py: _dispatch_callbacks", "pyown/items/base.py: BaseItem", "pyown/items/utils.py: ITEM_TYPES"]}
{"id": "C139", "title": "Clients with a connection each, in front of any gateway", "statement": "Any number of clients, each with a connection of its own to one gateway, of which only this is assumed: it deals with the frames of one connection in order and gives each call a whole answer in frames that can be told apart; its answer may depend on anything that it was asked before by anybody. Each client makes one call at a time (commands and requests, from any of its tasks), over its own send buffer that may fill up and pause. Whatever the order in which the gateway serves the clients and whatever the packets: there is one order of all calls dealt with that keeps the order of every client, the gateway has gone through exactly these calls one after the other, and every client has got the answers to its own calls and no other, but for at most its last call. A call that had ended when another one started comes before it, whoever made them. This does not depend on the others keeping the rules: a client that makes one call at a time gets its own answers though the calls of the others overlap, time out, are cancelled or lose their connections. For the house with its clock and meters the calls of all clients make one story of C108; the date that one client set is what get_date of another one returns afterwards.", "quantifier": "every number of clients and tasks, every gateway that gives whole answers, every interleaving, order of service, packet boundary and socket speed", "why_tests_cant": "all schedules of several connections and all gateways, not one server", "anchors": ["pyown/client/client.py: Client", "pyown/client/base.py: send_message", "pyown/protocol/protocol.py: send_message", "pyown/protocol/protocol.py: data_received", "pyown/items/base.py: BaseItem._send_message", "pyown/items/gateway/gateway.py: get_date"]}
{"id": "C140", "title": "An item is what it was made to be (refuted in part)", "statement": "The constructors of the item classes return exactly the items that their arguments describe: at the WHERE given (text or tag), of the WHO given with who= or else of the WHO of the class, with the client given; for arguments that describe none they raise InvalidTag, ValueError or (energy address of a 7 and digits alone) IndexError, and everything the item then sends with a connected command client is addressed to that WHO and WHERE. item.where is the WHERE, item.who the WHO of the frames, and repr and str tell the class and the WHERE. Refuted for who=: item.who and repr then show nothing of the WHO that the frames carry, from Python 3.13 on item.who is no WHO at all, and Gateway takes any WHERE, valid or not, and ignores it.", "quantifier": "every item class, client, WHERE text or tag, who= argument and script of answers", "why_tests_cant": "a test makes a few items of one class with valid addresses; that no text at all gives an item with another address, and which of the exceptions comes for every invalid text and for every combination of faults, needs all texts", "anchors": ["pyown/items/base.py: BaseItem.__init__", "pyown/items/base.py: __repr__", "pyown/items/base.py: who", "pyown/items/energy/energy.py: __init__", "pyown/items/energy/stop_go.py: __init__", "pyown/items/gateway/gateway.py: __init__"]}
{"id": "C141", "title": "Nothing of a callback is lost when the program ends (refuted)", "statement": "When asyncio.run() returns, every call that the events made is over: as it was if it had ended, otherwise as it chose to when it was cancelled; and if everything was settled before (callbacks ended, watchers had their turn), no callback was cut short and each error was reported once, in the log or to the loop's exception handler. Refuted otherwise: as long as the watcher of an event has not had its turn after the last callback, the errors of the callbacks that had already raised are reported nowhere when the program ends, for any event and any callbacks, and the callbacks of an event dispatched in the last turn never run.", "quantifier": "every history of events, callbacks that end, raise or go on, watchers, and every reaction to the cancellation", "why_tests_cant": "tests end when everything is settled; which errors survive depends on the turn of the event loop at which the main coroutine returns", "anchors": ["pyown/client/client.py: _dispatch_callbacks", "pyown/client/client.py: _check_task_result", "pyown/items/base.py: _create_tasks"]}
{"id": "C142", "title": "A loop() goes on when the client is started again (refuted in part)", "statement": "With any number of connections made by start() one after the other and any number of tasks in loop(): what arrived on each connection is what loops took from it, in order, followed by what is unread; the callbacks called are those of the messages taken; the items outlive every connection; a loop takes one message from the connection on which it waited and all others from the one that the client has then; when nothing is scheduled, nothing is unread on a connection on which a loop waits; a loop ends only for the stated reasons. Refuted: a loop() that waits with nothing to read when its connection ends or is closed never takes another message and never ends, however often the client is started, so with one loop no event of any later connection is heard; and what is unread on a connection that the client has given up and on which nobody waits is never dispatched.", "quantifier": "every history of start(), close(), packets on every connection, breakdowns, loops, cancellations and registrations, and every schedule", "why_tests_cant": "whether a loop survives a new start() depends on whether a message was unread when the old connection broke down", "anchors": ["pyown/client/client.py: loop", "pyown/client/base.py: start", "pyown/client/base.py: close", "pyown/protocol/protocol.py: receive_messages"]}
{"id": "C143", "title": "Callbacks may answer events with commands on a second client (refuted in part)", "statement": "An application registers callbacks that answer each event with calls on a second client, every callback inside one asyncio.Lock: the calls of the callbacks are the answers to the events of the house, in the order of the events, one callback at a time, and mixed with the calls of other people they make one history of the house; when nothing is left to be done, every event was read and every answer given. If events and calls have weights that get less along every chain, the number of calls is bounded by what other people did, every schedule comes to a state in which nothing is left to be done, and the lock is never stuck. A lamp that a callback makes follow another lamp is on exactly if that one is, whenever nothing is left to be done (or both are as they were at the start). Refuted: that the application always comes to rest; with two lamps that follow each other, after one press there is never again nothing left to be done, and the commands that the house gets pass any number, whatever the schedule.", "quantifier": "every house, every registry and callback bodies, every history of other people's calls, every chunking and every schedule", "why_tests_cant": "the order of answers depends on how tasks queue for the lock and how events arrive; whether the exchange ends is a property of infinite runs", "anchors": ["pyown/client/client.py: loop", "pyown/client/client.py: _dispatch_callbacks", "pyown/items/base.py: _create_tasks", "pyown/protocol/protocol.py: data_received"]}
{"id": "C144", "title": "A command that fails in one callback does not disturb the other callbacks", "statement": "Callbacks answer events with calls on a second client inside one asyncio.Lock and catch nothing: a callback whose call is refused by the gateway makes no further call, releases the lock and ends with that one error; every other callback makes all of its calls, up to its own first refused one, in the order of the events. The errors are exactly the refused calls of callbacks, one per callback that comes to such a call. Under the conditions of C143 the calls are bounded and every schedule comes to a state in which nothing is left to be done. In all other respects these callbacks do what callbacks do that stop of themselves before the calls that would follow a refused one.", "quantifier": "every house, every registry and callback bodies, every history of other people's calls, every chunking and every schedule", "why_tests_cant": "which callbacks wait for the lock when another one fails depends on the schedule", "anchors": ["pyown/client/client.py: _dispatch_callbacks", "pyown/client/client.py: _check_task_result", "pyown/items/base.py: _create_tasks", "pyown/items/base.py: _check_ack", "pyown/items/base.py: _check_nack"]}
{"id": "C145", "title": "Callbacks may send commands without a lock (refuted in part)", "statement": "Callbacks answer events with calls, each on a command client of its own and without a lock: all calls make one history of the house; each callback makes the calls of its answer, all of them and in their order, and nobody else's; when nothing is left to be done, every event was read and every answer given. Under the conditions of C143 the calls are bounded and every schedule comes to a state in which nothing is left to be done. Refuted: that a lamp which follows another one is then as that one is; after on and off the follower may stay on, because the two callbacks made their calls in the other order. It is, whenever the callbacks made their calls in the order in which they were started.", "quantifier": "every house, every registry and callback bodies, every history of other people's calls, every chunking and every schedule", "why_tests_cant": "the outcome depends on which of two tasks gets to the gateway first", "anchors": ["pyown/client/client.py: loop", "pyown/client/client.py: _dispatch_callbacks", "pyown/items/base.py: _create_tasks"]}
{"id": "C146", "title": "Rules between lamps come to rest unless they run in circles (refuted in part)", "statement": "An application's callback obeys any list of rules \"that lamp follows this one\". If the lamps can be numbered such that every rule leads to smaller numbers, the number of commands the house gets is bounded by the number of commands other people gave times a constant of the house and the rules, and whatever the schedule one comes to a state in which nothing is left to be done; so too when callbacks stop at the first command that fails, and when they use no lock. With the lock, in any such state a lamp that follows one other lamp only, and that nobody else switches, is on or off as that one is, or nothing has happened to either, whatever the other rules are. Along a chain of such lamps, if anybody has given the first one a command, all are as the first one is. Refuted: the same for callbacks that stop at the first command that fails; a rule for a lamp that does not exist keeps another lamp from following. It holds for them if every rule is for a lamp that exists.", "quantifier": "every house, every list of rules and numbering, every number of registered callbacks, every history of other people's calls, every chunking and every schedule", "why_tests_cant": "the chains of commands and events get longer with every rule and interleave with one another", "anchors": ["pyown/client/client.py: loop", "pyown/client/client.py: _dispatch_callbacks", "pyown/items/base.py: _create_tasks", "pyown/items/base.py: send_normal_message"]}
{"id": "C147", "title": "Callbacks that send commands keep a right picture of the house", "statement": "Callbacks answer events with commands of their own, and an application keeps what each callback was last told about each point. At any moment, for every point, what the callback was told last is the state that the point had after some of the calls made so far, of the callbacks and of other people; when nothing is left to be done it is the state of the point, or nothing was ever told about the point and it is in the state it was in at first. This is so with the lock, when callbacks stop at the first command that fails, and without a lock, whatever the callbacks do. Under the conditions of C143 every schedule comes to such a state, in all three cases.", "quantifier": "every house, every registry and callback bodies, every history of other people's calls, every chunking and every schedule", "why_tests_cant": "the callbacks' own commands change the state while earlier events are still on their way", "anchors": ["pyown/client/client.py: loop", "pyown/client/client.py: _dispatch_callbacks", "pyown/items/base.py: _create_tasks", "pyown/client/client.py: get_item"]}
{"id": "C148", "title": "Several applications with callbacks that send commands share a house (refuted in part)", "statement": "Any number of applications run on one house, each with its own event client, callbacks and items; the callbacks answer events with calls of their own. All calls, of all applications and of other people, make one history of the house; every application reads its events in order, starts its own callbacks for each and each callback makes the calls of its own answer, in order and nobody else's. Every application's picture of the house is one of the past, and the right one when nothing is left to be done. If events have weights that are enough for the answers of all applications together, the calls are bounded and every schedule comes to a state in which nothing is left to be done and every application has the right picture; so it is for applications that know nothing of each other and obey rules between lamps, if the rules of all of them together do not run in circles. Refuted: that applications each of which would come to rest alone come to rest together; two applications that each make one lamp follow the other's never do after the first command, and their commands pass any number, whatever the schedule.", "quantifier": "every house, every number of applications with any registries and callback bodies, every history of other people's calls, every chunking per application and every schedule", "why_tests_cant": "the applications answer each other's commands, each in its own time", "anchors": ["pyown/client/client.py: loop", "pyown/client/client.py: _dispatch_callbacks", "pyown/items/base.py: _create_tasks", "pyown/client/client.py: get_item"]}
