# Formal model of pyogp.lib.base in Coq 8.16

The properties are in `properties.jsonl` (generated from `tools/proplist.py`);
which theorem proves which property is in `MANIFEST.json` (generated by
`tools/props.py --manifest`: the theorems `Cnn_*` of `rocq/theories/Prop_*.v`).

## Approach

* Shallow, executable Gallina model; one Coq definition per Python function,
  each carrying a comment with file and lines.  Python exceptions are values
  (`res A := Ok a | Err e`).  Mutable objects that are aliased in the program
  (Host, Message, MessageTemplate) live in explicit stores and are referred to
  by index; everything else is passed and returned.
* Bytes are `Coq.Init.Byte.byte`, Python byte strings are `list byte`;
  identifiers (message/block/variable names, template text) are `string`.
* Integers are unbounded `Z`; wrap-around exists only where `struct` does it
  and is written out.  `struct` has two regimes: `Py26` (integer overflow is
  masked with a DeprecationWarning) and `Py27` (struct.error).  The shipped
  template cannot be parsed under Py27 (template_parser.py:139), so Py26 is
  the regime the code was written for; both are modelled.
* Floats are `SpecFloat.spec_float` with binary64 arithmetic of the standard
  library (`SFadd 53 1024`, ...) - an executable specification, no axioms.
  NaN payloads are not modelled.
* Dictionaries are insertion-ordered association lists.  CPython 2 iterates
  dictionaries in an unspecified order; wherever the order is observable the
  operation takes the order as an argument (any permutation of the keys).
* External systems (HTTP, LLSD parser, sockets, the clock, subscribers' code)
  are oracles: arguments of the operations, universally quantified in the
  theorems.
* Properties are stated as the code satisfies them.  Where the code does not do
  what one would expect, the property is the exact characterisation of what it
  does (an "if and only if", or the negative statement with a witness): these
  are the findings listed below.

## Layers

| file | models |
|---|---|
| `Prelude.v` | result type, exceptions, Python slicing, dictionaries |
| `PyStruct.v`, `PyFloat.v`, `Values.v` | `struct.pack/unpack` for the formats used, Python values |
| `MsgTypes.v`, `Packer.v`, `Datatypes.v` | msgtypes.py, data_packer.py, data_unpacker.py, datatypes.py |
| `Template.v`, `PyRegex.v`, `TemplateParser.v`, `TemplateDict.v` | template.py, message.py, template_parser.py, template_dict.py |
| `TemplateFile.v` (generated by `tools/gen_template.py`) | the text of message_template.msg |
| `ShippedTemplates.v` (generated by `tools/gen_shipped.py`) | the templates in it; *proved* equal to what the modelled parser returns for that text |
| `MessageXml.v`, `MessageXmlFile.v` (generated by `tools/gen_xml.py`) | message_dot_xml.py and the table in message.xml |
| `Serializer.v`, `Deserializer.v` | udpserializer.py, udpdeserializer.py |
| `Circuit.v`, `Dispatcher.v`, `Manager.v` | circuit.py, udpdispatcher.py and the sending side of net.py, message_manager.py and the receiving side of net.py |
| `Greenlets.v` | udpdispatcher.py again, cut at the points where other greenlets or subscribers may use it |
| `LiveManager.v` | the UDP side of message_manager.py over the dispatcher of `Greenlets.v` |
| `LiveQueue.v` | event_queue.py with the delivery of a response cut at every call of a subscriber |
| `Whole.v` | message_manager.py: the UDP side and the event queue of one manager together |
| `Monitors.v` | message_manager.py and event_queue.py with any number of starts and stops, several coroutines of each kind |
| `Logging.v` | udpdispatcher.py, udpdeserializer.py, udpserializer.py, message_handler.py and events.py again, with what they log |
| `WebLogging.v` | caps.py and event_queue.py again, with what they log and what formatting it can raise |
| `Identity.v` | UUID, Vector3 and Quaternion objects as objects: ==, !=, hash(), dictionaries, lists, copies |
| `Events.v`, `EventsLive.v` | events.py, message_handler.py (the latter: subscribers that use the handler while they are called) |
| `Llsd.v`, `EventQueue.v`, `Caps.v` | event_queue.py, caps.py, LLSDDeserializer |
| `Helpers.v`, `Builder.v`, `Settings.v` | helpers.py, llsd_builder.py, settings.py |
| `FloatText.v` | the built-ins float(text) and str(float) that datatypes.py and template_parser.py rely on |
| `Objects.v` | the classes Vector3 and Quaternion, base64 and uuencoding (datatypes.py, helpers.py) |
| `Waiting.v` | Wait (helpers.py), the watcher of EventQueueClient.stop, StdLibClient (network/stdlib_client.py) |
| `Printing.v` | Message.data, str(), repr() and "%s" of a message, with Python 2's mixing of str and unicode |
| `Describe.v` | the describing methods of template.py, msgtypes.py, template_parser.py, template_dict.py; factory.py |
| `Listing.v` | the listing printed by template_parser.py when run as a program |
| `Exceptions.v` | exc.py |
| `Wiring.v` | how templates and tables reach serializer and deserializer (constructors) |
| `Spec*.v` | independent specifications: the words the theorems are stated in |
| `*Proofs.v`, `DispatchMore.v`, `Packet*.v`, `Float*.v`, `TemplateCheck.v`, `Lib.v` | lemmas |
| `Samples.v` | concrete data for the non-vacuity examples |
| `Prop_*.v` | the property theorems, each followed by `Print Assumptions`, and the examples showing that their hypotheses are met |

## Trusted base

* Coq 8.16.1's kernel (with `vm_compute`), the `coqc` build, and the reading of
  the statements in `Prop_*.v` and `Spec*.v`.
* The faithfulness of the model to the Python source: the correspondence is by
  reading only (the code cannot be run here).  Each definition cites its lines.
* The generated files `TemplateFile.v` and `MessageXmlFile.v` are transcriptions
  of data files made by the scripts in `tools/`.
* Axioms.  No axiom is added.  `tools/assumptions.sh` prints what
  `Print Assumptions` lists for every property theorem:
  - C02_f64_roundtrip, C96_one_text, C96_numeral, C64_distance_zero_not_equal, C68_fraction_dropped,
    C68_under_one_second, C76_whole_numbers, C76_every_finite_float_is_whole:
    `ClassicalDedekindReals.sig_forall_dec`,
    `FunctionalExtensionality.functional_extensionality_dep`;
  - C02_f32_rounds, C02_f32_pattern, C04_quat_read, C07_round_trip,
    C07_all_empty, C07_shipped, C26_decodes, C62_delivered, C98_nothing_but_copies, C98_acks_seen, C103_nothing_but_copies,
    C103_subscribers, C103_acks_seen, C103_delivered, C103_fate, C104_end_to_end, C104_acks_seen, C104_delivered, C104_fate, C105_delivered, C105_called, C107_only_subscribers, C107_none_die, C107_settled, C63_ack_of_ack,
    C63_volley, C64_coordinates, C64_quaternion_coordinates, C64_bytes_roundtrip,
    C64_distance_nonneg, C64_distance_value, C64_distance_monotone, C68_ends, C68_still_waiting,
    C68_never_early, C76_ints_in_float_fields, C77_sent_truncated, the C67
    theorems and those of C95 and C96 but the two above and the ones about errors: these two, `ClassicalDedekindReals.sig_not_dec` and
    `Classical_Prop.classic`;
  - every other theorem is "Closed under the global context".
  All four are axioms of the standard library's real numbers (they come in
  through `Coq.Reals` and Flocq's theorems about rounding).

## What is modelled and what is not

Everything the properties talk about is modelled, function by function.  Not
modelled, or simplified:

* A stdlib `uuid.UUID` in an integer field, the class of the exception for
  non-numbers and floats beyond the range of an integer field under Python 2.6
  (comment of `as_pyint` in `Values.v`).
* Logging elsewhere than in C83-C88 (where lines are modelled by their parts, not
  their texts, and tracebacks left out), display strings and `__repr__` unless a
  property is about them.  A POST of the event queue is assumed to fail only with
  exceptions that can be printed (`post_outcome` in `EventQueue.v`).
  Elsewhere than in C75 exceptions are their classes, without their texts; in
  C75 unicode objects and objects whose str() raises are left out.
* `factory.py` is modelled as far as it can run: the names `MsgData`,
  `MsgBlockData`, `MsgBlockType`, ... are not imported, so nothing behind them
  is ever reached (C72).
* Printing a message (C73): names are byte strings; str() of a value that is no
  text is an oracle; when the dispatcher logs a message "name" is taken to come
  before "blocks" in its attributes, as in CPython without -R.
* The clock of `Wait` (C68): any sequence of doubles that stays between the
  start and twice the start.
* `net.py` socket creation and options; `monitor_outgoing_queue` (empty).
* The file object in `main` of `template_parser.py` (its contents are an argument of the model).
* Scheduling: coroutines switch only where the code sleeps or does I/O; the
  manager loop is cut at its suspension points.  In C21-C32 an operation of the
  dispatcher is one step; in C79 and C80 it is cut at every call of a subscriber
  and of `sendto` (`Greenlets.v`; removing a circuit while a `process_acks` is
  under way is left out: nothing in the library does it).  The manager of C45, C46,
  C81 and C82 makes its calls of the dispatcher in one step; that of C91 and C92
  (`LiveManager.v`) is cut wherever the dispatcher of C79 and C80 is.  The event
  queue of C38-C41 and C82 delivers a response in one step; that of C93 and C94
  (`LiveQueue.v`) is cut at every call of a subscriber (nothing being registered
  under a name that is no text).  C100 (`Whole.v`) puts both together.
* `uuid.UUID` of a unicode text (C50 is about byte strings, in the C locale); the
  message number of the template parser: see the comments of `uuid_parse` and
  `TemplateParser.v`.
* `float(text)` and `str(float)` (C95, C96): an exponent of more than four digits
  is not clipped, a NaN has no sign, the C locale is assumed, unicode digits are
  left out (comment of `FloatText.v`).
* `llsd.parse`, `llsd.format_xml`, `urllib2`: oracles.

## Findings (defects of the code that the theorems pin down)

* C08: Fixed and IPADDR fields are written one byte too long.
* C77: a packet cut inside a field is dropped with a warning, cut
  at a repeat count it raises MessageDeserializationError.
* C76: a tuple of the wrong length in a vector field is written as it is, so
  the rest of the packet is shifted.
* C18/C19: block counts are written modulo 256 (Py26) or fail (Py27); a message
  with more or fewer blocks than the template says is written as it is.
* C103: a packet prepared while acks are pending for its address announces appended acks that
  it does not contain; the receiver reads them from the packet's own last bytes.  The message is
  still read as it was sent, but packets nobody received may count as acknowledged; if these acks
  would reach into the message's number, receive_check raises and the packet is lost.
* C104: MessageManager._udp_dispatcher catches nothing, so such a well-formed packet of a peer
  (or any datagram for which receive_check raises) ends the coroutine: the manager hears, acknowledges and sends nothing any more.
* C22-C24, C28: outgoing acks are counted but never written, reliable packets
  are never resent: `unacked_circuits` is never filled; `send_retry` always
  raises AttributeError.
* C29: circuits share the receiver's Host object, so acks may go to the wrong
  address once Host objects change.
* C31: duplicates are delivered again.
* C37: unsubscribing somebody who is not subscribed raises NameError instead of the
  warning intended.
* C53: the shipped template does not parse under Python 2.7.
* C56: a dispatcher with a custom template cannot send anything.
* C57: a custom message.xml is ignored.
* C59: a trusted circuit drops everything.
* C80: an ack that comes due while the last PacketAck of a flush is being sent
  is lost; overlapping calls of `process_acks` acknowledge packets twice.
* C81: stop_monitors followed by start_monitors leaves the old UDP coroutine
  running beside the new one.  C82: stop_monitors called before the event queue
  coroutine has begun does not stop it; an event queue that was stopped is never
  polled again, though start_monitors spawns a coroutine for it.
* C84: "Sent packet" is logged before sending, so also for datagrams the socket
  refuses and (unless hex logging is on) for messages message.xml keeps from being
  sent; with DISABLE_SPAMMERS the handler's "Handling message" line is suppressed
  for every message, not just the spammers; PROXY_LOGGING silences received and
  skipped lines but not sent ones; a message dropped because its circuit is trusted
  leaves no line.
* C85: with a unicode URL, logging LLSD documents turns an answer (or a payload)
  that is not ASCII into a UnicodeDecodeError - for an answer, after the request.
  C86: by default every payload posted is in the log; capabilities from a seed
  ignore the seed's settings.
* C87: an event queue client given its host as an (ip, port) tuple delivers
  nothing; depending on the settings it acknowledges, and so loses, the events.
* C50: texts such as 31 blanks and a digit, or 0x and 30 digits, or 31 digits and
  L, make a UUID.
* C89: two UUID objects of the same value are both == and != and never find each
  other as dictionary keys; Vector3 and Quaternion objects are equal only to
  themselves, so that even a copy is not equal to its original.
* C96: a vector printed and parsed keeps twelve digits of each coordinate; printing
  it again gives the same text, for every double but +-202402253308 * 2^-1074.
* C97: a template file may have any word for trust, encoding, deprecation, block type
  or variable type: the parser takes it and leaves the attribute out; a size that is
  not positive is reported by a NameError.
* C60, C63: between two pyogp managers nothing is ever acknowledged, while
  PacketAcks are answered with PacketAcks for ever.
* C92: a manager started again before its earlier coroutine has noticed the stop may
  acknowledge a packet twice, or drop an acknowledgement that comes due meanwhile.
* C94: with two coroutines (start_monitors called twice) a response is acknowledged
  while the other coroutine is still delivering it; C93: a subscriber that unsubscribes
  itself makes the next one miss the message.
* C90: on Python 2.7 a circuit that has numbered 2^31 - 1 packets can send nothing
  more, silently; on older versions the numbers wrap while the ids waited for do
  not, so from 2^32 on no reliable packet can be acknowledged.

## Plan per property

* C01-C05: codec lemmas by positional-value induction on byte lists; float
  rounding through Flocq's correctness theorems for `binary_round`.
* C06: specification `wire_*` functions written without the serializer's
  helpers; equality proved by induction over blocks and variables.
* C07, C09: decoder refines a declarative grammar relation (`Parses`): wire
  layout -> decode (completeness), decode -> wire layout (soundness).
* C08, C18, C19, C20, C28: exact characterisation plus concrete witness.
* C10: case analysis over all byte lists; exceptions classified.
* C11, C12, C15: induction over byte lists / finite header cases.
* C13, C14: two-run theorems on `deserialize`.
* C16, C17: equational theorems on `serialize` / `deserialize`.
* C21-C32: `step : state -> op -> state * out`; invariants by induction over
  `list op`, refinement to ghost history functions of the log.
* C33-C37: index-driven notify loop with handlers as action lists;
  refinement of the handler registry to a map.
* C38-C41: polling loop as fold over poll outcomes.
* C42-C44: decision logic with the REST client / LLSD parser as oracles.
* C45, C46: manager loop on top of the dispatcher model.
* C47-C49: folds over construction sequences.
* C50-C52: arithmetic on 128-bit values; hex codecs by byte sweeps.
* C53: parser run on the shipped text by `vm_compute`, lifted with `forallb`.
* C54: pretty-printer/parser round trip by induction, via lemmas on the
  backtracking regular-expression matcher.
* C55: fold over template lists. C56, C57: constructor wiring. C58: cases.
* C60, C61, C63: a network of managers as a transition system with an
  adversarial wire; invariants over all its runs. C62: composition of C07, C45,
  C25 and C33.
* C64, C67: sign symmetry of `binary_round`, monotonicity of rounding, Flocq's
  correctness theorems for each operation. C65: splitting and trimming lemmas,
  for any `float()` (C95 is about the real one). C66: groups of three bytes by induction,
  against a positional-numeral specification of the whole text.
* C68: run of the loop as a fold over its passes, Flocq's exact subtraction
  (Sterbenz) for the clock. C69: loop and watcher over the shared flag. C70:
  C42/C43 instantiated with the urllib2 client.
* C71: cases; injectivity of hexadecimal spelling, sorting. C72: induction over
  histories. C73: the printer refines a declarative line-by-line form.
* C74: counting lemmas for every operation, induction over histories of the
  dispatcher and of the manager. C75: cases over the classes; Python's binding
  of arguments refined to a declarative description of well formed calls.
* C76: cases over types and values; truncation and int-to-float through Flocq.
* C78: the loop over the live list, by induction on fuel; what operations do to
  the list walked.
* C77: each decoding loop succeeds, stops or raises exactly where the
  specification says (induction over fields, instances and blocks); prefixes by
  uniqueness of reading.
* C79, C80: a small-step model of the dispatcher over schedules ("start an
  operation", "let the i-th go on"); the invariants of C21 and C22 hold after
  every small step; books of acknowledgements kept along the schedule; the
  uninterleaved schedules simulate the steps of C21-C32; each flush, among any
  others, follows the list it began with (invariant of one coroutine,
  `GreenletFlush.v`).
* C81, C82: the coroutines' steps are those of C45/C46 and C38-C40, taken in any
  order on shared state; invariants per coroutine, ghost state of C45 for the
  shared queue, decreasing measures after a stop, simulation of `eq_start` by a
  coroutine that runs alone.
* C83, C84: the instrumented dispatcher refines the plain one; two runs under
  different settings are related step by step; every trace is cut into segments
  (a line, a call, an announced datagram, ...) whose shape gives C84; the reason
  line follows the decoding loops of C77.
* C85, C86: Python 2 formatting modelled argument by argument, shown to fail
  exactly on mixed texts; the instrumented calls are cut at each log statement
  and compared with those of C42 and C43.
* C87, C88: the instrumented loop simulates `eq_loop` if the host can be
  formatted, and otherwise goes through the same states (a failed poll changes
  nothing in a reachable state) without delivering; the trace is built along the
  outcomes.
* C89: cases; a dictionary keyed by identity by induction over histories of
  creating, copying, changing and storing.
* C90: the numbering of C20 and the layout of C15 give which packets have a
  number that can be written; the length of the history does not matter, and
  `C90_reached` shows by induction that circuits get there.
* C91, C92: the coroutines of C81 start operations of the small-step dispatcher of
  C79 and C80 and wait for them; what they do is translated into one schedule of that
  dispatcher, so its invariants carry over; the queue by the ghost state of C45; with
  one coroutine at a time the calls of `process_acks` do not overlap, which is the
  hypothesis of C80; C45's manager is simulated by running each call to its end.
* C93, C94: `LiveQueue.v` cuts the delivery at each call; an invariant keeps, for each
  coroutine in the middle of a response, which messages have been handed over to whom
  since it was decoded, against the history of subscriptions; a second one ties the
  queue's last id to the answers heard; the uninterrupted queue of C82 is simulated by
  running a coroutine until it stops calling subscribers. `LiveQueueRunning.v`: with
  one coroutine at a time the running flag speaks of the last coroutine that began.
* C95, C96: `float()` and `str()` of a double as functions on bytes (`FloatText.v`); a
  grammar of numerals with their real values (`SpecFloatText.v`); reading is correct by
  Flocq's `binary_round` and division; printing by the decimal rounding `FLX` of twelve
  digits; reading back by comparing the spacing of doubles and of twelve-digit decimals,
  the subnormal range by a finite computation over the decimal exponents.
* C97: the matcher's captures are words and figures whatever the line (inversion of the
  backtracking matcher); an invariant over the parser's state, line by line; growth of
  the templates as a preorder; a final newline by a simulation of the matcher on texts
  with and without it.
* C98: an invariant over the runs of the network of C60: every datagram around and every id
  waiting to be acknowledged comes from a packet in the log, every call from a datagram put
  out earlier; what is read from it by composition with C07 and C26.
* C99: printing as a function to bytes and an exception; the listing as a relation between
  templates and lines; faithfulness by cutting the text at blanks, tabs and newlines (the names
  read by the parser are words, C97).
* C100: the two models of C91 and C93 run side by side with one registry; each side is shown to
  be a run of its own model (so its theorems apply) and to be independent of the other's steps;
  who is called by an invariant over the dispatcher's threads (a thread that delivers keeps the
  name of its message). Prop_WholeAsked.v: what is asked of the manager is asked of both sides.
* C101, C102: `SpecHanding.v` says, for one operation of the small-step dispatcher of C79, at
  which moments it goes on and what it does itself; `handing` is the specification of a walk over
  a list that may change between two moments; by induction over the schedule the operation's
  thread follows it (no other operation touches it; objects do not disappear).
* C103: C98 again for several small-step dispatchers of C79, whose operations overlap. A datagram
  whose header announces acks is read back by showing that what the deserializer takes away as
  acks it puts back behind the message; the rest is the invariant of C98 over the log.
* C104: a network of the whole managers of C100. Every step of a manager is a run of steps of its
  dispatcher, so a network of managers is one of dispatchers (C103), and each manager's part of the
  log is the life of one manager (C100); the conditions of C103 on what is sent are derived from an
  invariant over the log: Message objects keep the name and blocks they were made with, whatever is
  put out is the PacketAck just packed or the Message just popped, and that was enqueued before.
* C105: C104's datagrams that announce acks come from managers with two coroutines only. Invariant over
  the steps of a manager: every circuit with numbers to acknowledge is still ahead of the coroutine
  inside process_acks; so none has any when that coroutine comes to the outgoing queue, nor until
  it next calls receive_check. TidyProofs (a step of the dispatcher), TidyMore (coroutines), TidyFinal.
* C106: every operation under way is tied to the operation that was started and to what it may still
  fail with; an invariant over the schedule (`EndProofs.v`), the contents of the PacketAcks being sent
  kept by the invariant on Message objects of C104; for the manager by C91. The converse for a coroutine (`LiveDies.v`) by the
  invariant of C91 that ties its place to its last call.
* C107: C106 on the networks of C105. That a datagram put out announces no acks is C105, that it
  conforms C104; so it can be read by the round trip of C07 (`MeshEnds.v`). Messages keep name and blocks,
  on which alone printing depends; what is in the outgoing queue exists (`MeshEndsMore.v`).

## Index of properties

For each property: the files with its theorems, the files with the specifications and model
definitions that their statements mention, and the files of lemmas. (Generated by
`tools/index.py`; the approach to each is in the list above.)

* C01 (Integer fields: exact bytes and round trip): theorems in Prop_Codec; specification SpecCodec; model Packer, Prelude; lemmas CodecProofs, FieldProofs, FloatField.
* C02 (Float fields: F64 exact, F32 rounds to nearest, no silent infinities): theorems in Prop_Codec; specification SpecCodec, SpecFloats; model MsgTypes, Packer, Prelude, PyFloat; lemmas CodecProofs, FieldProofs, FloatField.
* C03 (UUID fields are carried verbatim): theorems in Prop_Codec; specification SpecCodec; model Packer, Prelude; lemmas CodecProofs, FieldProofs, FloatField.
* C04 (Quaternion fields drop W and canonicalise the sign): theorems in Prop_Codec; specification SpecFloats; model Packer, Prelude, PyFloat; lemmas CodecProofs, FieldProofs, FloatField.
* C05 (Variable-length strings: one NUL appended, trailing NULs stripped): theorems in Prop_Codec; specification SpecCodec; model Deserializer, Prelude, Serializer, Template; lemmas CodecProofs, FieldProofs, FloatField.
* C06 (Serialized packet layout): theorems in Prop_Packet; specification SpecLayout; model Serializer, Template, TemplateDict; lemmas LayoutProofs, PacketProofs, PacketMore, PacketForms, PacketRules, HeaderProofs.
* C07 (Serialize/deserialize round trip): theorems in Prop_RoundTrip; specification SpecLayout, SpecRoundTrip, SpecTemplate; model Deserializer, Serializer, TemplateDict, TemplateFile, TemplateParser; lemmas CodecProofs, FloatProofs, FloatRound, FloatField, ObjectProofs, RoundTripProofs, PacketMore, PacketRules, DispatchProofs, DispatchMore.
* C08 (Fixed and IPADDR fields are emitted one byte too long): theorems in Prop_Codec; specification SpecCodec; model Deserializer, Prelude, Serializer, Template; lemmas CodecProofs, FieldProofs, FloatField.
* C09 (Decoder soundness: a decoded message is exactly what the bytes say): theorems in Prop_Packet; specification SpecLayout; model Deserializer, Prelude, Template, TemplateDict; lemmas LayoutProofs, PacketProofs, PacketMore, PacketForms, PacketRules, HeaderProofs.
* C10 (What a malformed datagram can do): theorems in Prop_Dispatch, Prop_Packet; specification SpecDispatch, SpecLayout; model Deserializer, Dispatcher, Prelude, TemplateDict; lemmas MessageProofs, LayoutProofs, PacketMore, PacketRules, DispatchProofs, DispatchMore, PacketProofs, PacketForms, HeaderProofs.
* C11 (Message numbers identify messages): theorems in Prop_Packet, Prop_Wire; specification SpecWire; model Deserializer, Prelude, Serializer, TemplateDict; lemmas LayoutProofs, PacketProofs, PacketMore, PacketForms, PacketRules, HeaderProofs, ZeroProofs.
* C12 (Zero-code expansion inverts zero-run coding): theorems in Prop_Wire; specification SpecWire; model Deserializer; lemmas HeaderProofs, ZeroProofs.
* C13 (Zero-coded packets decode like plain ones): theorems in Prop_Packet; specification SpecCodec, SpecLayout, SpecWire; model Deserializer, Prelude, TemplateDict; lemmas LayoutProofs, PacketProofs, PacketMore, PacketForms, PacketRules, HeaderProofs.
* C14 (Appended acks are split off and reported): theorems in Prop_Packet; specification SpecCodec, SpecLayout; model Deserializer, Prelude, TemplateDict; lemmas LayoutProofs, PacketProofs, PacketMore, PacketForms, PacketRules, HeaderProofs.
* C15 (Expansion is bounded): theorems in Prop_Wire; model Deserializer, Prelude; lemmas HeaderProofs, ZeroProofs.
* C16 (Messages banned from UDP neither leave nor enter over UDP): theorems in Prop_Packet; specification SpecLayout; model Deserializer, Prelude, Serializer, TemplateDict; lemmas LayoutProofs, PacketProofs, PacketMore, PacketForms, PacketRules, HeaderProofs.
* C17 (Deferred parsing skips exactly the unregistered messages): theorems in Prop_Dispatch, Prop_Packet; specification SpecLayout; model Deserializer, Dispatcher, Events, Prelude; lemmas MessageProofs, LayoutProofs, PacketMore, PacketRules, DispatchProofs, DispatchMore, PacketProofs, PacketForms, HeaderProofs.
* C18 (Repeat-count overflow): theorems in Prop_Packet; specification SpecCodec, SpecLayout; model Deserializer, Prelude, Serializer, Template, TemplateDict; lemmas LayoutProofs, PacketProofs, PacketMore, PacketForms, PacketRules, HeaderProofs.
* C19 (Block counts against the template): theorems in Prop_Packet; specification SpecLayout; model Deserializer, Prelude, Serializer, Template, TemplateDict; lemmas LayoutProofs, PacketProofs, PacketMore, PacketForms, PacketRules, HeaderProofs.
* C20 (Extra header bytes): theorems in Prop_Packet; specification SpecCodec, SpecLayout, SpecWire; model Deserializer, Prelude, TemplateDict; lemmas LayoutProofs, PacketProofs, PacketMore, PacketForms, PacketRules, HeaderProofs.
* C21 (Sequence numbers per circuit): theorems in Prop_Dispatch; specification SpecDispatch, SpecLayout; model Dispatcher; lemmas MessageProofs, LayoutProofs, PacketMore, PacketRules, DispatchProofs, DispatchMore.
* C22 (The outstanding set is exactly the unacknowledged reliable sends): theorems in Prop_Dispatch; specification SpecDispatch; model Dispatcher; lemmas MessageProofs, LayoutProofs, PacketMore, PacketRules, DispatchProofs, DispatchMore.
* C23 (The outstanding counter never drifts): theorems in Prop_Dispatch; specification SpecDispatch; model Circuit, Prelude; lemmas MessageProofs, LayoutProofs, PacketMore, PacketRules, DispatchProofs, DispatchMore.
* C24 (Reliable packets are never retransmitted): theorems in Prop_Dispatch; specification SpecCodec, SpecDispatch; model Dispatcher; lemmas MessageProofs, LayoutProofs, PacketMore, PacketRules, DispatchProofs, DispatchMore.
* C25 (Which received packets get acknowledged): theorems in Prop_Dispatch; specification SpecDispatch; model Deserializer, Dispatcher, Events; lemmas MessageProofs, LayoutProofs, PacketMore, PacketRules, DispatchProofs, DispatchMore.
* C26 (process_acks flushes the ack queue once, in order, in packets of at most 251 ids): theorems in Prop_Dispatch, Prop_RoundTrip; specification SpecCodec, SpecDispatch, SpecLayout, SpecRoundTrip, SpecTemplate; model Deserializer, Dispatcher, Prelude, Serializer, Template, TemplateDict; lemmas MessageProofs, LayoutProofs, PacketMore, PacketRules, DispatchProofs, DispatchMore, CodecProofs, FloatProofs, FloatRound, FloatField, ObjectProofs, RoundTripProofs.
* C27 (has_unacked tells whether acks are pending): theorems in Prop_Dispatch; specification SpecCodec, SpecDispatch; model Dispatcher; lemmas MessageProofs, LayoutProofs, PacketMore, PacketRules, DispatchProofs, DispatchMore.
* C28 (Piggy-backed acks are announced but never written): theorems in Prop_Dispatch; specification SpecCodec, SpecDispatch, SpecLayout; model Circuit, Deserializer, Dispatcher, Prelude, Serializer, TemplateDict; lemmas MessageProofs, LayoutProofs, PacketMore, PacketRules, DispatchProofs, DispatchMore.
* C29 (Acks can go to the wrong host): theorems in Prop_Dispatch; specification SpecCodec, SpecDispatch; model Circuit, Dispatcher; lemmas MessageProofs, LayoutProofs, PacketMore, PacketRules, DispatchProofs, DispatchMore.
* C30 (A failing send is contained but not rolled back): theorems in Prop_Dispatch; specification SpecDispatch, SpecMessages; model Circuit, Dispatcher, Events, Prelude, Serializer, Template; lemmas MessageProofs, LayoutProofs, PacketMore, PacketRules, DispatchProofs, DispatchMore.
* C31 (No duplicate suppression): theorems in Prop_Dispatch; specification SpecDispatch; model Deserializer, Dispatcher, Events; lemmas MessageProofs, LayoutProofs, PacketMore, PacketRules, DispatchProofs, DispatchMore.
* C32 (Circuits are isolated and created once): theorems in Prop_Dispatch; specification SpecDispatch; model Circuit, Dispatcher; lemmas MessageProofs, LayoutProofs, PacketMore, PacketRules, DispatchProofs, DispatchMore.
* C33 (Event notification order): theorems in Prop_Events; specification SpecEvents; model Events; lemmas EventsProofs.
* C34 (A raising subscriber stops delivery; MessageHandler hides KeyErrors): theorems in Prop_Events; specification SpecEvents; model Events; lemmas EventsProofs.
* C35 (Unsubscribe removes exactly one matching subscription): theorems in Prop_Events; model Events; lemmas EventsProofs.
* C36 (Unsubscribing during a notification skips the next subscriber): theorems in Prop_Events; specification SpecEvents; model Events; lemmas EventsProofs.
* C37 (Message handler registry): theorems in Prop_Events; specification SpecEvents; model Events, Prelude; lemmas EventsProofs.
* C38 (Event queue acknowledgement protocol): theorems in Prop_Web; specification SpecWeb; model EventQueue, Llsd; lemmas WebProofs.
* C39 (Event queue delivery, and redelivery after a failed poll): theorems in Prop_Web; specification SpecWeb; model EventQueue; lemmas WebProofs.
* C40 (Stopping the event queue): theorems in Prop_Web; specification SpecWeb; model EventQueue, Llsd; lemmas WebProofs.
* C41 (Event queue responses become messages faithfully): theorems in Prop_Web; specification SpecWeb; model EventQueue, Prelude; lemmas WebProofs.
* C42 (Capability calls map HTTP outcomes to results and exceptions): theorems in Prop_Web; specification SpecWeb; model Caps, Llsd; lemmas WebProofs.
* C43 (Seed capability returns every requested capability or fails): theorems in Prop_Web; model Caps, Prelude; lemmas WebProofs.
* C44 (LLSD deserialization rejects values equal to False): theorems in Prop_Web; model Caps, Llsd; lemmas WebProofs.
* C45 (Outgoing queue order): theorems in Prop_Manager; specification SpecCodec, SpecDispatch, SpecManager; model Dispatcher, Manager; lemmas DispatchProofs, DispatchMore, ManagerProofs.
* C46 (Manager loop and shutdown): theorems in Prop_Manager; specification SpecCodec, SpecDispatch, SpecManager; model Deserializer, Dispatcher, EventQueue, Events, Manager; lemmas DispatchProofs, DispatchMore, ManagerProofs.
* C47 (Message construction and access): theorems in Prop_Messages; specification SpecMessages; model Prelude, Template; lemmas MessageProofs.
* C48 (LLSD builder): theorems in Prop_Messages; specification SpecMessages; model Builder; lemmas MessageProofs.
* C49 (to_dict keeps only the last block of each name): theorems in Prop_Messages; specification SpecMessages; model Prelude, Template; lemmas MessageProofs.
* C50 (UUID algebra and text form): theorems in Prop_Text; specification SpecCodec, SpecText; model Datatypes, Prelude; lemmas TextProofs.
* C51 (int_to_bytes is little-endian modulo 2^32): theorems in Prop_Text; specification SpecCodec; model Helpers, Packer, Prelude; lemmas TextProofs.
* C52 (Hex formatting): theorems in Prop_Text; specification SpecText; model Helpers, Prelude; lemmas TextProofs.
* C53 (The shipped message template is unambiguous and codable): theorems in Prop_Template; specification SpecTemplate, SpecWire; model Deserializer, Prelude, ShippedTemplates, TemplateDict, TemplateFile, TemplateParser; lemmas TemplateCheck, HeaderProofs.
* C54 (Template text round trip): theorems in Prop_TemplateText; specification SpecTemplateText; model TemplateParser; lemmas TemplateTextProofs.
* C55 (Template dictionary lookups): theorems in Prop_Wire; specification SpecWire; model TemplateDict; lemmas HeaderProofs, ZeroProofs.
* C56 (Custom message templates break sending): theorems in Prop_Wiring; specification SpecDispatch; model Circuit, Dispatcher, ShippedTemplates, TemplateDict, TemplateFile, TemplateParser, Wiring; lemmas DispatchProofs, DispatchMore.
* C57 (Custom message.xml is ignored): theorems in Prop_Wiring; model Dispatcher, MessageXmlFile, Wiring; lemmas DispatchProofs, DispatchMore.
* C58 (Settings precedence): theorems in Prop_Text; model Settings; lemmas TextProofs.
* C59 (A trusted circuit delivers nothing): theorems in Prop_Dispatch; specification SpecDispatch; model Deserializer, Dispatcher; lemmas MessageProofs, LayoutProofs, PacketMore, PacketRules, DispatchProofs, DispatchMore.
* C60 (Between two pyogp managers nothing is ever acknowledged): theorems in Prop_Network; specification SpecNetwork; lemmas PacketRules, DispatchProofs, DispatchMore, ManagerProofs, NetworkProofs, StormProofs, DeliveryProofs, RoundTripProofs.
* C61 (One datagram, one PacketAck, to its source): theorems in Prop_Network; specification SpecCodec, SpecNetwork; model Manager; lemmas PacketRules, DispatchProofs, DispatchMore, ManagerProofs, NetworkProofs, StormProofs, DeliveryProofs, RoundTripProofs.
* C62 (End-to-end delivery): theorems in Prop_Network; specification SpecCodec, SpecDispatch, SpecLayout, SpecManager, SpecRoundTrip, SpecTemplate; model Events, Manager, TemplateDict; lemmas PacketRules, DispatchProofs, DispatchMore, ManagerProofs, NetworkProofs, StormProofs, DeliveryProofs, RoundTripProofs.
* C63 (Acks of acks): theorems in Prop_Network; specification SpecCodec, SpecDispatch, SpecLayout, SpecNetwork, SpecTemplate; model Circuit, Events, Manager, Prelude, TemplateDict; lemmas PacketRules, DispatchProofs, DispatchMore, ManagerProofs, NetworkProofs, StormProofs, DeliveryProofs, RoundTripProofs.
* C64 (Vector3 and Quaternion objects): theorems in Prop_Objects; specification SpecFloats, SpecObjects; model Datatypes, Objects, Prelude; lemmas FloatRound, FloatField, ObjectTextProofs, ObjectProofs.
* C65 (Vector3.parse): theorems in Prop_Objects; specification SpecObjects; model Objects; lemmas FloatRound, FloatField, ObjectTextProofs, ObjectProofs.
* C66 (base64 and uuencoded text): theorems in Prop_Objects; specification SpecObjects; model Objects, Prelude; lemmas FloatRound, FloatField, ObjectTextProofs, ObjectProofs.
* C67 (Packed floats): theorems in Prop_Objects; specification SpecFloats, SpecObjects; model Prelude, PyFloat; lemmas FloatRound, FloatField, ObjectTextProofs, ObjectProofs.
* C68 (Wait): theorems in Prop_Waiting; specification SpecFloats, SpecWaiting; model PyFloat, Waiting; lemmas WebProofs, WaitingProofs.
* C69 (What stop() of an event queue reports): theorems in Prop_Waiting; specification SpecWeb; model EventQueue, Llsd, Waiting; lemmas WebProofs, WaitingProofs.
* C70 (Capabilities over the default HTTP client): theorems in Prop_Waiting; specification SpecObjects, SpecWaiting, SpecWeb; model Caps, Llsd, Prelude, Waiting; lemmas WebProofs, WaitingProofs.
* C71 (What templates say about themselves): theorems in Prop_Describe; specification SpecDescribe, SpecTemplateText, SpecWire; model Describe, Prelude, TemplateDict, TemplateFile, TemplateParser; lemmas DescribeProofs, HeaderProofs.
* C72 (MessageFactory builds nothing): theorems in Prop_Describe; model Describe; lemmas DescribeProofs, HeaderProofs.
* C73 (The printed form of a message): theorems in Prop_Describe; specification SpecDescribe; model Printing, Values; lemmas DescribeProofs, HeaderProofs.
* C74 (The traffic counters): theorems in Prop_Traffic; specification SpecTraffic; model Dispatcher, Manager, Prelude, Serializer; lemmas TrafficProofs.
* C75 (The library's exceptions): theorems in Prop_Exceptions; specification SpecExceptions, SpecLayout; model Deserializer, Exceptions; lemmas ExceptionProofs.
* C76 (Values of every kind in every kind of field): theorems in Prop_Values; specification SpecCodec, SpecFloats, SpecValues; model MsgTypes, Packer, Prelude; lemmas ValueProofs.
* C77 (Dropped, rejected or decoded): theorems in Prop_Cut; specification SpecCut, SpecLayout, SpecRoundTrip, SpecTemplate; model Deserializer, Prelude, Serializer, TemplateDict; lemmas PacketProofs, PacketMore, PacketRules, CutProofs.
* C78 (Subscribers that use the message handler while a message is handled): theorems in Prop_Live; specification SpecLive; model Events; lemmas LiveProofs.
* C79 (A dispatcher in the middle of other operations): theorems in Prop_Greenlets; specification SpecDispatch, SpecGreenlets, SpecLayout; model Dispatcher, Greenlets; lemmas MessageProofs, LayoutProofs, DispatchProofs, GreenletProofs, GreenletAcks, GreenletMore, GreenletSeq, GreenletFlush.
* C80 (Acknowledgements when flushing overlaps with other operations): theorems in Prop_Greenlets; specification SpecDispatch, SpecGreenlets; model Circuit, Dispatcher, Greenlets, Prelude; lemmas MessageProofs, LayoutProofs, DispatchProofs, GreenletProofs, GreenletAcks, GreenletMore, GreenletSeq, GreenletFlush.
* C81 (A manager started and stopped any number of times: UDP): theorems in Prop_Monitors; specification SpecCodec, SpecDispatch, SpecManager, SpecMonitors; model Monitors; lemmas ManagerProofs, MonitorProofs, MonitorQueue.
* C82 (A manager started and stopped any number of times: event queue): theorems in Prop_Monitors; specification SpecMonitors; model EventQueue, Monitors; lemmas ManagerProofs, MonitorProofs, MonitorQueue.
* C83 (Logging changes nothing): theorems in Prop_Logging; specification SpecLogging; model Logging, Settings; lemmas LoggingProofs, LogReasons, PacketMore.
* C84 (What is logged): theorems in Prop_Logging; specification SpecCut, SpecLayout, SpecLogging; model Circuit, Events, Logging, Prelude, Settings, TemplateDict; lemmas LoggingProofs, LogReasons, PacketMore.
* C85 (Capability calls with logging): theorems in Prop_WebLogging; specification SpecWeb, SpecWebLogging; model Caps, WebLogging; lemmas WebProofs, WebLoggingProofs.
* C86 (What capability calls log): theorems in Prop_WebLogging; specification SpecWeb, SpecWebLogging; model Caps, Prelude, PyRegex, Settings, WebLogging; lemmas WebProofs, WebLoggingProofs.
* C87 (The host of an event queue): theorems in Prop_WebLogging; specification SpecWeb, SpecWebLogging; model EventQueue, WebLogging; lemmas WebProofs, WebLoggingProofs.
* C88 (What an event queue logs): theorems in Prop_WebLogging; specification SpecWeb, SpecWebLogging; model EventQueue, Llsd, WebLogging; lemmas WebProofs, WebLoggingProofs.
* C89 (UUID, vector and rotation objects as objects): theorems in Prop_Identity; model Identity, Prelude; lemmas TextProofs.
* C90 (What becomes of a circuit after very many packets): theorems in Prop_Exhaust; specification SpecCodec, SpecDispatch, SpecNetwork; model Circuit, Dispatcher, Prelude; lemmas LayoutProofs, PacketProofs, PacketMore, PacketRules, DispatchProofs, DispatchMore.
* C91 (A manager whose coroutines are interrupted anywhere they do I/O or call a subscriber): theorems in Prop_LiveManager; specification SpecDispatch, SpecGreenlets, SpecLiveManager, SpecManager; model Manager; lemmas DispatchProofs, GreenletProofs, GreenletAcks, GreenletMore, LiveManagerProofs, LiveManagerMore, LiveManagerAcks, LiveManagerSeq.
* C92 (Acknowledgements of a manager that is interrupted anywhere): theorems in Prop_LiveManager; specification SpecDispatch, SpecGreenlets, SpecLiveManager; model LiveManager; lemmas DispatchProofs, GreenletProofs, GreenletAcks, GreenletMore, LiveManagerProofs, LiveManagerMore, LiveManagerAcks, LiveManagerSeq.
* C93 (An event queue interrupted while it delivers): theorems in Prop_LiveQueue; specification SpecLiveQueue; model EventQueue, LiveQueue, Llsd, Monitors, TemplateDict; lemmas LiveQueueProofs, LiveQueueMore, LiveQueueStop, LiveQueueDrive, LiveQueueRunning.
* C94 (Acknowledging and stopping an event queue that is interrupted): theorems in Prop_LiveQueue; specification SpecLiveQueue, SpecMonitors; model LiveQueue, Llsd; lemmas LiveQueueProofs, LiveQueueMore, LiveQueueStop, LiveQueueDrive, LiveQueueRunning.
* C95 (Coordinates given as text): theorems in Prop_FloatText; specification SpecFloatText, SpecObjects; model FloatText, Objects; lemmas ObjectTextProofs, FloatReadProofs, FloatShowProofs, FloatTripProofs.
* C96 (Printing a vector and parsing it): theorems in Prop_FloatText; specification SpecFloatText, SpecFloats, SpecObjects; model FloatText, Objects, Prelude, PyFloat; lemmas ObjectTextProofs, FloatReadProofs, FloatShowProofs, FloatTripProofs.
* C97 (What any template file gives): theorems in Prop_TemplateAny; specification SpecTemplateAny; model TemplateParser; lemmas TemplateAnyProofs, TemplateLastLine.
* C98 (Nothing but copies of what was sent): theorems in Prop_Copies; specification SpecCopies, SpecDispatch, SpecLayout, SpecNetwork, SpecRoundTrip, SpecTemplate; model Template; lemmas CopiesProofs.
* C99 (The listing of templates): theorems in Prop_Listing; specification SpecDescribe, SpecListing; model Describe, Listing, Prelude, TemplateFile, TemplateParser; lemmas ListingProofs, DescribeProofs.
* C100 (One manager: the UDP side and the event queue together): theorems in Prop_Whole, Prop_WholeAsked; specification SpecCodec, SpecDispatch, SpecGreenlets, SpecLiveManager, SpecLiveQueue, SpecMonitors, SpecWhole; model Whole; lemmas DispatchProofs, LiveQueueStop, WholeProofs.
* C101 (A received message and its subscribers, interrupted anywhere): theorems in Prop_Handing; specification SpecDispatch, SpecGreenlets, SpecHanding, SpecManager; model Greenlets; lemmas DispatchProofs, GreenletProofs, HandingProofs.
* C102 (A message to be sent and its subscribers, interrupted anywhere): theorems in Prop_Handing; specification SpecDispatch, SpecGreenlets, SpecHanding, SpecManager; model Circuit, Greenlets; lemmas DispatchProofs, GreenletProofs, HandingProofs.
* C103 (Nothing but copies, dispatchers used concurrently): theorems in Prop_Crowd; specification SpecCodec, SpecCrowd, SpecDispatch, SpecGreenlets, SpecLayout, SpecRoundTrip, SpecTemplate, SpecWire; model Events, Greenlets, Prelude, Template; lemmas CrowdProofs, AnnouncedProofs, RoundTripProofs.
* C104 (Managers on a network): theorems in Prop_Mesh; specification SpecCodec, SpecCrowd, SpecDispatch, SpecMesh, SpecRoundTrip, SpecWhole, SpecWire; model Prelude, Template, Whole; lemmas MeshFinal, MeshMore, MeshSource, MeshSaga, MeshHosts, MeshProofs, RoundTripProofs.
* C105 (One coroutine at a time announces no acks): theorems in Prop_Tidy; specification SpecCodec, SpecCrowd, SpecDispatch, SpecGreenlets, SpecLiveManager, SpecMesh, SpecRoundTrip, SpecTidy, SpecWhole; model Whole; lemmas TidyFinal, MeshFinal, RoundTripProofs.
* C106 (What ends a UDP operation, and a coroutine of the manager, with an exception): theorems in Prop_Ends; specification SpecCodec, SpecDispatch, SpecEnds, SpecGreenlets, SpecLiveManager; lemmas DispatchProofs, LiveManagerProofs, EndProofs, LiveDies, UnprintableDies.
* C107 (Only a raising subscriber ends a coroutine on a network of managers): theorems in Prop_MeshEnds; specification SpecEnds, SpecGreenlets, SpecLiveManager, SpecMesh, SpecMeshEnds, SpecTidy, SpecWhole; lemmas MeshEnds, MeshEndsMore, TidyFinal, RoundTripProofs, WholeProofs, LiveManagerProofs, MeshSource.
