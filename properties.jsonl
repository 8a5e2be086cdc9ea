{"id": "C01", "title": "Integer fields: exact bytes and round trip", "statement": "Packing an integer with DataPacker.pack_data for any of the ten integer field types (U8 U16 U32 U64 S8 S16 S32 S64 BOOL IPPORT) yields exactly sizeof(type) bytes, whose positional value in that type's byte order (little endian for U16..S64, big endian for IPPORT and when EndianType.BIG is requested) is the value modulo 2^bits; if the value is in the type's range DataUnpacker.unpack_data returns it unchanged. Out of range, the struct module of Python <= 2.6 silently wraps 1/2/4-byte fields, that of 2.7 raises struct.error, and 8-byte fields always raise.", "quantifier": "every integer, every integer field type, both byte orders, both struct regimes", "why_tests_cant": "2^64 values per type and two interpreter regimes; tests sample a handful of small positive numbers and would not see a byte-order swap on palindromic values or a sign error at the range edges", "anchors": ["pyogp/lib/base/message/data_packer.py: DataPacker.pack_data", "pyogp/lib/base/message/data_unpacker.py: DataUnpacker.unpack_data", "pyogp/lib/base/message/msgtypes.py: sizeof"]}
{"id": "C02", "title": "Float fields: F64 exact, F32 rounds to nearest, no silent infinities", "statement": "A Python float packed as F64 and unpacked is the same float. Packed as F32 and unpacked it is the value rounded to nearest-even single precision; a finite float that rounds beyond the largest single raises OverflowError instead of becoming an infinity; and every single-precision (non-NaN) 4-byte pattern is reproduced byte for byte by unpack followed by pack. The same holds componentwise for LLVector3, LLVector3d and LLVector4, whose encodings are 12, 24 and 16 bytes.", "quantifier": "every binary64 value, every 4-byte pattern", "why_tests_cant": "2^64 floats including subnormals, halfway cases and the overflow threshold; test vectors use numbers like 128.0 that are exact in every format", "anchors": ["pyogp/lib/base/message/data_packer.py: DataPacker.__pack_vector3", "pyogp/lib/base/message/data_packer.py: __pack_tuple", "pyogp/lib/base/message/data_unpacker.py: __unpack_vector3", "pyogp/lib/base/datatypes.py: Vector3.unpack_from_bytes"]}
{"id": "C03", "title": "UUID fields are carried verbatim", "statement": "For every 128-bit UUID (either a pyogp UUID or a stdlib uuid.UUID) pack_data writes its 16 big-endian bytes and unpack_data of those bytes returns an equal UUID; unpacking fewer than 16 bytes raises ValueError, and a longer string is read up to its 16th byte.", "quantifier": "every UUID, every byte string", "why_tests_cant": "2^128 values", "anchors": ["pyogp/lib/base/message/data_packer.py: DataPacker.__pack_uuid", "pyogp/lib/base/message/data_unpacker.py: DataUnpacker.__unpack_uuid", "pyogp/lib/base/datatypes.py: UUID"]}
{"id": "C04", "title": "Quaternion fields drop W and canonicalise the sign", "statement": "A quaternion is written as three singles: (X,Y,Z) when W >= 0 (or W is -0.0), (-X,-Y,-Z) when W < 0 (or W is NaN), so q and -q have the same encoding whenever W is non-zero and not NaN. Reading 12 bytes gives back those three singles and a W that is never negative: sqrt(1-(x2+y2+z2)) in binary64 when that is positive, else 0; the 13th to 15th bytes do not matter, and reading 16 or more bytes takes W from bytes 12..15; fewer than 12 are an error.", "quantifier": "every quaternion of floats, every byte string", "why_tests_cant": "the branch depends on sign and on binary64 rounding of 1-(x*x+y*y+z*z); no finite table covers it", "anchors": ["pyogp/lib/base/message/data_packer.py: DataPacker.__pack_quat", "pyogp/lib/base/helpers.py: Helpers.pack_quaternion_to_vector3", "pyogp/lib/base/datatypes.py: Quaternion.unpack_from_bytes"]}
{"id": "C05", "title": "Variable-length strings: one NUL appended, trailing NULs stripped", "statement": "Serializing a string into a Variable field writes the length (content plus one NUL) in the field's 1, 2 or 4 byte prefix, the content (UTF-8 for unicode), then one NUL. Decoding that field gives the content without any trailing NULs, unless the field is named 'Data', in which case it gives the content plus the NUL. Hence text round-trips exactly iff it does not end in NUL, and a 'Data' field grows by one byte every time it is decoded and re-sent. Content that does not fit the prefix raises under 2.7 and silently truncates the length modulo 2^(8*prefix) under <= 2.6.", "quantifier": "every byte/unicode string of every length, every prefix width, every field name", "why_tests_cant": "boundary lengths (254/255/256, 65535) and trailing NULs are unbounded families; the existing test uses one chat line", "anchors": ["pyogp/lib/base/message/data_packer.py: DataPacker.__pack_string", "pyogp/lib/base/message/udpserializer.py: UDPMessageSerializer.build_block", "pyogp/lib/base/message/udpdeserializer.py: UDPMessageDeserializer.__decode_data"]}
{"id": "C06", "title": "Serialized packet layout", "statement": "Whenever serialize returns a buffer, that buffer is: the send-flags byte, the packet id as 4 big-endian bytes, a zero offset byte, the template's message-number bytes, then for each block in template order an 8-bit repeat count if the block is Variable followed by each block instance's fields in template order (not in the order the caller added them), each Variable field prefixed by its length; and four zero bytes at the very end for RegionHandshakeReply only. The buffer depends on nothing else: not on extra blocks or variables the template does not mention, nor on ack lists, nor on earlier serialize calls.", "quantifier": "every template dictionary, every message, every insertion order of blocks and variables", "why_tests_cant": "messages are unbounded trees; tests compare two fixed PacketAck buffers", "anchors": ["pyogp/lib/base/message/udpserializer.py: UDPMessageSerializer.serialize", "pyogp/lib/base/message/udpserializer.py: UDPMessageSerializer.build_block"]}
{"id": "C07", "title": "Serialize/deserialize round trip", "statement": "For every template whose fields are all of scalar, vector, quaternion, UUID or Variable type and every message with the right block counts and in-range values, with send flags that do not claim zero-coding or acks: serialize succeeds and deserialize of the result yields a message of the same name, flags, packet id, block names, block counts and order, with each value equal to the original up to the documented canonicalisation of C02, C04 and C05, and with no acks. Ints and booleans are accepted in float fields and tuples of numbers for vectors and quaternions, and come back as the nearest double. (A Fixed or IPADDR field is included when it is given one byte less than its size, see C08; the one exception is a message all of whose blocks are Variable and empty, which is sent but rejected by the decoder.)", "quantifier": "every template dictionary with unambiguous numbering, every conforming message of any size", "why_tests_cant": "quantifies over all templates and all messages at once; unit tests round-trip one chat message", "anchors": ["pyogp/lib/base/message/udpserializer.py: UDPMessageSerializer.serialize", "pyogp/lib/base/message/udpdeserializer.py: UDPMessageDeserializer.deserialize"]}
{"id": "C08", "title": "Fixed and IPADDR fields are emitted one byte too long", "statement": "A Fixed or IPADDR field given exactly its declared number of bytes n is written as n+1 bytes (a NUL is appended) while the decoder consumes n, so a message with such a field followed by anything does not round-trip: the decoder returns the n bytes but every later field starts one byte early. The field occupies exactly its declared width iff the caller supplies n-1 bytes, and then decodes with a trailing NUL.", "quantifier": "every Fixed/IPADDR field width and content", "why_tests_cant": "requires comparing two independently written code paths for all contents; tests never serialize such a field", "anchors": ["pyogp/lib/base/message/data_packer.py: DataPacker.__pack_string", "pyogp/lib/base/message/data_unpacker.py: DataUnpacker.__unpack_fixed"]}
{"id": "C09", "title": "Decoder soundness: a decoded message is exactly what the bytes say", "statement": "If deserialize returns a message, then the datagram (after stripping appended acks and expanding zero-coding) starts with that message's flags byte and big-endian packet id, carries the message number of the template with the returned name, and its body region contains, contiguously and in order, wire encodings of precisely the blocks and fields returned, each read lying wholly inside the buffer; the block structure (names, order, repeat counts) is the template's.", "quantifier": "every byte string, every template dictionary, every settings/handler configuration", "why_tests_cant": "the input space is all byte strings, i.e. hostile network input", "anchors": ["pyogp/lib/base/message/udpdeserializer.py: UDPMessageDeserializer.__decode_data", "pyogp/lib/base/message/data_unpacker.py: DataUnpacker.unpack_data"]}
{"id": "C10", "title": "What a malformed datagram can do", "statement": "On every datagram deserialize terminates and either returns a message, returns None, or raises; with well-formed templates the only exceptions are MessageDeserializationError, IndexError (datagram empty, shorter than its own ack trailer, or too short to hold the header it announces) and struct.error (truncated message number). In particular there are 7-byte datagrams (six header bytes then 0xFF) on which it raises IndexError rather than the documented MessageDeserializationError, and that exception is not caught by UDPDispatcher.receive_check.", "quantifier": "every byte string of every length", "why_tests_cant": "fuzzing samples the space; absence of other exception types needs a proof over all of it", "anchors": ["pyogp/lib/base/message/udpdeserializer.py: UDPMessageDeserializer.deserialize", "pyogp/lib/base/message/udpdeserializer.py: __decode_header", "pyogp/lib/base/message/udpdispatcher.py: UDPDispatcher.receive_check"]}
{"id": "C11", "title": "Message numbers identify messages", "statement": "For a template with frequency High and number < 255, Medium and number < 255, Low and number < 65280, or Fixed and number < 256, the message-number bytes written by the serializer are decoded to the same (frequency, number) whatever bytes follow them; the four header shapes are disjoint, so two different such pairs never share a prefix. Outside those ranges (High 255, Medium 255, Low >= 65280) the header is decoded as a different frequency. A datagram that serialize wrote is recognised as its own message when names and numbers are unambiguous.", "quantifier": "every frequency, every message number, every following byte string", "why_tests_cant": "prefix-freeness is a statement about all pairs of templates and all continuations", "anchors": ["pyogp/lib/base/message/template_dict.py: TemplateDictionary.build_message_ids", "pyogp/lib/base/message/udpdeserializer.py: __decode_frequency", "pyogp/lib/base/message/udpdeserializer.py: __decode_num"]}
{"id": "C12", "title": "Zero-code expansion inverts zero-run coding", "statement": "For every byte string, replacing each run of zeros by (0, run length) pairs with run lengths 1..255 and then applying zero_code_expand gives the string back; expansion leaves strings without zero bytes unchanged, is a homomorphism on concatenation of complete codes, and never loses or reorders non-zero literal bytes.", "quantifier": "every byte string", "why_tests_cant": "runs of every length at every position, including runs longer than 255 and at the end of the packet", "anchors": ["pyogp/lib/base/message/udpdeserializer.py: UDPMessageDeserializer.zero_code_expand"]}
{"id": "C13", "title": "Zero-coded packets decode like plain ones", "statement": "If a plain datagram (no ack flag, no zero-code flag) decodes to a message, then the datagram with the zero-code flag set and everything after the 6-byte header plus offset zero-coded decodes to the same message with only the flag changed, and fails in the same way when the plain one fails.", "quantifier": "every datagram, every header offset, every dictionary", "why_tests_cant": "a relation between two runs of the decoder over all inputs", "anchors": ["pyogp/lib/base/message/udpdeserializer.py: UDPMessageDeserializer.deserialize"]}
{"id": "C14", "title": "Appended acks are split off and reported", "statement": "Appending n <= 255 four-byte acks and the count byte n to a datagram and setting the ACK flag makes the decoder report exactly those n ids in order (read little-endian), and identify the same template; the remaining fields are unaffected provided the plain datagram decodes completely (n is 0 or the body does not run past its end).", "quantifier": "every datagram, every ack list up to 255 entries, with or without zero-coding", "why_tests_cant": "a relation between runs over all datagrams and all ack lists", "anchors": ["pyogp/lib/base/message/udpdeserializer.py: UDPMessageDeserializer.deserialize", "pyogp/lib/base/message/udpdeserializer.py: __decode_data"]}
{"id": "C15", "title": "Expansion is bounded", "statement": "zero_code_expand always terminates, and its output has at most 255 bytes for each pair of input bytes (so at most 127.5 times the input length, rounded up), never fewer bytes than half the input.", "quantifier": "every byte string", "why_tests_cant": "worst cases over all inputs; memory-amplification bound", "anchors": ["pyogp/lib/base/message/udpdeserializer.py: UDPMessageDeserializer.zero_code_expand"]}
{"id": "C16", "title": "Messages banned from UDP neither leave nor enter over UDP", "statement": "If message.xml gives a message a flavor other than 'template', serialize returns None (no bytes) for it whatever its contents, and deserialize returns None for every datagram carrying its number, without raising and whatever follows the header; if the message is absent from message.xml or has flavor 'template', message.xml has no influence on the result. An entry without a flavor makes both raise KeyError.", "quantifier": "every message table, every message, every datagram", "why_tests_cant": "all contents and all datagrams; tests check two table lookups", "anchors": ["pyogp/lib/base/message/message_dot_xml.py: MessageDotXML.validate_udp_msg", "pyogp/lib/base/message/udpserializer.py: serialize", "pyogp/lib/base/message/udpdeserializer.py: deserialize"]}
{"id": "C17", "title": "Deferred parsing skips exactly the unregistered messages", "statement": "With ENABLE_DEFERRED_PACKET_PARSING on, a datagram whose message has never been registered with the message handler decodes to None whatever its body (even a corrupt one), and a datagram whose message is registered decodes exactly as with deferred parsing off; registration, not the presence of subscribers, is what counts.", "quantifier": "every datagram, every registration history", "why_tests_cant": "a two-run relation over all bodies and handler states", "anchors": ["pyogp/lib/base/message/udpdeserializer.py: UDPMessageDeserializer.deserialize", "pyogp/lib/base/message/message_handler.py: MessageHandler.is_message_handled"]}
{"id": "C18", "title": "Repeat-count overflow", "statement": "A Variable block with n instances writes the count byte n if n <= 255. With n > 255 serialization raises struct.error under Python 2.7, and under <= 2.6 it silently writes n mod 256 followed by all n instances, so that the decoder sees a different number of blocks; no diagnostic is raised.", "quantifier": "every message, every block count", "why_tests_cant": "block counts are unbounded", "anchors": ["pyogp/lib/base/message/udpserializer.py: UDPMessageSerializer.build_block"]}
{"id": "C19", "title": "Block counts against the template", "statement": "A message whose number of instances of a Multiple block differs from the template's number makes serialize raise (MessageSerializationError 'block data mismatch' for the first such block) and yields no bytes; a missing block raises KeyError and so does a missing variable. A Single block is not checked: all instances are written, so exactly one instance is needed for the packet to be decodable.", "quantifier": "every template, every message", "why_tests_cant": "all shapes of messages against all templates", "anchors": ["pyogp/lib/base/message/udpserializer.py: UDPMessageSerializer.build_block"]}
{"id": "C20", "title": "Extra header bytes", "statement": "The offset byte is honoured when locating the body and the zero-coded region but not when identifying the message: deserialize always identifies the message from bytes 6..9 of the (expanded) packet. With a zero offset this is the message number; with a non-zero offset the message number is taken from the extra header bytes, so the packet is decoded with whatever template those bytes happen to name.", "quantifier": "every datagram, every offset 0..255", "why_tests_cant": "all offsets and header contents; no test uses a non-zero offset", "anchors": ["pyogp/lib/base/message/udpdeserializer.py: __decode_template", "pyogp/lib/base/message/udpdeserializer.py: __decode_data"]}
{"id": "C21", "title": "Sequence numbers per circuit", "statement": "Over every history of sends, receives and ack processing, the packets prepared for a given host address carry the ids 1, 2, 3, ... in order, one id per send attempt, with no repeats and no gaps among attempts, independent of traffic with other hosts.", "quantifier": "every history of dispatcher operations over any number of hosts", "why_tests_cant": "an invariant over all interleavings of operations; tests send twice to one host", "anchors": ["pyogp/lib/base/message/circuit.py: Circuit.next_packet_id", "pyogp/lib/base/message/circuit.py: Circuit.prepare_packet", "pyogp/lib/base/message/udpdispatcher.py: UDPDispatcher.__send_message"]}
{"id": "C22", "title": "The outstanding set is exactly the unacknowledged reliable sends", "statement": "After any history, a circuit's set of packets awaiting acknowledgement is exactly the ids of the packets sent reliably on it for which no later parsed packet from that address carried the id in its appended acks.", "quantifier": "every history", "why_tests_cant": "an invariant over all histories, including acks for ids never sent and repeated acks", "anchors": ["pyogp/lib/base/message/circuit.py: Circuit.add_reliable_packet", "pyogp/lib/base/message/circuit.py: Circuit.ack_reliable_packet", "pyogp/lib/base/message/circuit.py: Circuit.handle_packet"]}
{"id": "C23", "title": "The outstanding counter never drifts", "statement": "In every reachable state unack_packet_count equals the number of outstanding reliable packets; it is never negative; acknowledging an unknown or already acknowledged id changes nothing.", "quantifier": "every history", "why_tests_cant": "counter/dictionary agreement over all ack orders and duplicates", "anchors": ["pyogp/lib/base/message/circuit.py: Circuit"]}
{"id": "C24", "title": "Reliable packets are never retransmitted", "statement": "In every reachable state the set of circuits scanned for retransmission is empty (a circuit is only added when its outstanding count is <= 0 immediately after it was incremented), so process_acks never resends anything: the only datagrams it emits are PacketAck messages. 'Reliable' delivery is therefore not provided.", "quantifier": "every history", "why_tests_cant": "a negative statement about all histories", "anchors": ["pyogp/lib/base/message/udpdispatcher.py: UDPDispatcher.__send_message", "pyogp/lib/base/message/udpdispatcher.py: UDPDispatcher.__resend_all_unacked"]}
{"id": "C25", "title": "Which received packets get acknowledged", "statement": "For each non-empty datagram exactly one id is queued for acknowledgement if the datagram could not be parsed or was skipped without an exception (whether or not it was flagged reliable), exactly one if it was parsed, flagged reliable and not refused by a trusted circuit, and none otherwise; the id queued is the datagram's big-endian sequence number, and it is appended to the queue of the sender's address only. If decoding raises, nothing is queued; if a subscriber raises, the id has been queued already. No other operation adds to a queue.", "quantifier": "every datagram, every history", "why_tests_cant": "all datagrams in all states", "anchors": ["pyogp/lib/base/message/udpdispatcher.py: UDPDispatcher.receive_check", "pyogp/lib/base/message/circuit.py: Circuit.handle_packet", "pyogp/lib/base/message/circuit.py: Circuit.collect_ack"]}
{"id": "C26", "title": "process_acks flushes the ack queue once, in order, in packets of at most 251 ids", "statement": "process_acks turns each circuit's queue of pending acks into PacketAck messages whose ids, concatenated, are exactly the queue in order; every message but the last carries 251 ids and the last 1..251 (so the 8-bit repeat count never overflows); no PacketAck is sent for an empty queue; afterwards every queue is empty. Each PacketAck datagram decodes back to its ids.", "quantifier": "every queue length, every set of circuits, every dictionary iteration order", "why_tests_cant": "queue lengths are unbounded and chunk boundaries fall at every multiple of 251", "anchors": ["pyogp/lib/base/message/udpdispatcher.py: UDPDispatcher.__send_acks"]}
{"id": "C27", "title": "has_unacked tells whether acks are pending", "statement": "has_unacked() is True iff some circuit has a non-empty ack queue; immediately after process_acks returns it is False.", "quantifier": "every reachable state", "why_tests_cant": "all states", "anchors": ["pyogp/lib/base/message/udpdispatcher.py: UDPDispatcher.has_unacked"]}
{"id": "C28", "title": "Piggy-backed acks are announced but never written", "statement": "A packet other than PacketAck sent while n > 0 acks are pending is sent with the ACK flag set, but the acks themselves are not in the datagram (the bytes after the flag byte are identical to those of the same message with no acks pending). Which acks are pending makes no difference to the datagram. A receiver using this library's decoder consequently takes the last 1+4*b bytes of the datagram, where b is its last byte, for the acks, and raises IndexError if the datagram is no longer than that.", "quantifier": "every message, every ack queue", "why_tests_cant": "relates sender bytes to receiver behaviour for all messages", "anchors": ["pyogp/lib/base/message/circuit.py: Circuit.prepare_packet", "pyogp/lib/base/message/udpserializer.py: UDPMessageSerializer.serialize"]}
{"id": "C29", "title": "Acks can go to the wrong host", "statement": "Acks are sent to the current contents of the Host object stored in the circuit. If every circuit's Host object still has the address under which the circuit is filed, each PacketAck goes to the address whose packets it acknowledges. With NetUDPClient, whose single sender Host object is overwritten by every receive, two packets from different addresses make the first address's acks go to the second.", "quantifier": "every receive/ack history", "why_tests_cant": "depends on aliasing across arbitrary receive orders", "anchors": ["pyogp/lib/base/network/net.py: NetUDPClient.receive_packet", "pyogp/lib/base/message/udpdispatcher.py: UDPDispatcher.__send_acks", "pyogp/lib/base/message/circuit.py: Circuit"]}
{"id": "C30", "title": "A failing send is contained but not rolled back", "statement": "Once circuit bookkeeping is done, no error in serialization or in the socket escapes send_message/send_reliable as long as the message can be printed (it is logged): they return None, emit no datagram and do not count the packet as sent; they return the emitted bytes otherwise. The sequence number is consumed all the same, and a reliable packet that was never sent still counts as outstanding. Sending to a host with a missing or zero ip or port does nothing at all.", "quantifier": "every message, host and failure", "why_tests_cant": "all failure points", "anchors": ["pyogp/lib/base/message/udpdispatcher.py: UDPDispatcher.__send_message", "pyogp/lib/base/message/circuit.py: Host.is_ok"]}
{"id": "C31", "title": "No duplicate suppression", "statement": "Processing the same datagram k times hands it to the subscribers k times and, if reliable, queues its id k times: delivery is at-least-once per datagram received, never deduplicated by sequence number or by the RESENT flag.", "quantifier": "every datagram, every k", "why_tests_cant": "all k and all states", "anchors": ["pyogp/lib/base/message/udpdispatcher.py: UDPDispatcher.receive_check"]}
{"id": "C32", "title": "Circuits are isolated and created once", "statement": "An operation addressed to one address never changes another address's circuit (sequence number, outstanding set, ack queue); a circuit is created on the first operation for an address and the same circuit is used ever after until removed. is_circuit_alive is True for exactly the addresses that have one. A circuit's last_packet_in_id stays at -1 whatever arrives.", "quantifier": "every history over any number of hosts", "why_tests_cant": "non-interference over all histories", "anchors": ["pyogp/lib/base/message/circuit.py: CircuitManager", "pyogp/lib/base/message/udpdispatcher.py: UDPDispatcher.find_circuit"]}
{"id": "C33", "title": "Event notification order", "statement": "notify calls every subscriber exactly once, in subscription order, with the event data followed by the arguments given at subscription, when no subscriber (un)subscribes or raises during the notification; a handler subscribed k times is called k times.", "quantifier": "every subscriber list, every payload", "why_tests_cant": "all lists and duplicates", "anchors": ["pyogp/lib/base/events.py: Event.notify", "pyogp/lib/base/events.py: Event.subscribe"]}
{"id": "C34", "title": "A raising subscriber stops delivery; MessageHandler hides KeyErrors", "statement": "If a subscriber raises, the subscribers before it have been called, those after it are not, and the exception reaches the caller of notify; MessageHandler.handle propagates it unless it is a KeyError, which is swallowed silently.", "quantifier": "every subscriber list, every position of the failure, every exception", "why_tests_cant": "all positions and exceptions", "anchors": ["pyogp/lib/base/events.py: Event.notify", "pyogp/lib/base/message/message_handler.py: MessageHandler.handle"]}
{"id": "C35", "title": "Unsubscribe removes exactly one matching subscription", "statement": "unsubscribe(handler, *args, **kwargs) removes the earliest subscription with equal handler and arguments and nothing else; if there is none it raises (a NameError, because of the malformed error message, not the intended ValueError) and changes nothing. subscribe then unsubscribe restores the original list when the subscription was not already present.", "quantifier": "every subscriber list", "why_tests_cant": "all lists with duplicates", "anchors": ["pyogp/lib/base/events.py: Event.unsubscribe"]}
{"id": "C36", "title": "Unsubscribing during a notification skips the next subscriber", "statement": "If a subscriber removes its own subscription while being notified, the subscriber that followed it is not called for that event (and everyone else is); if a subscriber adds subscriptions during a notification, they are called in the same notification.", "quantifier": "every subscriber list and position", "why_tests_cant": "mutation during iteration at every position", "anchors": ["pyogp/lib/base/events.py: Event.notify"]}
{"id": "C37", "title": "Message handler registry", "statement": "register(name) is idempotent: it returns the same notifier each time and never loses subscribers; is_message_handled(name) is True iff register(name) was ever called; handle(message) calls exactly the subscribers registered under message.name, in order, and nobody registered under another name; subscribing or unsubscribing under one name leaves all others unchanged. Unsubscribing somebody who is not subscribed raises NameError, and nothing else raises.", "quantifier": "every history of register/subscribe/unsubscribe/handle", "why_tests_cant": "refinement to a map over all histories", "anchors": ["pyogp/lib/base/message/message_handler.py: MessageHandler", "pyogp/lib/base/message/message_handler.py: MessageHandledNotifier"]}
{"id": "C38", "title": "Event queue acknowledgement protocol", "statement": "For every sequence of responses, the k-th poll of the region event queue posts {} if no response has been received or the latest one was empty, and otherwise {'ack': id} with the id of the latest response (a failed poll keeps the latest response; a response without an id keeps the previous id); when stopped, a last {'ack': id, 'done': True} is posted iff that id is not -1.", "quantifier": "every sequence of poll outcomes (response, empty, error) and stop times", "why_tests_cant": "all histories of the polling loop", "anchors": ["pyogp/lib/base/event_queue.py: EventQueueClient._processRegionEventQueue"]}
{"id": "C39", "title": "Event queue delivery, and redelivery after a failed poll", "statement": "Each successful poll delivers the messages of its response to the message handler in order. A poll that fails delivers the previous response's messages a second time (the stale result is parsed again), so delivery is not exactly-once: it is exactly-once iff no poll fails while the latest response had messages to deliver.", "quantifier": "every sequence of poll outcomes", "why_tests_cant": "all histories", "anchors": ["pyogp/lib/base/event_queue.py: EventQueueClient._processRegionEventQueue", "pyogp/lib/base/event_queue.py: _parse_result"]}
{"id": "C40", "title": "Stopping the event queue", "statement": "Once stop() is called no iteration of the polling loop begins other than the one in progress (which includes its initial sleep), only the closing ack; the loop's running flag is False afterwards iff the closing post succeeds or is not needed, and start() never raises: it returns False if the closing post fails, on an unknown capability name, and for an agent domain queue (whose poll interval setting does not exist) unless already stopped. Starting a stopped queue polls nothing and repeats the closing ack.", "quantifier": "every history and stop time", "why_tests_cant": "all stop times", "anchors": ["pyogp/lib/base/event_queue.py: EventQueueClient.start", "pyogp/lib/base/event_queue.py: EventQueueClient.stop"]}
{"id": "C41", "title": "Event queue responses become messages faithfully", "statement": "Every event in a response becomes one Message, in order, with the event's name, the current queue id and host; for a message known to the template its blocks are the body's blocks in order with each instance's variables, for an unknown one a single 'Message_Data' block holds the body's entries; no variable is dropped or invented. If any event of a response is malformed, none of its messages is delivered.", "quantifier": "every response", "why_tests_cant": "all response trees", "anchors": ["pyogp/lib/base/event_queue.py: EventQueueClient._decode_eq_result"]}
{"id": "C42", "title": "Capability calls map HTTP outcomes to results and exceptions", "statement": "GET and POST return the deserialized body iff the request succeeds and the content type (up to the first ';') is acceptable: application/llsd+xml for GET; additionally application/xml, and text/html with an LLSD-looking body, for POST. HTTP 404 raises ResourceNotFound with the URL, any other HTTP error raises ResourceError with URL, code and method, any other content type raises DeserializerNotFound. POST sends only lists and dicts and merges custom headers over Content-type; GET ignores custom headers.", "quantifier": "every HTTP outcome, content-type string, payload", "why_tests_cant": "all header strings and outcomes", "anchors": ["pyogp/lib/base/caps.py: Capability.GET", "pyogp/lib/base/caps.py: Capability.POST", "pyogp/lib/base/caps.py: Capability._response_handler"]}
{"id": "C43", "title": "Seed capability returns every requested capability or fails", "statement": "SeedCapability.get(names) returns a dictionary with exactly the requested names, each bound to a capability of that name and the URL given by the server, and raises KeyError if any requested name is missing from the response; extra entries in the response are ignored; all returned capabilities share the seed's REST client.", "quantifier": "every list of names (with duplicates), every response", "why_tests_cant": "all lists/responses", "anchors": ["pyogp/lib/base/caps.py: SeedCapability.get"]}
{"id": "C44", "title": "LLSD deserialization rejects values equal to False", "statement": "LLSDDeserializer returns the parsed value unchanged, except that it raises DeserializationFailed when the value equals False in Python, i.e. for false, integer 0 and real 0.0 (which are valid LLSD documents), and when the parser raises its parse error; non-string input yields None.", "quantifier": "every LLSD value", "why_tests_cant": "all values", "anchors": ["pyogp/lib/base/helpers.py: LLSDDeserializer.deserialize_string"]}
{"id": "C45", "title": "Outgoing queue order", "statement": "MessageManager sends enqueued messages each exactly once: in one drain of the queue they leave in the order: messages enqueued with now=True most recent first, then the others in enqueue order; reliability is as requested per message.", "quantifier": "every history of enqueues and loop iterations", "why_tests_cant": "all interleavings of enqueue and drain", "anchors": ["pyogp/lib/base/message_manager.py: MessageManager.enqueue_message", "pyogp/lib/base/message_manager.py: MessageManager._udp_dispatcher"]}
{"id": "C46", "title": "Manager loop and shutdown", "statement": "Each iteration of the UDP loop receives at most one datagram, flushes acks iff some are pending, then empties the outgoing queue; the loop ends at the first check after stop_monitors; an exception escaping from decoding or from a subscriber ends it immediately leaving queued messages unsent. stop_monitors raises AttributeError when the manager has no event queue (after having cleared the running flag).", "quantifier": "every history", "why_tests_cant": "all schedules", "anchors": ["pyogp/lib/base/message_manager.py: MessageManager._udp_dispatcher", "pyogp/lib/base/message_manager.py: MessageManager.stop_monitors"]}
{"id": "C47", "title": "Message construction and access", "statement": "Building a message from any list of blocks, lists of blocks and variables, msg[name] is the list of blocks of that name in the order given and block[var] is the last value given for var; accessing a missing block or variable raises KeyError; blocks of other names are unaffected. A new message has no flags, packet id, event queue id or acks and is neither trusted nor reliable; add_ack appends an id to its acks and counts it, and changes nothing else.", "quantifier": "every construction sequence", "why_tests_cant": "all sequences with repeats", "anchors": ["pyogp/lib/base/message/template.py: MsgData", "pyogp/lib/base/message/template.py: MsgBlockData", "pyogp/lib/base/message/message.py: MessageBase.parse_blocks"]}
{"id": "C48", "title": "LLSD builder", "statement": "After any sequence new_message, next_block, add_data, build_message returns a map from each block name to the list of that name's blocks in order, each a map from variable name to the last data added, together with the number of distinct block names; is_built is True exactly between a build and the next mutation. Before the first new_message, build_message and next_block raise AttributeError; add_data does so until the first block of the first message only (data added between new_message and next_block vanishes into a block of the previous message).", "quantifier": "every builder call sequence", "why_tests_cant": "all sequences", "anchors": ["pyogp/lib/base/message/llsd_builder.py: LLSDMessageBuilder"]}
{"id": "C49", "title": "to_dict keeps only the last block of each name", "statement": "Message.to_dict() maps each block name to a one-element list holding the variables of the last block of that name; earlier repeats are dropped. It therefore represents the message faithfully iff no block name repeats. to_llsd always raises AttributeError; get_var always raises, KeyError for a missing block and AttributeError otherwise.", "quantifier": "every message", "why_tests_cant": "all repeat structures", "anchors": ["pyogp/lib/base/message/message.py: Message.to_dict", "pyogp/lib/base/message/message.py: Message.to_llsd", "pyogp/lib/base/message/message.py: Message.get_var"]}
{"id": "C50", "title": "UUID algebra and text form", "statement": "For all UUIDs: parsing str(u) gives u; copy() equals the original; equality is equality of the 128-bit value; xor is commutative, associative, self-inverse with the nil UUID as identity; get_bytes/bytes= round-trip at any offset; random() replaces only the nil UUID. A text is accepted iff, after removing 'urn:' and 'uuid:', braces at its ends and hyphens, it has 32 characters and is a hexadecimal number as Python 2 writes them (optionally with white space, plus sign, 0x, L); otherwise ValueError.", "quantifier": "every 128-bit value, every byte string", "why_tests_cant": "2^128 values, all texts", "anchors": ["pyogp/lib/base/datatypes.py: UUID"]}
{"id": "C51", "title": "int_to_bytes is little-endian modulo 2^32", "statement": "Helpers.int_to_bytes(n) is, for every integer n including negative and huge ones, the 4 little-endian bytes of n mod 2^32; it never raises and is inverted by unpacking as U32.", "quantifier": "every integer", "why_tests_cant": "infinite domain", "anchors": ["pyogp/lib/base/helpers.py: Helpers.int_to_bytes"]}
{"id": "C52", "title": "Hex formatting", "statement": "bytes_to_hex maps each byte to two upper-case hex digits separated by single spaces with no leading or trailing space; it is injective and has length 3n-1; hex_to_ascii inverts its output with the spaces removed, and applied to the output itself raises DataParsingError for two or more bytes; hex_to_ascii raises on odd length or a non-hex character.", "quantifier": "every byte string", "why_tests_cant": "all byte strings", "anchors": ["pyogp/lib/base/helpers.py: Helpers.bytes_to_hex", "pyogp/lib/base/helpers.py: Helpers.hex_to_ascii"]}
{"id": "C53", "title": "The shipped message template is unambiguous and codable", "statement": "Parsing the embedded message_template.msg (as Python <= 2.6 does) succeeds and yields templates with pairwise distinct names, pairwise distinct (frequency, number) pairs, all within the ranges of C11, every field of a known type with Variable prefixes 1 or 2 and fixed sizes equal to the type's size; hence every shipped message is found again from its own wire number. Under Python 2.7 the same parse raises struct.error.", "quantifier": "every message in the shipped template file, every continuation of its header", "why_tests_cant": "a global uniqueness property over the whole file plus a wire-format claim about all continuations", "anchors": ["pyogp/lib/base/message/template_parser.py: MessageTemplateParser", "pyogp/lib/base/message/data/message_template.msg", "pyogp/lib/base/message/template_dict.py: TemplateDictionary"]}
{"id": "C54", "title": "Template text round trip", "statement": "For every list of templates (any names over word characters, any blocks, any variables), writing them in the file's brace layout and parsing the text gives back exactly those templates: names, frequencies, numbers, trust, encoding, deprecation, blocks with type and count, variables with type and size, in order; comment lines anywhere change nothing.", "quantifier": "every list of templates", "why_tests_cant": "unbounded structures and names", "anchors": ["pyogp/lib/base/message/template_parser.py: MessageTemplateParser._parse_template_file"]}
{"id": "C55", "title": "Template dictionary lookups", "statement": "get_template(name) returns the last template of that name in the list and None if there is none; get_template_by_pair(frequency, number) returns the last template with that frequency and number; for lists with distinct names and pairs both lookups find each template, and its message-number bytes are the frequency's prefix followed by the number (2 big-endian bytes for Low, 1 otherwise).", "quantifier": "every template list", "why_tests_cant": "all lists with collisions", "anchors": ["pyogp/lib/base/message/template_dict.py: TemplateDictionary"]}
{"id": "C56", "title": "Custom message templates break sending", "statement": "A dispatcher built with a custom template file decodes with that file's templates, but its serializer knows no templates at all (the file handle is passed as the template list and is already exhausted), so every send returns None and emits nothing, while still consuming sequence numbers. With the default template, serializer and deserializer use the same dictionary.", "quantifier": "every template file, every message", "why_tests_cant": "all template files and messages", "anchors": ["pyogp/lib/base/message/udpserializer.py: UDPMessageSerializer.__init__", "pyogp/lib/base/message/template_dict.py: TemplateDictionary.__init__", "pyogp/lib/base/message/udpdispatcher.py: UDPDispatcher.__init__"]}
{"id": "C57", "title": "Custom message.xml is ignored", "statement": "Whatever message.xml table is given to UDPDispatcher or MessageManager, what may be sent and received over UDP is decided by the embedded table: for every message the behaviour is the same as with no table given.", "quantifier": "every table, every message", "why_tests_cant": "all tables", "anchors": ["pyogp/lib/base/message/udpdispatcher.py: UDPDispatcher.__init__", "pyogp/lib/base/message_manager.py: MessageManager.__init__"]}
{"id": "C58", "title": "Settings precedence", "statement": "quiet_logging overrides spammy_logging: with quiet_logging every logging switch is off and DISABLE_SPAMMERS is on whatever the other arguments; the packet-handling switches do not depend on the arguments.", "quantifier": "all constructor arguments", "why_tests_cant": "decision table", "anchors": ["pyogp/lib/base/settings.py: Settings"]}
{"id": "C59", "title": "A trusted circuit delivers nothing", "statement": "Messages made by the deserializer are never marked trusted, and a circuit whose is_trusted is set lets only trusted messages through: so on such a circuit no datagram is ever handed to a subscriber, returned, acknowledged (if it parses) or taken as an acknowledgement.", "quantifier": "every reachable state, every datagram", "why_tests_cant": "a negative statement about all datagrams", "anchors": ["pyogp/lib/base/message/udpdispatcher.py: UDPDispatcher.receive_check", "pyogp/lib/base/message/udpdeserializer.py: UDPMessageDeserializer.__decode_data", "pyogp/lib/base/message/circuit.py: Circuit"]}
{"id": "C60", "title": "Between two pyogp managers nothing is ever acknowledged", "statement": "Connect any number of message managers by a network that loses, duplicates, reorders and redirects datagrams as it likes. Whatever their applications enqueue, no datagram ever written has appended acks (its flags byte is 0 or just RELIABLE), and the contents of PacketAck messages are never applied: so a packet sent reliably is outstanding at its sender for ever, and the outstanding ids are exactly those ever sent reliably.", "quantifier": "every number of managers and configurations, every schedule of their loops, every delivery order, loss and duplication", "why_tests_cant": "a global invariant over all interleavings and network behaviours", "anchors": ["pyogp/lib/base/message/udpdispatcher.py: UDPDispatcher.process_acks", "pyogp/lib/base/message/udpdispatcher.py: UDPDispatcher.receive_check", "pyogp/lib/base/message/udpserializer.py: UDPMessageSerializer.serialize", "pyogp/lib/base/message_manager.py: MessageManager.start"]}
{"id": "C61", "title": "One datagram, one PacketAck, to its source", "statement": "If the application leaves Host objects alone, the manager's loop answers each received datagram at once: when the datagram is to be acknowledged, exactly one PacketAck holding exactly its sequence number is sent, to the address it came from (nothing when the address is no usable one); otherwise, and when receive_check raises, none. Acks are sent at no other moment.", "quantifier": "every history of the manager, every datagram and source address", "why_tests_cant": "all histories and datagrams", "anchors": ["pyogp/lib/base/message_manager.py: MessageManager.start", "pyogp/lib/base/message/udpdispatcher.py: UDPDispatcher.process_acks", "pyogp/lib/base/message/udpdispatcher.py: UDPDispatcher.send_acks"]}
{"id": "C62", "title": "End-to-end delivery", "statement": "A message conforming to its template, enqueued at one manager and sent by its loop, becomes a datagram which, when any other manager with the same templates and a subscriber to that message receives it, makes that manager's loop call the subscribers with a message having the same name, number, flags, blocks and values (up to the float rounding and string rules of C07); the receiver owes an ack for it if and only if it was sent reliably.", "quantifier": "every pair of manager states, every conforming message, every template set, with packet ids below 2^31", "why_tests_cant": "composition of queue, circuit, serializer, network, deserializer and handler for all states and messages", "anchors": ["pyogp/lib/base/message_manager.py: MessageManager", "pyogp/lib/base/message/udpserializer.py: UDPMessageSerializer.serialize", "pyogp/lib/base/message/udpdeserializer.py: UDPMessageDeserializer.deserialize", "pyogp/lib/base/message/message_handler.py: MessageHandler.handle"]}
{"id": "C63", "title": "Acks of acks", "statement": "A manager with deferred parsing and no subscriber to PacketAck answers every PacketAck datagram, reliable or not, with a PacketAck of its own, itself a datagram that a peer in the same situation will answer: two such managers, with nothing else to do, exchange PacketAcks any number of times as long as the network delivers them (and packet numbers stay below 2^31).", "quantifier": "every history of such a manager, every PacketAck datagram and source", "why_tests_cant": "an unbounded exchange", "anchors": ["pyogp/lib/base/message/udpdispatcher.py: UDPDispatcher.receive_check", "pyogp/lib/base/message/udpdeserializer.py: UDPMessageDeserializer.__decode_header", "pyogp/lib/base/message_manager.py: MessageManager.start"]}
{"id": "C64", "title": "Vector3 and Quaternion objects", "statement": "A coordinate given as a float is kept, as an int rounded to the nearest double (OverflowError if too large); one that is neither number nor text raises TypeError; copy() equals the original; get_bytes() is the F32 encodings in order and the bytes= constructor reads them back at any offset of any buffer, raising struct.error when fewer than 12 bytes are left; 12 bytes without NaN survive reading and writing. dist_squared is symmetric, never negative, zero from a finite point to itself, equal to the sum of squared differences rounded at each operation, and monotone in the coordinate differences; but different points can be at distance zero.", "quantifier": "all coordinates (finite, infinite, NaN), all buffers and offsets", "why_tests_cant": "floating point over all doubles and all buffers", "anchors": ["pyogp/lib/base/datatypes.py: Vector3", "pyogp/lib/base/datatypes.py: Quaternion"]}
{"id": "C65", "title": "Vector3.parse", "statement": "parse removes every '<' and '>', splits at commas and converts the three trimmed fields with float(); with any other number of fields it raises ValueError, and it raises nothing else if float() does not. Parsing the text of a vector gives back the coordinates as far as their printed form does.", "quantifier": "every text, every conversion function", "why_tests_cant": "all strings", "anchors": ["pyogp/lib/base/datatypes.py: Vector3.parse", "pyogp/lib/base/datatypes.py: Vector3.__repr__"]}
{"id": "C66", "title": "base64 and uuencoded text", "statement": "bytes_to_base64 writes the bytes as base-64 digits, most significant first, padded with zero bits and '=' to a multiple of four characters, and ends with a newline; it is injective. bytes_to_ascii (uuencode) writes the length and the digits the same way for at most 45 bytes, is injective, and raises binascii.Error for more.", "quantifier": "every byte string", "why_tests_cant": "all byte strings", "anchors": ["pyogp/lib/base/helpers.py: Helpers.bytes_to_base64", "pyogp/lib/base/helpers.py: Helpers.bytes_to_ascii"]}
{"id": "C67", "title": "Packed floats", "statement": "packed_u16_to_float and packed_u8_to_float read the little-endian code at the offset (struct.error if it is not there) and return lower + (upper - lower) * code / max rounded at each operation, or zero when that is smaller than one step. A larger code never gives a smaller value; when upper - lower is exactly a double, code 0 gives lower, the largest code gives upper, and every code gives zero or a value between them.", "quantifier": "every code, every pair of finite bounds, every buffer and offset", "why_tests_cant": "floating point over all bounds and codes", "anchors": ["pyogp/lib/base/helpers.py: Helpers.packed_u16_to_float", "pyogp/lib/base/helpers.py: Helpers.packed_u8_to_float"]}
{"id": "C68", "title": "Wait", "statement": "Wait(d) blocks until the first pass of its loop in which stop() had been called, sleeping raised something other than AssertionError (which goes to the caller), or the clock read at least int(d) seconds past the start; AssertionErrors of the scheduler only cost a pass. If nobody stops it, it never returns early. A duration of zero or less, or below one second, does not wait at all, fractions of a second being dropped; a duration int() rejects (an infinity, NaN, None, a tuple, ...) raises that exception, and True is one second.", "quantifier": "every duration, every sequence of sleeps, clock readings, exceptions and calls of stop()", "why_tests_cant": "all schedules and clock readings (doubles)", "anchors": ["pyogp/lib/base/helpers.py: Wait"]}
{"id": "C69", "title": "What stop() of an event queue reports", "statement": "The watcher started by stop() looks at the running flag at most 10 times, one poll interval apart, and reports success with the time of the first look that finds it down, or failure after 10. Once the poll loop of a region queue has ended, failure is reported if and only if it ended too late or the closing request raised; for an agent-domain queue, which never clears the flag, failure is always reported.", "quantifier": "every history of polls and responses, every moment at which the loop ends, every settings object", "why_tests_cant": "all interleavings of the loop with the watcher", "anchors": ["pyogp/lib/base/event_queue.py: EventQueueClient.stop", "pyogp/lib/base/event_queue.py: EventQueueClient.start"]}
{"id": "C70", "title": "Capabilities over the default HTTP client", "statement": "With StdLibClient, GET and POST of a capability perform exactly one urllib2 request, to the capability's URL, with the formatted payload and caller's headers (which may override Content-type) for POST and no headers for GET. They return the parsed body if and only if the request succeeds with a content-type of llsd+xml up to a semicolon; an HTTP error 404 is ResourceNotFound, another one ResourceError with code and method, a missing content-type KeyError, and anything else urllib2 raises goes to the caller.", "quantifier": "every server behaviour, payload and header list", "why_tests_cant": "all server behaviours", "anchors": ["pyogp/lib/base/network/stdlib_client.py: StdLibClient", "pyogp/lib/base/caps.py: Capability"]}
{"id": "C71", "title": "What templates say about themselves", "statement": "The trust, encoding, deprecation and block-type descriptions of a template are the words of the template language, which the parser reads back as the same values (TypeError when the value is unknown, \"None\" for a block type); frequencies are given in lower case, which the parser does not accept (KeyError when unknown). Type names are distinct for distinct types. The hexadecimal number of a template in a dictionary spells the bytes its messages carry and distinguishes it from all others. get_block and get_variable return the last one of that name, KeyError if none. get_all_types lists each type used exactly once in alphabetical order, TypeError if a variable has none; get_template_list raises AttributeError on a dictionary built from a given list. Nothing of this fails for the shipped templates.", "quantifier": "every template, dictionary, name and number", "why_tests_cant": "all templates and lists", "anchors": ["pyogp/lib/base/message/template.py: MessageTemplate", "pyogp/lib/base/message/template.py: MessageTemplateBlock", "pyogp/lib/base/message/msgtypes.py: MVT_as_string", "pyogp/lib/base/message/template_parser.py: MessageTemplateParser.get_all_types", "pyogp/lib/base/message/template_dict.py: TemplateDictionary.get_template_list"]}
{"id": "C72", "title": "MessageFactory builds nothing", "statement": "No history of calls on a MessageFactory ever builds a message: without a template_list every call raises AttributeError; with one, a call returns normally only when it does nothing (new_message of a name mapped to None, next_block of a block the current template lacks); new_message of a known name raises NameError, add_data always raises.", "quantifier": "every template list and every history of calls", "why_tests_cant": "all histories", "anchors": ["pyogp/lib/base/message/factory.py: MessageFactory"]}
{"id": "C73", "title": "The printed form of a message", "statement": "Message.data() is the name line and, for each block name, one line per entry of each instance's variable list, with string data as it is, fixed data as a tuple of little-endian 16-bit numbers, other values as Python prints them; a unicode text iff some part is. It raises at the first line that cannot be printed (no such variable, non-text in a Variable, odd-length Fixed data, non-ASCII unicode elsewhere), with that line's exception, or at which a unicode text and a byte string that is not ASCII meet (UnicodeDecodeError); without unicode Variable data only the former happens. str() and repr() give the same text but raise UnicodeEncodeError on a unicode text that is not ASCII. The log line of a failed send raises exactly if data() does. It shows only name and blocks, and not where one instance ends and the next begins.", "quantifier": "every message, every printing of plain values, both attribute orders", "why_tests_cant": "all messages", "anchors": ["pyogp/lib/base/message/message.py: Message.data", "pyogp/lib/base/message/template.py: MsgVariableData.get_data_as_string"]}
{"id": "C74", "title": "The traffic counters", "statement": "Over every history of a dispatcher packets_out is exactly the number of datagrams handed to the socket without an error (acknowledgement packets included, failed serializations and failed sendto calls excluded) and packets_in exactly the number of datagrams of positive size given to receive_check, whether or not they could be parsed; likewise for the dispatcher of a running manager. A send returns the datagram exactly when it was put on the wire, that is when the message was serialized and sendto did not raise.", "quantifier": "every history of sends, receives, ack flushes, exceptions and user actions", "why_tests_cant": "all histories", "anchors": ["pyogp/lib/base/message/udpdispatcher.py: UDPDispatcher.receive_check", "pyogp/lib/base/message/udpdispatcher.py: UDPDispatcher.send_message", "pyogp/lib/base/message_manager.py: MessageManager"]}
{"id": "C75", "title": "The library's exceptions", "statement": "An except clause for Error catches every exception class of exc.py; every other one belongs to exactly one of eleven families, whose head catches exactly its members. Creating one succeeds exactly for calls that fit its parameters (TypeError otherwise), each argument becoming the attribute of that name. str() gives the documented text with the attributes' own texts in place, except that a tuple in a one-attribute text shows its only element or raises TypeError, and that ResourceNotFound needs a text as its url; classes without a text print their positional arguments only. A datagram whose header cannot be read raises something no class of the library catches.", "quantifier": "every class, every list of positional and keyword arguments, every way of printing other objects", "why_tests_cant": "all classes and calls", "anchors": ["pyogp/lib/base/exc.py"]}
{"id": "C76", "title": "Values of every kind in every kind of field", "statement": "pack_data treats a value by what it is. In an integer field True and False are 1 and 0 and a finite float counts as its whole part (towards zero); infinities, NaN and everything that is no number raise. In a float field an int or truth value counts as the nearest double, an int too large for one and everything that is no number raise struct.error. A vector field takes a tuple of any length and writes its elements one after the other, so the bytes have the declared width exactly when the tuple has the declared length (the code does not check: a short tuple shifts every later field); the exception for a bad tuple is that of one of its elements; '' is written as nothing, other text raises struct.error, a Vector3 object is accepted by LLVector3 only, anything else raises TypeError. A quaternion field uses the first four elements of a tuple (three, negated when the fourth is negative or NaN), ignores the rest and raises IndexError on fewer. A UUID field accepts the two UUID classes (AttributeError otherwise), a text field None, str and unicode (TypeError otherwise). The result is None exactly for an unknown type.", "quantifier": "every field type, every value (None, bool, int, float, str, unicode, tuple of numbers, Vector3, Quaternion, UUID), both byte orders, both struct regimes", "why_tests_cant": "all values of all kinds, including floats and ints of any size and tuples of any length", "anchors": ["pyogp/lib/base/message/data_packer.py: DataPacker", "pyogp/lib/base/helpers.py: Helpers.pack_quaternion_to_vector3"]}
{"id": "C77", "title": "Dropped, rejected or decoded", "statement": "For well-formed templates every datagram is exactly one of: decoded (C09); dropped, deserialize returning None; rejected with MessageDeserializationError; or broken in its header (C10). It is dropped exactly when the message number is unknown, the message may not travel over UDP, nobody wants it, or the body ends inside a field. It is rejected exactly when at most six bytes remain, the body ends exactly where the repeat count of a Variable block belongs, or the body yields no block instance although the template has blocks. Hence no proper prefix of a packet written by serialize (without ack and zero-code flags; RegionHandshakeReply aside, which ends in four spare bytes) is ever decoded.", "quantifier": "every template list, configuration and datagram; every proper prefix of every serialized packet", "why_tests_cant": "all byte strings and all cut positions", "anchors": ["pyogp/lib/base/message/udpdeserializer.py: UDPMessageDeserializer.deserialize", "pyogp/lib/base/message/udpdeserializer.py: __decode_data"]}
{"id": "C78", "title": "Subscribers that use the message handler while a message is handled", "statement": "What handle does when the subscribers it calls themselves register, subscribe and unsubscribe (any sequence of operations under any names, depending on anything): operations under other names and registering this one again disturb nothing; if nobody subscribes under the name of the message, handle returns and calls only those subscribed at the start, in order and each at most once, though some may be skipped; if nobody unsubscribes or raises and it returns, it has called exactly those subscribed at the end, newcomers included; if every call brings a new subscriber it never returns. What escapes is the exception of the last one called, never a KeyError.", "quantifier": "every registry, message and behaviour of the subscribers", "why_tests_cant": "all behaviours and interleavings of calls and registrations", "anchors": ["pyogp/lib/base/message/message_handler.py: MessageHandler.handle", "pyogp/lib/base/events.py: Event.notify"]}
{"id": "C79", "title": "A dispatcher in the middle of other operations", "statement": "Nothing that C21 and C22 promise depends on operations not overlapping. However sends, receptions and ack flushes are interleaved - subscribers using the dispatcher while they are called, greenlets switched while a datagram is in the socket - the packets prepared for an address carry the ids 1, 2, 3, ..., the bytes given to the socket carry the id the message had when it was prepared, and what waits for an acknowledgement is exactly what was prepared as reliable and not acknowledged in an accepted datagram since. Operations that do not overlap behave as in C21-C32.", "quantifier": "every schedule of operations cut at every call of a subscriber and of sendto, every exception these raise", "why_tests_cant": "all interleavings", "anchors": ["pyogp/lib/base/message/udpdispatcher.py: UDPDispatcher.__send_message", "pyogp/lib/base/message/udpdispatcher.py: UDPDispatcher.receive_check", "pyogp/lib/base/message/udpdispatcher.py: UDPDispatcher.__send_acks", "pyogp/lib/base/message/circuit.py: Circuit"]}
{"id": "C80", "title": "Acknowledgements when flushing overlaps with other operations", "statement": "If process_acks is never started while another call is under way, every id that came due is, when none is under way, either in a PacketAck, in order and once, or still queued - except the ids that came due while the last PacketAck of a flush was being sent, which are lost. So nothing is lost or acknowledged twice if receiving and flushing are done in turn, as the library's loop does. However calls overlap, nothing is acknowledged that was not received; every PacketAck carries between 1 and 251 ids; each call acknowledges, in order, the queue it began with, also when another call has emptied it since. Overlapping calls may acknowledge a packet twice.", "quantifier": "every schedule of operations cut at every call of a subscriber and of sendto", "why_tests_cant": "all interleavings", "anchors": ["pyogp/lib/base/message/udpdispatcher.py: UDPDispatcher.process_acks", "pyogp/lib/base/message/udpdispatcher.py: UDPDispatcher.__send_acks", "pyogp/lib/base/message_manager.py: MessageManager._udp_dispatcher"]}
{"id": "C81", "title": "A manager started and stopped any number of times: UDP", "statement": "Every start_monitors spawns one more UDP coroutine, every one sharing queue, dispatcher and flag. However they interleave, every message enqueued is sent exactly once, by one of them, or is still queued, in the order of C45; each coroutine's calls form iterations of receive, acks, sends, and one that raises is its last. A coroutine that looks at the flag goes on exactly if the last of start_monitors and stop_monitors to be called was a start - so after a quick stop and start both coroutines go on reading the socket. Stopped and not started again, each coroutine receives at most once more and ends within 3 steps plus the messages to send.", "quantifier": "every sequence of starts, stops, enqueues and user actions, every number and interleaving of coroutines, every datagram and socket error", "why_tests_cant": "all histories and schedules", "anchors": ["pyogp/lib/base/message_manager.py: MessageManager.start_monitors", "pyogp/lib/base/message_manager.py: MessageManager.stop_monitors", "pyogp/lib/base/message_manager.py: MessageManager._udp_dispatcher"]}
{"id": "C82", "title": "A manager started and stopped any number of times: event queue", "statement": "Every start_monitors spawns one more coroutine polling the same event queue. stop_monitors stops the queue exactly if one of them has begun: a stop before that is missed and the queue polled on for ever. While it is not stopped no coroutine ends, and each polls at least every other step. Once stopped, the queue stays so, whatever is started: each coroutine posts at most the poll it was about to make, then at most one closing request, and ends within three steps; one spawned by a later start posts at most a closing request and delivers nothing. One that returns True leaves the queue marked as not running; it returns False, leaving the mark, when the closing request fails. One coroutine alone behaves as start() in C38-C40.", "quantifier": "every sequence of starts, stops and stop() calls, every number and interleaving of coroutines, every outcome of every POST", "why_tests_cant": "all histories and schedules", "anchors": ["pyogp/lib/base/message_manager.py: MessageManager.start_monitors", "pyogp/lib/base/message_manager.py: MessageManager.stop_monitors", "pyogp/lib/base/event_queue.py: EventQueueClient.start", "pyogp/lib/base/event_queue.py: EventQueueClient.stop", "pyogp/lib/base/event_queue.py: EventQueueClient._processRegionEventQueue"]}
{"id": "C83", "title": "Logging changes nothing", "statement": "Turning log settings on or off changes nothing but the log. Two dispatchers whose settings agree on HANDLE_PACKETS, HANDLE_OUTGOING_PACKETS and ENABLE_DEFERRED_PACKET_PARSING - quiet, default and spammy Settings all do - go through the same states, return the same results and raise the same exceptions in every history, and call the same subscribers, hand the same datagrams to the socket and write the same warnings in the same order; only the five kinds of optional line (packet received, sent, skipped, acking, handling) come and go.", "quantifier": "every history of operations, every pair of settings of the dispatcher and of its message handler, every behaviour of subscribers and socket", "why_tests_cant": "all histories and all pairs of settings", "anchors": ["pyogp/lib/base/message/udpdispatcher.py: UDPDispatcher", "pyogp/lib/base/message/udpdeserializer.py: UDPMessageDeserializer.deserialize", "pyogp/lib/base/message/message_handler.py: MessageHandler.handle", "pyogp/lib/base/settings.py: Settings"]}
{"id": "C84", "title": "What is logged", "statement": "Every line has its switches: none appears unless they are on (under quiet_logging none but the handler's). Each datagram handed to the socket is immediately preceded by its 'Sent packet' line unless its name is a disabled spammer's or UDP logging is off - also when the socket then refuses it; and such a line is followed by its datagram, except that with hex logging off it is also written for a message that message.xml keeps from being sent. A send to a usable address that returns None ends in an error line naming the message (unless the socket raised AssertionError). A datagram of positive size that is received is dropped with exactly one line saying why (number unknown, banned, unwanted - this one only if switched on - or cut), or dropped without a line because its circuit is trusted, or announced and delivered to the subscribers in order, or rejected with an exception and no line.", "quantifier": "every history, every settings, every datagram, template list and socket behaviour", "why_tests_cant": "all histories and byte strings", "anchors": ["pyogp/lib/base/message/udpdispatcher.py: UDPDispatcher.receive_check", "pyogp/lib/base/message/udpdispatcher.py: UDPDispatcher.__send_message", "pyogp/lib/base/message/udpdeserializer.py: UDPMessageDeserializer", "pyogp/lib/base/message/udpserializer.py: UDPMessageSerializer.serialize", "pyogp/lib/base/message/message_handler.py: MessageHandler.handle", "pyogp/lib/base/events.py: Event.notify"]}
{"id": "C85", "title": "Capability calls with logging", "statement": "Log arguments are formatted before they are logged, and a unicode text together with a byte string that is not ASCII cannot be: UnicodeDecodeError. So a GET or POST whose first line (or, verbosely, whose posted document) clashes with the URL raises without making the request; a call whose answer clashes, or whose body is no string while documents are logged, raises although the request was made and answered; and in every other case the call makes the same request and gives the same value or exception as without logging. In particular with an ASCII byte string URL and byte string bodies, or with both capability switches off, no call is affected.", "quantifier": "every name, URL, payload, response body and value, every settings, parser and REST client", "why_tests_cant": "all texts, answers and settings", "anchors": ["pyogp/lib/base/caps.py: Capability.GET", "pyogp/lib/base/caps.py: Capability.POST", "pyogp/lib/base/caps.py: Capability.POST_CUSTOM", "pyogp/lib/base/caps.py: Capability._response_handler", "pyogp/lib/base/settings.py: Settings"]}
{"id": "C86", "title": "What capability calls log", "statement": "A successful GET logs what it asks for, makes the request and logs the (stripped) body and the value; a POST logs payload and document first; each line under its own switches and no other line; a call that fails by itself logs nothing after the request, but prints the response on standard output exactly when the content type of a POST's response is one it cannot read. With ENABLE_CAPS_LOGGING, the default, every payload posted is in the log before it is sent. With both switches off nothing is logged. Capabilities obtained from a seed log by the default settings, not by the seed's; otherwise they are those of C43.", "quantifier": "every call, settings, payload and answer", "why_tests_cant": "all calls and settings", "anchors": ["pyogp/lib/base/caps.py: Capability", "pyogp/lib/base/caps.py: SeedCapability.get"]}
{"id": "C87", "title": "The host of an event queue", "statement": "An event queue client may be given any value as its host. With anything but a tuple (or with a tuple of one element) it behaves as in C38-C41 under all settings. With a tuple of any other length, such as (ip, port), nothing is ever delivered and start() never returns True: by default start() returns False at once; with LOG_COROUTINE_SPAWNS off it goes round without ever posting; with ENABLE_EQ_LOGGING or ENABLE_HOST_LOGGING off as well it posts exactly what it would post otherwise, so that events it has not delivered are acknowledged and lost.", "quantifier": "every host, every settings, every sequence of polls and outcomes, every behaviour of subscribers", "why_tests_cant": "all histories, hosts and settings", "anchors": ["pyogp/lib/base/event_queue.py: EventQueueClient.start", "pyogp/lib/base/event_queue.py: EventQueueClient._processRegionEventQueue", "pyogp/lib/base/event_queue.py: EventQueueClient._parse_result"]}
{"id": "C88", "title": "What an event queue logs", "statement": "Everything an event queue puts out is determined: the spawn line; for each poll that begins the announcement (if switched on), the post, a line if it failed, then - also after a failed poll - the latest response and its messages, up to and including the first whose subscriber raises, and a warning if one raises, the response cannot be decoded or has no id; finally the closing post, if any, and the line of its end or failure.", "quantifier": "every sequence of polls, outcomes, responses and subscriber behaviours, every settings", "why_tests_cant": "all histories", "anchors": ["pyogp/lib/base/event_queue.py: EventQueueClient.start", "pyogp/lib/base/event_queue.py: EventQueueClient._processRegionEventQueue", "pyogp/lib/base/event_queue.py: EventQueueClient._parse_result"]}
{"id": "C89", "title": "UUID, vector and rotation objects as objects", "statement": "Two such objects are == iff they are the same object or UUIDs of the same value, and != iff they are not the same object: equal UUIDs are both. Membership in a list goes by ==. A dictionary keyed by such objects goes by identity: after any history a lookup gives what was last stored under that very object, however its contents changed since, and never what was stored under an equal one; keyed by what a UUID returns when called, it goes by the value at the time of storing. copy() gives a new object with the same contents, equal to the original iff that is a UUID, never found in a dictionary; changing one changes no other.", "quantifier": "every two objects, every list, every history of creating, copying, changing and storing", "why_tests_cant": "all histories", "anchors": ["pyogp/lib/base/datatypes.py: UUID.__eq__", "pyogp/lib/base/datatypes.py: UUID.copy", "pyogp/lib/base/datatypes.py: UUID.random", "pyogp/lib/base/datatypes.py: Vector3", "pyogp/lib/base/datatypes.py: Quaternion"]}
{"id": "C90", "title": "What becomes of a circuit after very many packets", "statement": "The sequence number is written as a signed 32-bit integer. On Python 2.7 the k-th packet of a circuit is handed to the socket only if k < 2^31, and then carries the number k, so a circuit carries fewer than 2^31 datagrams in its life. From then on, until the circuit is removed, every send on it fails without an exception: nothing reaches the socket, reliable messages pile up as outstanding, and the acknowledgements due are taken off the queue and lost. Up to Python 2.6 the numbers wrap: two datagrams of a circuit carry the same number iff a multiple of 2^32 packets lies between them. A packet numbered 2^32 or more that is outstanding stays so until the circuit is removed, whatever arrives.", "quantifier": "every history of sends, receptions, acknowledgements and removals of any length, every circuit, message, template list and socket behaviour", "why_tests_cant": "all histories, of any length (the interesting ones take 2^31 steps)", "anchors": ["pyogp/lib/base/message/udpserializer.py: UDPMessageSerializer.serialize", "pyogp/lib/base/message/circuit.py: Circuit.next_packet_id", "pyogp/lib/base/message/udpdispatcher.py: UDPDispatcher.__send_message", "pyogp/lib/base/message/udpdispatcher.py: UDPDispatcher.process_acks"]}
{"id": "C91", "title": "A manager whose coroutines are interrupted anywhere they do I/O or call a subscriber", "statement": "Let every receive_check, process_acks and send of a manager's UDP coroutines be interrupted at each call of a subscriber and of the socket, where other coroutines, user greenlets and the subscribers themselves do anything with the manager and its dispatcher. Still: for the dispatcher all this is a schedule of its operations (so C79 and C80 apply: packets are numbered 1, 2, 3, ..., outstanding are the reliable packets not acknowledged since); each message enqueued is taken to be sent once, with the reliability asked for, or is still queued; always the one that leaves first by C45 among those waiting then; each coroutine's calls form iterations of receive, acks, sends, one at a time, an exception being that of its last call; it ends by itself only when it finds the manager stopped and (unless it had not begun) the queue empty; after a stop each receives at most once more. The manager of C45 and C46 is a special case.", "quantifier": "every manager, every sequence of starts, stops and enqueues, every interleaving of any number of coroutines, greenlets and subscribers, every datagram and socket error", "why_tests_cant": "all schedules", "anchors": ["pyogp/lib/base/message_manager.py: MessageManager._udp_dispatcher", "pyogp/lib/base/message_manager.py: MessageManager.send_udp_message", "pyogp/lib/base/message_manager.py: MessageManager.enqueue_message", "pyogp/lib/base/message/udpdispatcher.py: UDPDispatcher.receive_check", "pyogp/lib/base/message/udpdispatcher.py: UDPDispatcher.process_acks"]}
{"id": "C92", "title": "Acknowledgements of a manager that is interrupted anywhere", "statement": "If the user leaves receiving and acknowledging to the manager and starts it again only after its earlier coroutines have ended, then whatever subscribers and greenlets do meanwhile, unless an exception ended a coroutine or one is inside process_acks, every id to be acknowledged was put into a PacketAck once, in order, or is still queued. Restarted before the earlier coroutine has noticed the stop, a manager may acknowledge a packet twice or never. Nothing is ever acknowledged that was not received.", "quantifier": "every manager and schedule as in C91, every address", "why_tests_cant": "all schedules", "anchors": ["pyogp/lib/base/message_manager.py: MessageManager._udp_dispatcher", "pyogp/lib/base/message_manager.py: MessageManager.start_monitors", "pyogp/lib/base/message/udpdispatcher.py: UDPDispatcher.process_acks"]}
{"id": "C93", "title": "An event queue interrupted while it delivers", "statement": "Let every call of a subscriber by an event queue be a point where subscribers, other coroutines of the same queue and the user subscribe, unsubscribe, poll, stop and start it. Whoever is called is at that moment the k-th subscriber of the n-th message of the latest response its coroutine got, messages and positions going up by turns; earlier messages have been handed over to everybody who was subscribed when the response came, unless one of them raised KeyError or somebody unsubscribed; a KeyError ends the delivery of one message, any other exception that of the response. Before a coroutine posts again its response has been delivered or broken off, and if nobody raised or touched the subscriptions the calls are exactly the subscribers of each message in turn. Left alone, it behaves as in C39 and C82.", "quantifier": "every sequence of responses, exceptions, subscriptions, starts and stops, every interleaving of any number of coroutines", "why_tests_cant": "all schedules", "anchors": ["pyogp/lib/base/event_queue.py: EventQueueClient._parse_result", "pyogp/lib/base/event_queue.py: EventQueueClient._processRegionEventQueue", "pyogp/lib/base/message/message_handler.py: MessageHandler.handle", "pyogp/lib/base/events.py: Event.__call__"]}
{"id": "C94", "title": "Acknowledging and stopping an event queue that is interrupted", "statement": "Under all interleavings of C93 every request acknowledges the id of the latest response, whichever coroutine got it, or closes the queue with it, and the messages carry that id. With one coroutine at a time nothing is acknowledged before everything decoded was delivered or broken off; with two (start_monitors called twice) a response may be acknowledged while it is being delivered. The queue is stopped exactly when stop() was called, or stop_monitors() while the queue was running. With one coroutine at a time it takes itself for running exactly while the last coroutine to begin has not returned normally (one that died leaves it running). Once stopped the queue stays stopped; each coroutine finishes the delivery it is in, posts at most the poll it was about to send and then one closing request, and ends; one neither polling nor delivering calls nobody.", "quantifier": "every history as in C93, every moment of stopping", "why_tests_cant": "all schedules", "anchors": ["pyogp/lib/base/event_queue.py: EventQueueClient._processRegionEventQueue", "pyogp/lib/base/event_queue.py: EventQueueClient.stop", "pyogp/lib/base/message_manager.py: MessageManager.start_monitors", "pyogp/lib/base/message_manager.py: MessageManager.stop_monitors"]}
{"id": "C95", "title": "Coordinates given as text", "statement": "Vector3(X=text, ...), Quaternion(...) and Vector3.parse accept exactly decimal numerals (optional sign, digits with at most one point, optional exponent, white space around) and inf, infinity and nan in any case; everything else raises ValueError and nothing else is raised. Each coordinate is the double nearest to the number written, ties to even, an infinity if it is too large; it depends on the number only, not on how it is spelt.", "quantifier": "every text, of any length and exponent", "why_tests_cant": "all numerals", "anchors": ["pyogp/lib/base/datatypes.py: Vector3.parse", "pyogp/lib/base/datatypes.py: Vector3.__init__", "pyogp/lib/base/datatypes.py: Quaternion.__init__"]}
{"id": "C96", "title": "Printing a vector and parsing it", "statement": "str() of a vector writes each coordinate rounded to twelve significant decimal digits (ties to even), in the plain or the scientific layout by its magnitude, with its sign, and inf and nan as such. Vector3.parse(str(v)) never fails and returns, coordinate by coordinate, the double nearest to that; the vector is recovered exactly if its coordinates are nearest to decimal numbers of at most twelve digits (and not subnormal). Printing the parsed vector gives the same text, unless a coordinate is the one double (up to sign) printed as 1e-312.", "quantifier": "every vector of doubles, including subnormal, infinite and NaN coordinates", "why_tests_cant": "2^192 vectors, two Python versions", "anchors": ["pyogp/lib/base/datatypes.py: Vector3.__repr__", "pyogp/lib/base/datatypes.py: Vector3.parse"]}
{"id": "C97", "title": "What any template file gives", "statement": "Whatever text is given as a message template: if the parser accepts it, every template has a name, one of the four frequencies and a number, and the bytes that start its messages are the prefix of the frequency followed by the last byte of the number (which is the number on Python 2.7); every block has a name, and a count only if Multiple; every variable has a name and, if its type is known, the size of its type or the positive size written. Words that are not known for trust, encoding, deprecation, block or variable type are accepted and stand for nothing. If the parser refuses it, the exception is one of IndexError, ValueError, UnboundLocalError, TypeError, NameError, AttributeError and (Python 2.7 only) struct.error, and no line behind mends it; lines added to a file only add templates, blocks and variables to those already read; a newline at the end makes no difference.", "quantifier": "every text, both Python versions", "why_tests_cant": "all texts, well formed or not", "anchors": ["pyogp/lib/base/message/template_parser.py: MessageTemplateParser._parse_template_file", "pyogp/lib/base/message/template_parser.py: MessageTemplateParser._start_new_var"]}
{"id": "C98", "title": "Nothing but copies of what was sent", "statement": "Let any number of message managers talk over a network that may lose, duplicate, reorder and misdirect datagrams and forge their source addresses, but not make them up, using the same templates. If a subscriber of one of them is called with a message, then some manager had before that handed to its socket a packet of which the message is a copy: the same name, number, reliability, blocks and values, in the sense of C07. Every id a manager acknowledges is the number of a datagram put out before, and so is every id a subscriber to PacketAck is shown if applications send no PacketAcks of their own.", "quantifier": "every network of managers, every behaviour of their applications sending conforming messages, every run and delivery order", "why_tests_cant": "all networks and schedules", "anchors": ["pyogp/lib/base/message_manager.py: MessageManager._udp_dispatcher", "pyogp/lib/base/message/udpdispatcher.py: UDPDispatcher.receive_check", "pyogp/lib/base/message/udpdispatcher.py: UDPDispatcher.process_acks", "pyogp/lib/base/message/udpdeserializer.py: UDPMessageDeserializer.deserialize", "pyogp/lib/base/message/udpserializer.py: UDPMessageSerializer.serialize"]}
{"id": "C99", "title": "The listing of templates", "statement": "Run as a program, template_parser.py prints every template with its position and frequency, how many there are of each frequency, every template's line with its blocks and variables, and the types in use; it comes to its end exactly if no template lacks a frequency, number bytes, trust, encoding, deprecation or type of a variable, and else stops in the first that does, with KeyError or TypeError, having printed those before. Two template files have the same listing exactly if their templates are the same but for the sizes of variables. For files the parser accepts only a TypeError is possible; the shipped file is listed completely (Python 2.6).", "quantifier": "every list of templates, every template file the parser accepts, every order of the counters", "why_tests_cant": "all templates and files", "anchors": ["pyogp/lib/base/message/template_parser.py: print_packet_names", "pyogp/lib/base/message/template_parser.py: print_packet_list", "pyogp/lib/base/message/template_parser.py: main"]}
{"id": "C100", "title": "One manager: the UDP side and the event queue together", "statement": "Let the UDP coroutines and the event queue coroutines of one manager, operations of the dispatcher under way, subscribers and the user interleave wherever one of them calls a subscriber, sleeps or does I/O. Then the UDP side behaves as in C91 and C92 and the event queue as in C93 and C94, what each is asked to do being what the manager is asked: the UDP side is given exactly what enqueue_message was called with, start_monitors() starts one UDP coroutine and (unless disabled) one of the event queue, and the event queue is stopped iff its stop() was called or stop_monitors() while it was running. Leaving out the steps of one changes nothing for the other; they share only the message handler: whoever is called, by either, is at that moment subscribed to the message's name, whichever side's subscriber it was that subscribed. stop_monitors() stops both: each UDP coroutine receives at most once more until the next start_monitors(), a running event queue is stopped for good; without an event queue it raises AttributeError, and only then. Under the conditions of C92 no acknowledgement is lost or repeated.", "quantifier": "every manager with or without an event queue, every history and interleaving", "why_tests_cant": "all schedules", "anchors": ["pyogp/lib/base/message_manager.py: MessageManager.start_monitors", "pyogp/lib/base/message_manager.py: MessageManager.stop_monitors", "pyogp/lib/base/message_manager.py: MessageManager.enqueue_message", "pyogp/lib/base/message_manager.py: MessageManager._udp_dispatcher", "pyogp/lib/base/event_queue.py: EventQueueClient._processRegionEventQueue", "pyogp/lib/base/message/message_handler.py: MessageHandler.handle"]}
{"id": "C101", "title": "A received message and its subscribers, interrupted anywhere", "statement": "While a datagram that was accepted is being handed over, anything may run at every call of a subscriber: other operations of the dispatcher, subscriptions, unsubscriptions. The i-th call made for it goes to the i-th subscriber registered under the message's name at that moment, with the message as it was read, and only after the call before it returned normally. It ends with the first exception - receive_check passes it on, except a KeyError - or when nobody is registered at the next position; then receive_check returns the message. If nobody raises or changes the subscriptions, every subscriber is called once, in order.", "quantifier": "every state, accepted datagram and interleaving with other operations", "why_tests_cant": "all schedules", "anchors": ["pyogp/lib/base/message/udpdispatcher.py: UDPDispatcher.receive_check", "pyogp/lib/base/message/message_handler.py: MessageHandler.handle", "pyogp/lib/base/events.py: Event.__call__"]}
{"id": "C102", "title": "A message to be sent and its subscribers, interrupted anywhere", "statement": "With outgoing messages handled, send_message shows the message to the subscribers of the name it has when the send begins, the i-th call going to the i-th one registered at that moment, and each sees the Message object as it is then. When there is no further subscriber, or one raised KeyError, one packet is prepared, with the name and blocks the object has at that moment, for the address the Host object has at that moment; if a subscriber raised anything else, nothing is prepared and send_message raises it. The result is the bytes if sendto succeeds, and no bytes if the packet cannot be serialized or sendto fails.", "quantifier": "every state, message, host with an address, and interleaving with other operations", "why_tests_cant": "all schedules", "anchors": ["pyogp/lib/base/message/udpdispatcher.py: UDPDispatcher.__send_message", "pyogp/lib/base/message/message_handler.py: MessageHandler.handle", "pyogp/lib/base/events.py: Event.__call__", "pyogp/lib/base/network/net.py: NetUDPClient.send_packet"]}
{"id": "C103", "title": "Nothing but copies, dispatchers used concurrently", "statement": "Let any number of dispatchers with the same templates be used by overlapping operations (sends, receives, process_acks, registrations, anything between two calls of a subscriber or of the socket) over a network that may lose, duplicate, reorder and misdirect datagrams, but not make them up. A message that receive_check accepts, and every message a subscriber is called with, is a copy of a packet put out before: the same name, number, flags, blocks and values in the sense of C07. If the packet announced no acks, the message brings none; if it did, the acks it brings are read from the packet's own last bytes. Such a packet is accepted exactly if these acks leave the number of the message standing; otherwise receive_check raises IndexError, struct.error or MessageDeserializationError, and nothing is acknowledged. Only a dispatcher that had received something to be acknowledged from the destination puts out packets that announce acks. A packet that announces none is accepted by whoever gets it, on a circuit that is not trusted, unless message.xml or deferred parsing excludes it or nothing but empty Variable blocks were sent, and it is queued for acknowledgement exactly if it was sent reliably. Every id process_acks sends, and every id shown to a subscriber to PacketAck if nobody else sends PacketAcks, is the number of a datagram put out before.", "quantifier": "every set of dispatchers without subscribers to outgoing packets, every conforming use of them, every interleaving and delivery order, fewer than 2^31 packets per address", "why_tests_cant": "all schedules and networks", "anchors": ["pyogp/lib/base/message/udpdispatcher.py: UDPDispatcher.receive_check", "pyogp/lib/base/message/udpdispatcher.py: UDPDispatcher.process_acks", "pyogp/lib/base/message/udpdispatcher.py: UDPDispatcher.__send_message", "pyogp/lib/base/message/circuit.py: Circuit.prepare_packet", "pyogp/lib/base/message/udpdeserializer.py: UDPMessageDeserializer.deserialize"]}
{"id": "C104", "title": "Managers on a network", "statement": "Let any number of MessageManagers (with their UDP coroutines, event queues, user and subscribers, under every interleaving) use the same templates and exchange datagrams over a network that may lose, duplicate, reorder and misdirect datagrams but not make them up, their users leaving sending, receiving and acknowledging to the managers and enqueuing Messages that conform to their templates. Each of them behaves as a manager alone. A subscriber is called with a message only while subscribed to that name, and the message is a copy (C07) of a packet some manager put out, which is a PacketAck process_acks had just packed - all its ids numbers of datagrams put out before - or has the name and blocks of a Message enqueued earlier at its sender and popped just before. Datagrams never put out are never acknowledged, and no subscriber to PacketAck sees other ids unless somebody enqueues PacketAcks. A datagram that comes out of recvfrom of a waiting coroutine, its packet announcing no acks, is accepted as a copy of what was sent and queued for acknowledgement exactly if sent reliably (unless the table, deferred parsing, a trusted circuit or empty blocks exclude it); if its packet announces acks - then its sender owed some - it is accepted only if the last byte is small enough, else the coroutine ends with IndexError, struct.error or MessageDeserializationError and that manager's UDP traffic through it stops for good.", "quantifier": "every set of managers, every history of what their users, subscribers, coroutines, event queues, sockets and the network do; fewer than 2^31 packets per address", "why_tests_cant": "all schedules and networks", "anchors": ["pyogp/lib/base/message_manager.py: MessageManager._udp_dispatcher", "pyogp/lib/base/message_manager.py: MessageManager.enqueue_message", "pyogp/lib/base/message_manager.py: MessageManager.start_monitors", "pyogp/lib/base/network/net.py: NetUDPClient.receive_packet", "pyogp/lib/base/message/udpdispatcher.py: UDPDispatcher.receive_check", "pyogp/lib/base/message/udpdispatcher.py: UDPDispatcher.process_acks"]}
{"id": "C105", "title": "One coroutine at a time announces no acks", "statement": "A manager whose coroutine is the only one running (start_monitors is called again only after the earlier coroutine ended), whose user leaves sending, receiving and acknowledging to it, and which nobody observes sending, never puts out a packet that announces acknowledgements: whenever its coroutine takes a message from the outgoing queue, every number received so far has been packed into a PacketAck, in order of arrival and once per arrival, unless a coroutine was ended by an exception. On a network of such managers every datagram that was put out and comes out of recvfrom of a waiting coroutine is accepted as a copy of what was sent (unless the table, deferred parsing, a trusted circuit or empty blocks exclude it) and brings no acks, and so does every message a subscriber is called with; the loss of well-formed packets of C104 needs a second coroutine, and with one it happens.", "quantifier": "every manager and every network of managers, every history and interleaving under these conditions", "why_tests_cant": "all schedules and networks", "anchors": ["pyogp/lib/base/message_manager.py: MessageManager._udp_dispatcher", "pyogp/lib/base/message_manager.py: MessageManager.start_monitors", "pyogp/lib/base/message/udpdispatcher.py: UDPDispatcher.process_acks", "pyogp/lib/base/message/udpdispatcher.py: UDPDispatcher.receive_check", "pyogp/lib/base/message/circuit.py: Circuit.prepare_packet"]}
{"id": "C106", "title": "What ends a UDP operation, and a coroutine of the manager, with an exception", "statement": "However the operations of a dispatcher are interleaved, an exception ends receive_check only if a subscriber it was calling raised it (not KeyError, which is swallowed) or the datagram cannot be read: the deserializer raised it, or there are not even the five bytes with the packet's number. It ends send_message only if a subscriber (when outgoing messages are handled) raised it or if at some moment that message could not be converted to a string, as logging a failed send does; it ends process_acks only if a subscriber did so, or if someone replaced the contents of a PacketAck being sent and that could not be converted: otherwise process_acks never fails. Nothing else ends them (send_retry always fails); in particular the socket never does. Conversely such an exception of a subscriber, a datagram that cannot be read, and a send that fails in the socket with a message that cannot be converted then, do end the operation. A UDP coroutine of the manager that ends with an exception ends with that of its last call, for these reasons; conversely, when its last call has ended with an exception, the coroutine ends with it as soon as it goes on, for good.", "quantifier": "every dispatcher and every manager, every history and interleaving", "why_tests_cant": "all schedules", "anchors": ["pyogp/lib/base/message/udpdispatcher.py: UDPDispatcher.receive_check", "pyogp/lib/base/message/udpdispatcher.py: UDPDispatcher.__send_message", "pyogp/lib/base/message/udpdispatcher.py: UDPDispatcher.process_acks", "pyogp/lib/base/message/udpdispatcher.py: UDPDispatcher.__send_acks", "pyogp/lib/base/message/message_handler.py: MessageHandler.handle", "pyogp/lib/base/message_manager.py: MessageManager._udp_dispatcher"]}
{"id": "C107", "title": "Only a raising subscriber ends a coroutine on a network of managers", "statement": "Managers on an unreliable network (datagrams may be lost, delayed, repeated, misdirected), each started again only when its coroutine has ended, all with the same templates, no subscribers to outgoing packets; users leave sending, receiving and acknowledging to them, make only Messages that can be written, can be printed and have some instance of a block of their template, enqueue only Message objects there are, and every message in the tables has a flavor. Then a UDP coroutine that has ended with an exception was receiving a datagram, and a subscriber being called raised that exception (other than KeyError): whatever arrives, in whatever order and however often, no datagram, no send and no acknowledgement ends a coroutine. So if subscribers raise nothing but KeyError, no coroutine ends but by stop_monitors, and whenever a manager takes a message from its queue to send it, exactly the numbers received so far from each address have been packed into PacketAcks, in order and as often as they arrived.", "quantifier": "every number of managers, every history, interleaving and behaviour of the network", "why_tests_cant": "all schedules and all network behaviours", "anchors": ["pyogp/lib/base/message_manager.py: MessageManager._udp_dispatcher", "pyogp/lib/base/message_manager.py: MessageManager.send_udp_message", "pyogp/lib/base/message/udpdispatcher.py: UDPDispatcher.receive_check", "pyogp/lib/base/message/udpdeserializer.py: UDPMessageDeserializer.deserialize", "pyogp/lib/base/message/udpdispatcher.py: UDPDispatcher.process_acks", "pyogp/lib/base/message/message_handler.py: MessageHandler.handle"]}
